(** A reference reader for buffers: what the decoder that works on a buffer in memory answers.  It walks through the
    buffer with a position of 16 bits, so positions start again at 0 after 65535, and it does not step over the part
    of a chain hash that has no fixed length. *)
From Verif Require Import Base BytesModel BytesSpec HeaderModel HeaderSpec RefSpec.

(** the [n] bytes at position [i]; the same as a number *)
Definition here (e : errcode) (f : bytes) (i n : N) : verdict bytes :=
  if i + n <=? lenN f then Gives (takeN n (dropN i f)) else Rejects e.
Definition num (e : errcode) (f : bytes) (i n : N) : verdict N :=
  also (here e f i n) (fun x => Gives (be_val x)).
(** the position [n] bytes on *)
Definition on (i n : N) : N := (i + n) mod 65536.

(** [n] plain blocks *)
Fixpoint get_blocks (n : nat) (f : bytes) (i : N) : verdict (list (N * bytes) * N) :=
  match n with
  | O => Gives ([], i)
  | S n' =>
      also (num ERR f i 1) (fun ty => let i := on i 1 in
      also (num ERR f i 1) (fun len => let i := on i 1 in
      also (here ERR f i len) (fun x =>
      also (check (negb (len =? 0)) ERR) (fun _ =>
      also (get_blocks n' f (on i len)) (fun '(bs, i) => Gives ((ty, x) :: bs, i))))))
  end.
(** the data of a chain hash: pieces of eight bytes, then in modes 2 and 4 as many as the length byte [lb] leaves *)
Fixpoint get_eights (k : nat) (f : bytes) (i : N) : verdict (bytes * N) :=
  match k with
  | O => Gives ([], i)
  | S k' =>
      also (here ERR_CHAINHASH_DATABLOCK_OUTOFRANGE f i 8) (fun x =>
      also (get_eights k' f (on i 8)) (fun '(y, i) => Gives (x ++ y, i)))
  end.
Definition eights (mode : N) : nat := match mode with 3 | 4 => 1 | 5 => 4 | _ => 0 end.
Definition get_data (mode lb : N) (f : bytes) (i : N) : verdict (bytes * N) :=
  also (get_eights (eights mode) f i) (fun '(x, i) =>
  if (mode =? 2) || (mode =? 4) then
    if lb <? lenN x then
      Rejects (if i + lb <? lenN x then ERR_CHAINHASH_DATABLOCK_OUTOFRANGE else ERR_CHAINHASH_DATAPART_INVALID)
    else also (here ERR_CHAINHASH_DATABLOCK_OUTOFRANGE f i (lb - lenN x)) (fun y => Gives (x ++ y, i))
  else Gives (x, i)).
Definition get_chain (bd : build) (code : errcode) (f : bytes) (i : N) : verdict ((N * N * bytes) * N) :=
  also (num ERR f i 1) (fun mode =>
  also (check ((1 <=? mode) && (mode <=? 5)) ERR_CHAINHASHMODE_FORMAT_INVALID) (fun _ => let i := on i 1 in
  also (num ERR f i 8) (fun iters => let i := on i 8 in
  also (num ERR f i 1) (fun lb => let i := on i 1 in
  also (get_data mode lb f i) (fun '(x, i) =>
  also (insist bd (lenN x =? lb)) (fun _ =>
  also (check ((1 <=? iters) && (iters <=? 1000000000)) code) (fun _ =>
  Gives ((mode, iters, x), i)))))))).
Fixpoint get_encs (n : nat) (f : bytes) (i : N) : verdict (list (N * N * bytes) * N) :=
  match n with
  | O => Gives ([], i)
  | S n' =>
      also (num ERR f i 1) (fun ty => let i := on i 1 in
      also (num ERR f i 1) (fun len => let i := on i 1 in
      also (here ERR f i 255) (fun x =>
      also (get_encs n' f (on i 255)) (fun '(es, i) => Gives ((ty, len, x) :: es, i)))))
  end.
(** the size the buffer states for its file, and the header *)
Definition read_buffer (bd : build) (f : bytes) : verdict (N * header) :=
  also (num ERR_NOT_ENOUGH_DATA f 0 8) (fun fsize =>
  also (num ERR_NOT_ENOUGH_DATA f 8 8) (fun hsize =>
  also (check (hsize <=? lenN f) ERR_NOT_ENOUGH_DATA) (fun _ =>
  also (num ERR f 16 1) (fun fm =>
  also (num ERR f 17 1) (fun hm =>
  also (check ((1 <=? hm) && (hm <=? 3)) ERR_HASHMODE_INVALID) (fun _ =>
  also (check (fm =? 1) ERR_FILEMODE_INVALID) (fun _ =>
  also (num ERR f 18 1) (fun n =>
  also (get_blocks (N.to_nat n) f 19) (fun '(bs, i) =>
  also (get_chain bd ERR_CHAINHASH1_INVALID f i) (fun '(c1, i) =>
  also (get_chain bd ERR_CHAINHASH2_INVALID f i) (fun '(c2, i) =>
  also (here ERR f i (digest_len hm)) (fun v => let i := on i (digest_len hm) in
  also (here ERR f i (digest_len hm)) (fun sa => let i := on i (digest_len hm) in
  also (num ERR f i 1) (fun n => let i := on i 1 in
  also (get_encs (N.to_nat n) f i) (fun '(es, i) =>
  let h := mkHeader fm hm bs c1 c2 v sa es in
  also (check (hdr_len h <=? fsize) ERR_FILESIZE_INVALID) (fun _ =>
  also (insist bd (i =? hsize)) (fun _ =>
  also (insist bd (hdr_len h =? hsize)) (fun _ => Gives (fsize, h))))))))))))))))))).
