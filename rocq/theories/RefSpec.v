(** A reference reader for files: what a reader of plain byte strings that follows
    docs/dataheader.md makes of a file, with the answers [selectFile] documents. *)
From Verif Require Import Base BytesModel BytesSpec HeaderModel HeaderSpec.

(** a value, an error code, or the end of the process *)
Inductive verdict (A : Type) := Gives (x : A) | Rejects (e : errcode) | Dies (c : crash).
Arguments Gives {A} _. Arguments Rejects {A} _. Arguments Dies {A} _.
Definition also {A B} (v : verdict A) (k : A -> verdict B) : verdict B :=
  match v with Gives x => k x | Rejects e => Rejects e | Dies c => Dies c end.
Definition check (b : bool) (e : errcode) : verdict unit := if b then Gives tt else Rejects e.
(** a Debug build checks, a Release build goes on *)
Definition insist (bd : build) (b : bool) : verdict unit :=
  match bd with Debug => if b then Gives tt else Dies AssertFail | Release => Gives tt end.

(** the next [n] bytes; the next [n] bytes as a number *)
Definition take_n (n : N) (s : bytes) : verdict (bytes * bytes) :=
  if n <=? lenN s then Gives (takeN n s, dropN n s) else Rejects ERR_NOT_ENOUGH_DATA.
Definition take_num (n : N) (s : bytes) : verdict (N * bytes) :=
  also (take_n n s) (fun '(x, r) => Gives (be_val x, r)).

(** [n] plain blocks; an empty block ends the process *)
Fixpoint take_blocks (n : nat) (s : bytes) : verdict (list (N * bytes) * bytes) :=
  match n with
  | O => Gives ([], s)
  | S n' =>
      also (take_num 1 s) (fun '(ty, s) =>
      also (take_num 1 s) (fun '(len, s) =>
      also (take_n len s) (fun '(x, s) =>
      if len =? 0 then Dies Terminate
      else also (take_blocks n' s) (fun '(bs, s) => Gives ((ty, x) :: bs, s)))))
  end.
(** how much data a chain hash has: the length byte decides in modes 2 and 4 only *)
Definition data_length (mode lb : N) : N :=
  match mode with 1 => 0 | 2 => lb | 3 => 8 | 4 => lb | _ => 32 end.
Definition take_chain (bd : build) (code : errcode) (s : bytes) : verdict ((N * N * bytes) * bytes) :=
  also (take_num 1 s) (fun '(mode, s) =>
  also (check ((1 <=? mode) && (mode <=? 5)) ERR_CHAINHASHMODE_FORMAT_INVALID) (fun _ =>
  also (take_num 8 s) (fun '(iters, s) =>
  also (take_num 1 s) (fun '(lb, s) =>
  also (check (negb ((mode =? 4) && (lb <? 8))) ERR_NOT_ENOUGH_DATA) (fun _ =>
  also (take_n (data_length mode lb) s) (fun '(x, s) =>
  also (insist bd (lenN x =? lb)) (fun _ =>
  also (check ((1 <=? iters) && (iters <=? 1000000000)) code) (fun _ =>
  Gives ((mode, iters, x), s))))))))).
Fixpoint take_encs (n : nat) (s : bytes) : verdict (list (N * N * bytes) * bytes) :=
  match n with
  | O => Gives ([], s)
  | S n' =>
      also (take_num 1 s) (fun '(ty, s) =>
      also (take_num 1 s) (fun '(len, s) =>
      also (take_n 255 s) (fun '(x, s) =>
      also (take_encs n' s) (fun '(es, s) => Gives ((ty, len, x) :: es, s)))))
  end.
(** the header and the rest of the file *)
Definition read_file (bd : build) (file : bytes) : verdict (header * bytes) :=
  also (take_num 8 file) (fun '(fsize, s) =>
  also (take_num 8 s) (fun '(hsize, s) =>
  also (check (fsize =? lenN file) ERR_FILESIZE_INVALID) (fun _ =>
  also (check (hsize <=? lenN file) ERR_HEADERSIZE_FILESIZE_MISMATCH) (fun _ =>
  also (take_num 1 s) (fun '(fm, s) =>
  also (take_num 1 s) (fun '(hm, s) =>
  also (check ((1 <=? hm) && (hm <=? 3)) ERR_HASHMODE_INVALID) (fun _ =>
  also (check (fm =? 1) ERR_FILEMODE_INVALID) (fun _ =>
  also (take_num 1 s) (fun '(n, s) =>
  also (take_blocks (N.to_nat n) s) (fun '(bs, s) =>
  also (take_chain bd ERR_CHAINHASH1_INVALID s) (fun '(c1, s) =>
  also (take_chain bd ERR_CHAINHASH2_INVALID s) (fun '(c2, s) =>
  also (take_n (digest_len hm) s) (fun '(v, s) =>
  also (take_n (digest_len hm) s) (fun '(sa, s) =>
  also (check (negb (lenN s =? 0)) ERR_FILESIZE_INVALID) (fun _ =>
  also (take_num 1 s) (fun '(n, s) =>
  also (take_encs (N.to_nat n) s) (fun '(es, s) =>
  let h := mkHeader fm hm bs c1 c2 v sa es in
  also (insist bd (hdr_len h =? hsize)) (fun _ => Gives (h, s))))))))))))))))))).
