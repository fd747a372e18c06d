(** What a data header is supposed to be (docs/dataheader.md): a record of plain values with a
    byte layout; and the histories of calls that produce header objects. *)
From Verif Require Import Base BytesModel CipherModel CipherSpec PwModel PwSpec ChModel ChSpec HeaderModel.

(** ** The layout *)
Fixpoint big_endian (k : nat) (v : N) : bytes :=
  match k with O => [] | S k' => big_endian k' (v / 256) ++ [n2b v] end.
Definition u64 (v : N) : bytes := big_endian 8 v.
Definition u8 (v : N) : bytes := [n2b v].

Record header := mkHeader {
  h_fmode : N; h_hmode : N;
  h_blocks : list (N * bytes);                         (* type, data *)
  h_ch1 : N * N * bytes; h_ch2 : N * N * bytes;        (* mode, iterations, data *)
  h_valid : bytes; h_salt : bytes;
  h_encs : list (N * N * bytes) }.                     (* encrypted type, encrypted length, data *)

Definition ser_block (b : N * bytes) : bytes := u8 (fst b) ++ u8 (lenN (snd b)) ++ snd b.
Definition ser_enc (e : N * N * bytes) : bytes := u8 (fst (fst e)) ++ u8 (snd (fst e)) ++ snd e.
(** [lb] is the length byte *)
Definition ser_chain (lb : N) (c : N * N * bytes) : bytes := u8 (fst (fst c)) ++ u64 (snd (fst c)) ++ u8 lb ++ snd c.
Definition sum (l : list N) : N := fold_right N.add 0 l.

(** length of a header: the formula of docs/dataheader.md *)
Definition digest_len (hmode : N) : N := match hmode with 1 => 32 | 2 => 48 | 3 => 64 | _ => 0 end.
Definition hdr_len (h : header) : N :=
  40 + 2 * digest_len (h_hmode h) + lenN (snd (h_ch1 h)) + lenN (snd (h_ch2 h)) +
  2 * lenN (h_blocks h) + 257 * lenN (h_encs h) + sum (map (fun b => lenN (snd b)) (h_blocks h)).

(** the layout with given size field and length bytes *)
Definition layout_with (fsize hsize lb1 lb2 : N) (h : header) : bytes :=
  u64 fsize ++ u64 hsize ++ u8 (h_fmode h) ++ u8 (h_hmode h) ++
  u8 (lenN (h_blocks h)) ++ concat (map ser_block (h_blocks h)) ++
  ser_chain lb1 (h_ch1 h) ++ ser_chain lb2 (h_ch2 h) ++
  h_valid h ++ h_salt h ++ u8 (lenN (h_encs h)) ++ concat (map ser_enc (h_encs h)).
(** the bytes of a header in a file of [fsize] bytes *)
Definition ser (fsize : N) (h : header) : bytes :=
  layout_with fsize (hdr_len h) (lenN (snd (h_ch1 h))) (lenN (snd (h_ch2 h))) h.

(** data that a chain hash mode takes *)
Definition data_fits (mode : N) (data : bytes) : Prop :=
  match mode with
  | 1 => lenN data = 0 | 2 => lenN data <= 255 | 3 => lenN data = 8
  | 4 => 8 <= lenN data <= 255 | 5 => lenN data = 32 | _ => False
  end.
Definition chain_ok (c : N * N * bytes) : Prop :=
  1 <= fst (fst c) <= 5 /\ 1 <= snd (fst c) <= 1000000000 /\ data_fits (fst (fst c)) (snd c).
Definition block_ok (b : N * bytes) : Prop := fst b < 256 /\ lenN (snd b) <= 255.
Definition enc_ok (e : N * N * bytes) : Prop := fst (fst e) < 256 /\ snd (fst e) < 256 /\ lenN (snd e) = 255.
Definition header_ok (h : header) : Prop :=
  h_fmode h = 1 /\ 1 <= h_hmode h <= 3 /\
  lenN (h_blocks h) <= 255 /\ Forall block_ok (h_blocks h) /\
  chain_ok (h_ch1 h) /\ chain_ok (h_ch2 h) /\
  lenN (h_valid h) = digest_len (h_hmode h) /\ lenN (h_salt h) = digest_len (h_hmode h) /\
  lenN (h_encs h) <= 255 /\ Forall enc_ok (h_encs h).
Definition no_empty_block (h : header) : Prop := Forall (fun b => snd b <> []) (h_blocks h).
(** the constant salt of free length: modes 2 and 4 *)
Definition free_salt (c : N * N * bytes) : bytes :=
  match fst (fst c) with 2 => snd c | 4 => dropN 8 (snd c) | _ => [] end.

(** ** What the decoder of a file makes of a byte string *)
(** a plain block that is not empty *)
Definition good (b : N * bytes) : Prop := block_ok b /\ snd b <> [].
(** which length bytes are accepted: checked only where the mode has a part of free length *)
Definition lb_ok (m : N) (data : bytes) (lb : N) : Prop := m = 2 \/ m = 4 -> lb = lenN data.
(** a chain hash on file: [lb] is the length byte, the iterations need not be in range *)
Definition chain_shape (c : N * N * bytes) (lb : N) : Prop :=
  1 <= fst (fst c) <= 5 /\ snd (fst c) < two64 /\ data_fits (fst (fst c)) (snd c) /\ lb_ok (fst (fst c)) (snd c) lb /\ lb < 256.
(** the part of a file up to the plain blocks, [n] being the number of blocks it announces *)
Definition pre (fs hsz hm n : N) (bs : list (N * bytes)) : bytes :=
  u64 fs ++ u64 hsz ++ u8 1 ++ u8 hm ++ u8 n ++ concat (map ser_block bs).
Definition pre_ok (file : bytes) (hsz hm : N) (bs : list (N * bytes)) : Prop :=
  lenN file < two64 /\ hsz <= lenN file /\ 1 <= hm <= 3 /\ Forall good bs /\ lenN bs <= 255.
(** a plain block of length zero, behind a preamble that is accepted *)
Definition zero_block (file : bytes) : Prop := exists hsz hm n bs ty r,
  pre_ok file hsz hm bs /\ lenN bs < n /\ n < 256 /\ ty < 256 /\ file = pre (lenN file) hsz hm n bs ++ u8 ty ++ u8 0 ++ r.
(** a wrong length byte in the first or second chain hash *)
Definition bad_length1 (file : bytes) : Prop := exists hsz hm bs c lb r,
  pre_ok file hsz hm bs /\ chain_shape c lb /\ lb <> lenN (snd c) /\
  file = pre (lenN file) hsz hm (lenN bs) bs ++ ser_chain lb c ++ r.
Definition bad_length2 (file : bytes) : Prop := exists hsz hm bs c1 c lb r,
  pre_ok file hsz hm bs /\ chain_ok c1 /\ chain_shape c lb /\ lb <> lenN (snd c) /\
  file = pre (lenN file) hsz hm (lenN bs) bs ++ ser_chain (lenN (snd c1)) c1 ++ ser_chain lb c ++ r.
(** a header with these size and length fields, and what follows it *)
Definition written_as (file : bytes) (hsz l1 l2 : N) (h : header) (rest : bytes) : Prop :=
  header_ok h /\ no_empty_block h /\ hsz <= lenN file /\
  lb_ok (fst (fst (h_ch1 h))) (snd (h_ch1 h)) l1 /\ l1 < 256 /\ lb_ok (fst (fst (h_ch2 h))) (snd (h_ch2 h)) l2 /\ l2 < 256 /\
  file = layout_with (lenN file) hsz l1 l2 h ++ rest.
(** a header with a wrong size field *)
Definition bad_size (file : bytes) : Prop := exists hsz h rest,
  written_as file hsz (lenN (snd (h_ch1 h))) (lenN (snd (h_ch2 h))) h rest /\ hsz <> hdr_len h.

(** ** What the decoder of a buffer looks at.  It does not step over a part of free length, so
    what follows such a part is read from inside it. *)
Definition found (f : bytes) (i : N) (x : bytes) : Prop := exists p r, f = p ++ x ++ r /\ lenN p = i.
Definition stepped (c : N * N * bytes) : N := 10 + (lenN (snd c) - lenN (free_salt c)).
Definition pos1 (h : header) : N := 19 + lenN (concat (map ser_block (h_blocks h))).
Definition pos2 (h : header) : N := pos1 h + stepped (h_ch1 h).
Definition pos3 (h : header) : N := pos2 h + stepped (h_ch2 h).
Definition tail_of (h : header) : bytes := h_valid h ++ h_salt h ++ u8 (lenN (h_encs h)) ++ concat (map ser_enc (h_encs h)).
Definition pos4 (h : header) : N := pos3 h + lenN (tail_of h).
Definition mem_view (f : bytes) (fs hsz l1 l2 : N) (h : header) : Prop :=
  found f 0 (pre fs hsz (h_hmode h) (lenN (h_blocks h)) (h_blocks h)) /\
  found f (pos1 h) (ser_chain l1 (h_ch1 h)) /\ found f (pos2 h) (ser_chain l2 (h_ch2 h)) /\ found f (pos3 h) (tail_of h).

(** ** The values held by a header object; None when one is missing *)
Definition chain_of (c : chainhash) : option (N * N * bytes) :=
  if ch_val c then
    match ch_mode c, ch_data c with Some m, Some d => Some (m, ch_iters c, bdata (cd_block d)) | _, _ => None end
  else None.
Definition contents (d : dheader) : option header :=
  let p := d_parts d in
  match p_fmode p, p_hmode p, chain_of (p_ch1 p), chain_of (p_ch2 p), p_valid p, p_salt p with
  | Some fm, Some hm, Some c1, Some c2, Some v, Some s =>
      Some (mkHeader fm hm (map (fun b => (db_type b, bdata (db_data b))) (p_dec p)) c1 c2 (bdata v) (bdata s)
              (map (fun e => (db_type (eb_block e), eb_len e, bdata (db_data (eb_block e)))) (p_enc p)))
  | _, _, _, _, _, _ => None
  end.

(** what can be observed of a header object that holds [h] in a file of [fs] bytes *)
Definition shows (d : dheader) (fs : N) (h : header) : Prop :=
  contents d = Some h /\ d_fsize d = Some fs /\ exists b, getHeaderBytes d = Ret b /\ bdata b = ser fs h.

(** ** Calls on a header object *)
Inductive hop :=
| HChain1 (c : chainhash) | HChain2 (c : chainhash) | HFileMode (m : N) | HValid (b : Bytes) | HSalt (b : Bytes)
| HClear | HBlock (b : datablock) | HEnc (e : encblock)
| HFileSize (n : N) | HDataSize (n : N) | HCalc (pwhash : Bytes)
| HShared1 (o : cdop) | HShared2 (o : cdop).   (* a call on the data of a chain hash, through another pointer *)
(** a setter that throws leaves the object as it was *)
Definition keep (d : dheader) (r : outcome dheader) : dheader * outcome unit :=
  match r with Ret d' => (d', Ret tt) | Throw e => (d, Throw e) | Crash c => (d, Crash c) | OutOfFuel => (d, OutOfFuel) end.
Definition share (bd : build) (o : cdop) (c : chainhash) : chainhash := ch_mutate (fun x => cd_step bd x o) c.
Definition d_mutate (f : dhparts -> dhparts) (d : dheader) : dheader :=
  mkDH (f (d_parts d)) (d_hsize d) (d_bytes d) (d_fsize d) (d_blen d).
Definition h_step (bd : build) (H : hashes) (clk : nat -> N) (d : dheader) (o : hop) : dheader * outcome unit :=
  match o with
  | HChain1 c => keep d (setChainHash1 c d)
  | HChain2 c => keep d (setChainHash2 c d)
  | HFileMode m => keep d (d_setFileDataMode m d)
  | HValid b => keep d (setValidPasswordHashBytes b d)
  | HSalt b => keep d (d_setEncSalt b d)
  | HClear => (clearDataBlocks d, Ret tt)
  | HBlock b => keep d (addDataBlock b d)
  | HEnc e => keep d (addEncDataBlock e d)
  | HFileSize n => keep d (setFileSize n d)
  | HDataSize n => keep d (setDataSize n d)
  | HCalc pw => calcHeaderBytes H clk pw d
  | HShared1 o => (d_mutate (fun p => p_setCh1 (share bd o (p_ch1 p)) p) d, Ret tt)
  | HShared2 o => (d_mutate (fun p => p_setCh2 (share bd o (p_ch2 p)) p) d, Ret tt)
  end.
(** blocks that a program can have (the types are bytes) *)
Inductive block_made : datablock -> Prop :=
| bm_default : block_made db_default
| bm_new ty data b : ty < 256 -> newDataBlock ty data = Ret b -> block_made b
| bm_set data b b' : block_made b -> db_setData data b = Ret b' -> block_made b'
| bm_type ty b : ty < 256 -> block_made b -> block_made (mkDB ty (db_data b)).
Inductive enc_made : encblock -> Prop :=
| em_create ty data len e : ty < 256 -> len < 256 -> createEncBlock ty data len = Ret e -> enc_made e
| em_new fuel rnd h b pwhash salt e : (forall k, lenN (rnd k) = k) -> block_made b ->
    newEncDataBlock fuel rnd h b pwhash salt = Ret e -> enc_made e.
Definition hop_ok (bd : build) (o : hop) : Prop :=
  match o with
  | HChain1 c | HChain2 c => built bd c
  | HBlock b => block_made b
  | HEnc e => enc_made e
  | HFileSize n => n < two64
  | HShared1 o | HShared2 o => cdop_ok o
  | _ => True
  end.
(** header objects that a program can have *)
Inductive hbuilt (bd : build) : dheader -> Prop :=
| hb_new rnd mode d : (forall k, lenN (rnd k) = k) -> newDataHeader rnd mode = Ret d -> hbuilt bd d
| hb_stream rnd file d rest : (forall k, lenN (rnd k) = k) -> decode_stream bd rnd file = Ret (inr (d, rest)) -> lenN file < two64 -> hbuilt bd d
| hb_mem rnd f d : (forall k, lenN (rnd k) = k) -> decode_mem bd rnd f = Ret (inr d) -> hbuilt bd d
| hb_step H clk d o : hbuilt bd d -> hop_ok bd o -> hbuilt bd (fst (h_step bd H clk d o)).
Fixpoint h_run (bd : build) (H : hashes) (clk : nat -> N) (d : dheader) (ops : list hop) : dheader :=
  match ops with [] => d | o :: r => h_run bd H clk (fst (h_step bd H clk d o)) r end.

(** ** Hash functions; the value of a chain hash on a byte string *)
Definition hashes_ok (H : hashes) : Prop :=
  (forall x, lenN (H256 H x) = 32) /\ (forall x, lenN (H384 H x) = 48) /\ (forall x, lenN (H512 H x) = 64).
Definition hash_of (H : hashes) (mode : N) : bytes -> bytes := match mode with 1 => H256 H | 2 => H384 H | _ => H512 H end.
Definition chain_value (H : bytes -> bytes) (c : N * N * bytes) (x : bytes) : bytes :=
  iterated H (described (fst (fst c)) (snd c)) x (N.to_nat (snd (fst c) - 1)).

(** ** Header settings: the last value of each kind that is in range *)
Definition in_range (bound : N) (o : set_op) : Prop :=
  match o with SFile m => m = 1 | SHash m => 1 <= m <= 3 | SCh1 m | SCh2 m => 1 <= m <= 5 | SN1 n | SN2 n => 1 <= n <= bound end.
Definition set_run1 (bound : N) (s : dhsettings) (o : set_op) : dhsettings :=
  match set_step bound s o with Ret s' => s' | _ => s end.
Definition set_run (bound : N) (ops : list set_op) : dhsettings := fold_left (set_run1 bound) ops set_empty.
Definition slots (s : dhsettings) : list (option N) := [s_fmode s; s_hmode s; s_ch1 s; s_ch2 s; s_n1 s; s_n2 s].
Definition slot_of (o : set_op) : nat := match o with SFile _ => 0 | SHash _ => 1 | SCh1 _ => 2 | SCh2 _ => 3 | SN1 _ => 4 | SN2 _ => 5 end.
Definition value_of (o : set_op) : N := match o with SFile m | SHash m | SCh1 m | SCh2 m | SN1 m | SN2 m => m end.
(** the call [o] set slot [i] last *)
Definition last_set (bound : N) (ops : list set_op) (i : nat) (v : N) : Prop := exists a o b,
  ops = a ++ o :: b /\ slot_of o = i /\ value_of o = v /\ in_range bound o /\
  Forall (fun x => slot_of x = i -> ~ in_range bound x) b.

(** ** Encrypted blocks: the byte stream that is added to the data *)
Fixpoint pad (H : bytes -> bytes) (n : nat) (key s : bytes) : bytes :=
  match n with O => [] | S k => let s' := H (bdiff s key) in s' ++ pad H k key s' end.
