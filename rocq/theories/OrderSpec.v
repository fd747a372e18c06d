(** What numbers look like on the two kinds of machines.  Nothing here mentions memory: a machine
    that keeps the low byte of a number first writes numbers as docs/dataheader.md says (high byte
    first); the other kind writes them backwards. *)
From Verif Require Import Base BytesModel BytesSpec PwModel PwSpec ChModel ChSpec HeaderModel HeaderSpec OrderModel.

(** a number in a file *)
Definition u64_on (o : order) (v : N) : bytes := match o with Little => u64 v | Big => rev (u64 v) end.
(** what up to eight bytes stand for *)
Definition number_on (o : order) (l : bytes) : N :=
  match o with Little => be_val l | Big => be_val (rev l) * 256 ^ (8 - lenN l) end.
(** the number with its eight bytes backwards *)
Definition swap (v : N) : N := be_val (rev (u64 v)).

(** the layout of HeaderSpec with numbers as the machine writes them *)
Definition ser_chain_on (o : order) (c : N * N * bytes) : bytes :=
  u8 (fst (fst c)) ++ u64_on o (snd (fst c)) ++ u8 (lenN (snd c)) ++ snd c.
Definition ser_on (o : order) (fsize : N) (h : header) : bytes :=
  u64_on o fsize ++ u64_on o (hdr_len h) ++ u8 (h_fmode h) ++ u8 (h_hmode h) ++
  u8 (lenN (h_blocks h)) ++ concat (map ser_block (h_blocks h)) ++
  ser_chain_on o (h_ch1 h) ++ ser_chain_on o (h_ch2 h) ++
  h_valid h ++ h_salt h ++ u8 (lenN (h_encs h)) ++ concat (map ser_enc (h_encs h)).
(** what can be observed of a header object *)
Definition shows_on (o : order) (d : dheader) (fs : N) (h : header) : Prop :=
  contents d = Some h /\ d_fsize d = Some fs /\ exists b, getHeaderBytes d = Ret b /\ bdata b = ser_on o fs h.
(** the same object, whatever header bytes it has stored *)
Definition storing (b : Bytes) (d : dheader) : dheader := mkDH (d_parts d) (d_hsize d) b (d_fsize d) (d_blen d).

(** the data of a chain hash with its numbers backwards *)
Definition flip (mode : N) (data : bytes) : bytes :=
  match mode with
  | 3 => rev data
  | 4 => rev (takeN 8 data) ++ dropN 8 data
  | 5 => rev (takeN 8 data) ++ rev (takeN 8 (dropN 8 data)) ++ rev (takeN 8 (dropN 16 data)) ++ rev (dropN 24 data)
  | _ => data
  end.
Definition described_on (o : order) (mode : N) (data : bytes) : saltmode :=
  match o with Little => described mode data | Big => described mode (flip mode data) end.
