(** Specification for C122: the field in which a file ends too early. *)
From Coq Require Import Strings.String.
From Verif Require Import Base BytesModel PwModel HeaderModel HeaderSpec RefSpec.

(** where a plain block should be *)
Definition block_lacks (r i : bytes) : Prop :=
  (r = [] /\ i = str "Data block type") \/ (lenN r = 1 /\ i = str "Data block len") \/
  (exists ty len x, r = u8 ty ++ u8 len ++ x /\ ty < 256 /\ len < 256 /\ lenN x < len /\ i = str "Data block data").
(** where the chain hash number [k] should be; in mode 4 a length byte below 8 counts as missing data *)
Definition chain_lacks (k r i : bytes) : Prop :=
  (r = [] /\ i = str "Chainhash" ++ k ++ str " mode") \/ 
  (exists m x, r = u8 m ++ x /\ 1 <= m <= 5 /\ lenN x < 8 /\ i = str "Chainhash" ++ k ++ str " iters") \/
  (exists m x, r = u8 m ++ x /\ 1 <= m <= 5 /\ lenN x = 8 /\ i = str "Chainhash" ++ k ++ str " blocklen") \/
  (exists m it lb x, r = u8 m ++ u64 it ++ u8 lb ++ x /\ 1 <= m <= 5 /\ it < two64 /\ lb < 256 /\
     (lenN x < data_length m lb \/ m = 4 /\ lb < 8) /\ i = str "Chainhash data block " ++ k).
(** where an encrypted block should be *)
Definition enc_lacks (r i : bytes) : Prop :=
  (r = [] /\ i = str "Enc datablock type") \/ (lenN r = 1 /\ i = str "Enc datablock len") \/
  (2 <= lenN r < 257 /\ i = str "Enc datablock data").
(** behind the chain hashes: two digests of [n] bytes, a number, and that many encrypted blocks *)
Definition tail_lacks (n : N) (r i : bytes) : Prop :=
  (lenN r < n /\ i = str "Password validator hash") \/ (n <= lenN r < 2 * n /\ i = str "Encrypted salt") \/
  (exists v m es r', lenN v = 2 * n /\ r = v ++ u8 m ++ concat (map ser_enc es) ++ r' /\ Forall enc_ok es /\ lenN es < m /\ m < 256 /\ enc_lacks r' i).
(** the file is a header up to the field [i] and ends in it; the blocks and the chain hashes before it are such as [B] and [C] say *)
Definition ends_with (B : N * bytes -> Prop) (C : N * N * bytes -> N -> Prop) (file i : bytes) : Prop := exists hsz hm n bs r,
  file = pre (lenN file) hsz hm n bs ++ r /\ hsz <= lenN file /\ 1 <= hm <= 3 /\ n < 256 /\ Forall B bs /\
  ((lenN bs < n /\ block_lacks r i) \/
   (lenN bs = n /\
    (chain_lacks (str "1") r i \/
     exists c1 l1 r1, r = ser_chain l1 c1 ++ r1 /\ C c1 l1 /\
       (chain_lacks (str "2") r1 i \/
        exists c2 l2 r2, r1 = ser_chain l2 c2 ++ r2 /\ C c2 l2 /\ tail_lacks (digest_len hm) r2 i)))).
Definition ends_in : bytes -> bytes -> Prop := ends_with block_ok chain_shape.
(** nothing else is wrong before that field *)
Definition only_ends_in : bytes -> bytes -> Prop := ends_with good (fun c l => chain_ok c /\ l = lenN (snd c)).

(** the fields behind the first nineteen bytes of a header, with their lengths *)
Definition block_fields (b : N * bytes) : list (bytes * N) :=
  [(str "Data block type", 1); (str "Data block len", 1); (str "Data block data", lenN (snd b))].
Definition chain_fields (k : bytes) (c : N * N * bytes) : list (bytes * N) :=
  [(str "Chainhash" ++ k ++ str " mode", 1); (str "Chainhash" ++ k ++ str " iters", 8); (str "Chainhash" ++ k ++ str " blocklen", 1);
   (str "Chainhash data block " ++ k, lenN (snd c))].
Definition enc_fields (e : N * N * bytes) : list (bytes * N) := [(str "Enc datablock type", 1); (str "Enc datablock len", 1); (str "Enc datablock data", 255)].
Definition tail_fields (n : N) (es : list (N * N * bytes)) : list (bytes * N) :=
  (str "Password validator hash", n) :: (str "Encrypted salt", n) :: (str "Encrypted block count", 1) :: concat (map enc_fields es).
Definition fields (h : header) : list (bytes * N) :=
  concat (map block_fields (h_blocks h)) ++ chain_fields (str "1") (h_ch1 h) ++ chain_fields (str "2") (h_ch2 h) ++ tail_fields (digest_len (h_hmode h)) (h_encs h).
(** the field to which the byte with this number belongs *)
Fixpoint field_at (l : list (bytes * N)) (j : N) : option bytes :=
  match l with [] => None | (i, n) :: r => if j <? n then Some i else field_at r (j - n) end.
(** the first [j] bytes of a header, with other size fields *)
Definition cut_header (j hsz : N) (h : header) : bytes := u64 j ++ u64 hsz ++ takeN (j - 16) (dropN 16 (ser 0 h)).
