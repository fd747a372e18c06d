(** What encrypting and decrypting have to compute: for every block three digests for its pad, and one more over the
    data of the block once it is complete. *)
From Verif Require Import Base BytesModel CipherModel CipherSpec PwModel PwSpec ChModel ChSpec HeaderModel HeaderSpec FileModel ApiModel ApiSpec WorkModel WorkSpec.
Open Scope N_scope.
Open Scope list_scope.

Section Texts.
  Variable D : bytes -> bytes.   (* the digest function *)
  Variable n : N.                (* digest size = block size *)
  (** the digests for the pad of a block: the next running key, the next running salt, the pad *)
  Definition pad_texts (st : kstate) : list bytes :=
    let '(k, s, l) := st in
    [bsum (bsum k s) l; bsum (bsum (knext_key D st) s) l; bsum (knext_key D st) (knext_salt D st)].
  Fixpoint block_texts (st : kstate) (ps : list bytes) : list bytes :=
    match ps with
    | [] => []
    | p :: r => pad_texts st ++ (if lenN p =? n then [p] else []) ++ block_texts (kafter D st p) r
    end.
  (** even without data a pad is computed *)
  Definition data_texts (st : kstate) (d : bytes) : list bytes :=
    match d with [] => pad_texts st | _ => block_texts st (blocks n d) end.
End Texts.

(** the digests computed for the data [d] of a file with header [h] and password [pw], in order *)
Definition crypt_texts (H : hashes) (h : header) (pw d : bytes) : list bytes :=
  data_texts (hash_of H (h_hmode h)) (digest_len (h_hmode h)) (kstart (digest_len (h_hmode h)) (key_of H h pw) (h_salt h)) d.
(** their number for [L] bytes in blocks of [n] *)
Definition crypt_cost (n L : N) : N := 3 * N.max 1 ((L + n - 1) / n) + L / n.

(** ** An attack: test a guessed password against bytes that the data are known to begin with, without the second
    chain hash.  The program only uses the header, the encrypted data and the guess; it records what it digests. *)
Section Probe.
  Variable D : bytes -> bytes.
  Fixpoint rounds (m : saltmode) (guess : bytes) (k : nat) : list bytes * bytes :=
    match k with
    | O => ([], guess)
    | S j => let r := rounds m guess j in let t := snd r ++ salt_at m (N.of_nat j) in (fst r ++ [t], D t)
    end.
  Definition probe (n : N) (h : header) (body known guess : bytes) : list bytes * bool :=
    let r := rounds (salts (h_ch1 h)) guess (N.to_nat (iterations (h_ch1 h))) in
    let zero := repeat x00 (N.to_nat n) in
    let t1 := bsum (bsum (snd r) (h_salt h)) zero in
    let t2 := bsum (bsum (D t1) (h_salt h)) zero in
    let t3 := bsum (D t1) (D t2) in
    (fst r ++ [t1; t2; t3], if list_eq_dec Byte.byte_eq_dec (takeN (lenN known) (bdiff body (D t3))) known then true else false).
End Probe.
Definition probe_file (H : hashes) (h : header) (body known guess : bytes) : list bytes * bool :=
  probe (hash_of H (h_hmode h)) (digest_len (h_hmode h)) h body known guess.
(** what the attacker needs of a header *)
Definition same_start (h h' : header) : Prop := h_hmode h = h_hmode h' /\ h_ch1 h = h_ch1 h' /\ h_salt h = h_salt h'.
