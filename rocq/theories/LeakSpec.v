(** What someone who does not know the password can do with files whose chain hashes use no salt
    (mode 1, CHAINHASH_NORMAL).  Everything here is computed from the contents of files. *)
From Verif Require Import Base BytesModel CipherSpec PwModel PwSpec ChModel ChSpec HeaderModel HeaderSpec ApiModel ApiSpec SecSpec RefSpec.

(** [n] times the digest *)
Definition again (H : bytes -> bytes) (n : N) (x : bytes) : bytes := Nat.iter (N.to_nat n) H x.
Definition plain_mode (c : N * N * bytes) : bool := fst (fst c) =? 1.
(** the chain hashes of a header use no salt *)
Definition unsalted (h : header) : bool := plain_mode (h_ch1 h) && plain_mode (h_ch2 h).
(** decryption with a given key and the salt of the file *)
Definition decrypt_with (H : hashes) (key : bytes) (h : header) (body : bytes) : bytes :=
  spec_dec (hash_of H (h_hmode h)) (digest_len (h_hmode h)) key (h_salt h) body.

(** the data in the file [new], by means of the file [old] *)
Definition crack (bd : build) (H : hashes) (old new : bytes) : option bytes :=
  match read_file bd old, read_file bd new with
  | Gives (a, _), Gives (b, body) =>
      if unsalted a && plain_mode (h_ch1 b) && (h_hmode a =? h_hmode b) && (check_rounds a <=? iterations (h_ch1 b))
      then Some (decrypt_with H (again (hash_of H (h_hmode a)) (iterations (h_ch1 b) - check_rounds a) (h_valid a)) b body)
      else None
  | _, _ => None
  end.
(** whether two files have check values of one chain, [old] before [new] *)
Definition linked (bd : build) (H : hashes) (old new : bytes) : bool :=
  match read_file bd old, read_file bd new with
  | Gives (a, _), Gives (b, _) =>
      unsalted a && unsalted b && (h_hmode a =? h_hmode b) && (check_rounds a <=? check_rounds b) &&
      eqb_bytes (again (hash_of H (h_hmode a)) (check_rounds b - check_rounds a) (h_valid a)) (h_valid b)
  | _, _ => false
  end.

(** A header that takes the same password: the check value becomes the key, its digest the check value. *)
Definition planted (H : hashes) (h : header) : header :=
  mkHeader (h_fmode h) (h_hmode h) (h_blocks h) (1, check_rounds h, []) (1, 1, []) (hash_of H (h_hmode h) (h_valid h)) (h_salt h) (h_encs h).
(** the file [c] replaced by one with [data] *)
Definition plant (bd : build) (H : hashes) (c data : bytes) : option bytes :=
  match read_file bd c with
  | Gives (h, _) =>
      let p := planted H h in
      Some (ser (hdr_len p + lenN data) p ++ spec_enc (hash_of H (h_hmode h)) (digest_len (h_hmode h)) (h_valid h) (h_salt h) data)
  | _ => None
  end.
(** the data in a file [c'] saved later, by means of the file [c] as it was before *)
Definition tap (bd : build) (H : hashes) (c c' : bytes) : option bytes :=
  match read_file bd c, read_file bd c' with
  | Gives (h, _), Gives (h', body) => Some (decrypt_with H (h_valid h) h' body)
  | _, _ => None
  end.

(** A file whose salt is zero and whose check value is the digest of the key: the first key of the key stream is
    the check value. *)
Definition zeros (h : header) : bytes := repeat x00 (N.to_nat (digest_len (h_hmode h))).
Definition unzip (bd : build) (H : hashes) (c : bytes) : option bytes :=
  match read_file bd c with
  | Gives (h, body) =>
      let D := hash_of H (h_hmode h) in
      let k := h_valid h in
      let s := D (bsum (bsum k (zeros h)) (zeros h)) in
      match blocks (digest_len (h_hmode h)) body with
      | [] => Some []
      | x :: r => let p := bdiff x (D (bsum k s)) in Some (p ++ dec_blocks D (k, s, D p) r)
      end
  | _ => None
  end.
(** the file [c] with a zero salt *)
Definition set_zero (bd : build) (c : bytes) : option bytes :=
  match read_file bd c with
  | Gives (h, body) => Some (ser (lenN c) (with_salt (zeros h) h) ++ body)
  | _ => None
  end.
