(** Programs that may call a digest function: what they have to ask it. *)
From Verif Require Import Base BytesModel CipherModel PwModel PwSpec ChModel ChSpec HeaderModel HeaderSpec FileModel ApiModel ApiSpec WorkModel WorkSpec.
Open Scope N_scope.
Open Scope list_scope.

(** a program gives an answer, or asks for the digest of a text and goes on as the digest is; it may know everything
    else: the header, the guesses, the salts, any table *)
Inductive program (A : Type) :=
| Answer (a : A)
| Ask (t : bytes) (k : bytes -> program A).
Arguments Answer {A}. Arguments Ask {A}.
Fixpoint asked {A} (D : bytes -> bytes) (p : program A) : list bytes :=
  match p with Answer _ => [] | Ask t k => t :: asked D (k (D t)) end.
Fixpoint answer {A} (D : bytes -> bytes) (p : program A) : A :=
  match p with Answer a => a | Ask t k => answer D (k (D t)) end.

(** the program decides for each of the guesses [gs] whether it opens a file with header [h], whatever the digest function is *)
Definition decides (h : header) (gs : list bytes) (p : program (list bool)) : Prop :=
  forall H, hashes_ok H -> Forall2 (fun b g => b = true <-> opens H h g) (answer (hash_of H (h_hmode h)) p) gs.
(** the program computes the password hash of [pw], whatever the digest function is *)
Definition computes_key (h : header) (pw : bytes) (p : program bytes) : Prop :=
  forall H, hashes_ok H -> answer (hash_of H (h_hmode h)) p = key_of H h pw.

(** the texts of the first and of the second chain hash *)
Definition first_texts (H : hashes) (h : header) (pw : bytes) : list bytes :=
  map (input (hash_of H (h_hmode h)) (salts (h_ch1 h)) pw) (seq 0 (N.to_nat (iterations (h_ch1 h)))).
Definition second_texts (H : hashes) (h : header) (pw : bytes) : list bytes :=
  map (input (hash_of H (h_hmode h)) (salts (h_ch2 h)) (key_of H h pw)) (seq 0 (N.to_nat (iterations (h_ch2 h)))).
(** the program decides whether the data of a file with header [h] begin with [known] if they are decrypted with the guess [g] *)
Definition decides_start (h : header) (body known g : bytes) (p : program bool) : Prop :=
  forall H, hashes_ok H -> (answer (hash_of H (h_hmode h)) p = true <-> exists rest, plain_of H h g body = known ++ rest).
(** the program decrypts *)
Definition decrypts (h : header) (body g : bytes) (p : program bytes) : Prop :=
  forall H, hashes_ok H -> answer (hash_of H (h_hmode h)) p = plain_of H h g body.
