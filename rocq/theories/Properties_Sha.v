(** Property C75: the digest functions meant by the code have the sizes every other theorem asks for. *)
From Coq Require Import Strings.String.
From Verif Require Import Base BytesModel CipherModel ChModel HeaderModel HeaderSpec MiscModel PwModel Sha2 ShaFacts.
Open Scope N_scope.

Theorem C75_sizes : hashes_ok sha2.
Proof. exact sha2_lengths. Qed.
Print Assumptions C75_sizes.
Theorem C75_hash : forall m x extra,
  match (h <- getHash sha2 m ;; do_hash h x extra) with
  | Ret b => 1 <= m <= 3 /\ 8 * lenN (bdata b) = 128 * (m + 1) /\ bmax b = lenN (bdata b) + extra mod two32
             /\ bdata b = hash_of sha2 m x
  | Throw e => e = InvalidArgument /\ ~ 1 <= m <= 3
  | Crash c => c = Undefined /\ 1 <= m <= 3 /\ two32 <= 16 * (m + 1) + extra mod two32
  | OutOfFuel => False
  end.
Proof. exact sha2_hash. Qed.
Print Assumptions C75_hash.
Example C75_ex :
  (h <- getHash sha2 1 ;; do_hash h (str "abc") 10) = Ret (mkBytes (hash_of sha2 1 (str "abc")) 42) /\
  firstn 4 (hash_of sha2 1 (str "abc")) = [xba; x78; x16; xbf] /\
  (h <- getHash sha2 2 ;; do_hash h (str "abc") 4294967248) = Crash Undefined /\
  (h <- getHash sha2 2 ;; do_hash h (str "abc") 4294967247) <> Crash Undefined /\
  (h <- getHash sha2 4 ;; do_hash h (str "abc") 0) = Throw InvalidArgument.
Proof. repeat split; vm_compute; congruence. Qed.
