(** The conditions under which the theorems about the cipher hold. *)
From Verif Require Import Base CipherModel.

(** a hash function whose digests have its size, which fits into a byte *)
Definition hash_ok (h : hashfn) : Prop :=
  0 < hsize h /\ hsize h <= 255 /\ forall x, lenN (hfun h x) = hsize h.
(** chunks that the API can pass in one call, and enough loop rounds *)
Definition sizes_ok (fuel : nat) (xs : list chunk) : Prop :=
  xs <> [] /\ Forall (fun x => lenN (chunk_data x) < 2 ^ 31 /\ (length (chunk_data x) + 2 <= fuel)%nat) xs.
