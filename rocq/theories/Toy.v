(** A small computable digest used only in the Examples (non-vacuity checks). *)
From Verif Require Import Base CipherModel.

Definition mix (acc : N) (b : byte) : N := (acc * 31 + b2n b + 7) mod 65521.
Definition toy_digest (n : nat) (x : bytes) : bytes :=
  let a := fold_left mix x 1 in
  map (fun i => n2b ((a * (2 * N.of_nat i + 3)) / 3)) (seq 0 n).
Definition toy (n : nat) : hashfn := mkHash (N.of_nat n) (toy_digest n).

Lemma toy_len n x : lenN (hfun (toy n) x) = hsize (toy n).
Proof. cbn. unfold toy_digest, lenN. rewrite map_length, seq_length. reflexivity. Qed.
