(** Counting the answers of a random generator. *)
From Verif Require Import Base BytesModel MiscModel MiscSpec.

(** [k] of the 256^n lists of [n] bytes have the property [P] *)
Definition number (n : N) (P : bytes -> Prop) (k : N) : Prop :=
  exists ls, NoDup ls /\ (forall l, In l ls <-> lenN l = n /\ P l) /\ lenN ls = k.
(** the generator delivers [l] *)
Definition delivers (l : bytes) : N -> option bytes := fun _ => Some l.
(** the generator delivers [l] in buffers of [num] bytes *)
Definition buffers (num : N) (l : bytes) : nat -> option bytes := fun i => Some (takeN num (dropN (N.of_nat i * num) l)).
Definition all_letters (s : bytes) : Prop := Forall (fun c => In c letters) s.
