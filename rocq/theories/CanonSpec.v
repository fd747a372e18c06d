(** Specification for C124: a header as it can stand in a file. *)
From Verif Require Import Base BytesModel HeaderModel HeaderSpec.

(** the length bytes that may stand before the data of the chain hashes *)
Definition lengths_ok (l1 l2 : N) (h : header) : Prop :=
  lb_ok (fst (fst (h_ch1 h))) (snd (h_ch1 h)) l1 /\ l1 < 256 /\ lb_ok (fst (fst (h_ch2 h))) (snd (h_ch2 h)) l2 /\ l2 < 256.
(** a chain hash whose data have a fixed length *)
Definition fixed_length (c : N * N * bytes) : Prop := fst (fst c) <> 2 /\ fst (fst c) <> 4.
