(** Salts drawn one after the other, and how often they repeat. *)
From Verif Require Import Base BytesModel ChModel HeaderModel HeaderSpec FileModel ApiModel ApiSpec EditSpec.

(** the [i]-th draw of [n] bytes from the bytes [l] that the generator delivers *)
Definition draw (n : N) (l : bytes) (i : nat) : bytes := takeN n (dropN (N.of_nat i * n) l).
(** two of the first [k] draws are the same *)
Definition repeats (n : N) (k : nat) (l : bytes) : Prop := exists i j, (i < j < k)%nat /\ draw n l i = draw n l j.
(** m (m - 1) (m - 2) ... with k factors *)
Fixpoint falling (m : N) (k : nat) : N := match k with O => 1 | S k => falling m k * (m - N.of_nat k) end.
(** the sittings all renew the salt, and their salts are drawn from [l] one after the other *)
Definition draws_from (n : N) (l : bytes) (ss : list sitting) : Prop :=
  forall i s, nth_error ss i = Some s -> si_change s = Resalt /\ w_rnd (si_ws s 3%nat) 0 n = draw n l i.
