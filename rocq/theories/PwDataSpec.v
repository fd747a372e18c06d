(** Vocabulary for C82 - C84. *)
From Coq Require Import Permutation Sorted.
From Verif Require Import Base PwDataModel.
Open Scope N_scope.

Definition fits (s : bytes) : bool := (length s <=? 255)%nat.
Definition fits_all (p : pset) : bool := fits (p_site p) && fits (p_user p) && fits (p_mail p) && fits (p_pass p).

(** The passwords an object should hold after some calls: those that were added and fit, in this order.  Loading a file of
    passwords starts anew. *)
Definition held_step (l : list pset) (o : pw_op) : list pset :=
  match o with
  | AddPw p => if fits_all p then l ++ [p] else l
  | RemPw _ | EditPw _ => l
  | Construct (mkFds (Some 1) _) => []
  | Construct _ => l
  end.
Definition held (ops : list pw_op) : list pset := fold_left held_step ops [].

(** equal up to the case of letters A-Z *)
Definition same_letter (a b : byte) : Prop :=
  a = b \/ (65 <= b2n a <= 90 /\ b2n b = b2n a + 32) \/ (65 <= b2n b <= 90 /\ b2n a = b2n b + 32).
Definition mentions (sub s : bytes) : Prop := exists x y z, s = x ++ y ++ z /\ Forall2 same_letter y sub.

(** alphabetical order by the values of the bytes *)
Inductive before : bytes -> bytes -> Prop :=
| before_end b s : before [] (b :: s)
| before_byte a b s t : b2n a < b2n b -> before (a :: s) (b :: t)
| before_rest a s t : before s t -> before (a :: s) (a :: t).
Definition in_order (p q : pset) : Prop := ~ before (p_site q) (p_site p).
(** what std::sort promises *)
Definition sorts (sort : list pset -> list pset) : Prop := forall l, Permutation l (sort l) /\ StronglySorted in_order (sort l).

(** only the passwords of one site, in the order of the list *)
Definition at_site (s : bytes) (l : list pset) : list pset := filter (fun p => eqb_bytes s (p_site p)) l.

(** the documented format: docs/password_data.md *)
Definition part (s : bytes) : bytes := n2b (N.of_nat (length s)) :: s.
Definition set_bytes (p : pset) : bytes := part (p_site p) ++ part (p_user p) ++ part (p_mail p) ++ part (p_pass p).
