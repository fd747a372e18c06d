(** Vocabulary for C38: what would be left of a file if the writing process ended at a given moment. *)
From Verif Require Import Base BytesModel MiscModel FileModel ApiModel ApiSpec.
Open Scope N_scope.

(** Another process copies the file [l] to [m] before the k-th access and does nothing else.  The copy is what the first process
    would have left if it had ended there. *)
Definition copying (k : nat) (l m : N) : nat -> fs -> fs := fun n f => if Nat.eqb n k then upd f m (f l) else f.
(** the access that writes the first piece of a save: the accesses before check the path and open the file *)
Definition first_piece (o : op) : nat := match o with OWriteTo _ => 10 | _ => 3 end.
(** how much has been written when [i] pieces of these sizes have been *)
Definition pieces_of (i : nat) (cuts : list N) : N := fold_right N.add 0 (firstn i cuts).
