(** Specification for C87. *)
From Verif Require Import Base BytesModel HeaderSpec.
Open Scope N_scope.

(** every block type of a header is a value of DatablockType, whose greatest enumerator is 4: the values are 0 to 7 *)
Definition types_small (h : header) : Prop := Forall (fun b => fst b < 8) (h_blocks h) /\ Forall (fun e => fst (fst e) < 8) (h_encs h).
(** a file that starts with the two sizes and the two mode bytes *)
Definition front (fs hsz fm hm : N) (r : bytes) : bytes := u64 fs ++ u64 hsz ++ u8 fm ++ u8 hm ++ r.
(** the sizes are those that the reader asks for *)
Definition sized (file : bytes) (hsz : N) : Prop := lenN file < two64 /\ hsz <= lenN file.
