(** Comparison operators that the other model files have no use for. *)
From Verif Require Import Base BytesModel.
(** operator!=: bytes.cpp 306-310, written out a second time there instead of as the negation of operator== *)
Definition neqBytes (a b : Bytes) : bool :=
  if getLen a =? getLen b then negb (eqb_bytes (bdata a) (bdata b)) else true.
(** operator== of TimedResult: pwfunc.h 11; a result is the number of iterations and the digest *)
Definition eqTimed (a b : N * Bytes) : bool := (fst a =? fst b) && eqBytes (snd a) (snd b).
