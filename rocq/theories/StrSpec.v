(** Specification for C123: strings and byte arrays. *)
From Verif Require Import Base BytesModel.

(** the strings are added to the array one after the other: utility.cpp 34-42 *)
Fixpoint add_all (l : list bytes) (b : Bytes) : outcome Bytes :=
  match l with [] => Ret b | s :: r => b' <- addStringToBytes s b ;; add_all r b' end.
(** the same with a handler around every call: a string that is refused is left out *)
Fixpoint add_fitting (l : list bytes) (b : Bytes) : outcome Bytes :=
  match l with
  | [] => Ret b
  | s :: r => match addStringToBytes s b with Throw _ => add_fitting r b | Ret b' => add_fitting r b' | Crash c => Crash c | OutOfFuel => OutOfFuel end
  end.
(** which strings fit into [room] bytes *)
Fixpoint fitting (room : N) (l : list bytes) : list bytes :=
  match l with
  | [] => []
  | s :: r => if lenN s <=? room then s :: fitting (room - lenN s) r else fitting room r
  end.
(** an object of the class: no more content than room, a size of 64 bits *)
Definition roomy (b : Bytes) : Prop := lenN (bdata b) <= bmax b /\ bmax b < two64.
