(** What the translated unit tests need: checks, expected exceptions, reproducible "random" bytes. *)
From Verif Require Import Base BytesModel.

(** a check that failed is recorded by its label; the test goes on, as with EXPECT_... of googletest *)
Definition expect (label : N) (b : bool) (rest : outcome (list N)) : outcome (list N) :=
  if b then rest else (r <- rest ;; Ret (label :: r)).

(** invalid_argument and length_error are derived from logic_error *)
Definition is_a (e class : exn) : bool :=
  match e, class with
  | InvalidArgument, InvalidArgument | LengthError, LengthError | LogicError, LogicError | RuntimeError, RuntimeError
  | InvalidArgument, LogicError | LengthError, LogicError => true
  | _, _ => false
  end.
Definition throws {A} (class : exn) (m : outcome A) : bool :=
  match m with Throw e => is_a e class | _ => false end.

(** the first n bytes of two arrays, both of which have so many *)
Definition same_first (n : N) (x y : bytes) : bool :=
  (n <=? lenN x) && (n <=? lenN y) && eqb_bytes (takeN n x) (takeN n y).
Definition at_ (b : Bytes) (i : N) : outcome N :=
  match nth_error (bdata b) (N.to_nat i) with Some x => Ret (b2n x) | None => Crash Undefined end.
(** an array after memcpy of [l] to index [i] *)
Definition put_at (i : N) (l arr : bytes) : bytes := (takeN i arr ++ l ++ dropN (i + lenN l) arr)%list.
(** copyToArray: bytes.cpp 207-218 (non-null array); the bytes written *)
Definition copyToArray (len : N) (b : Bytes) : outcome bytes :=
  if len <? getLen b then Throw LengthError else Ret (bdata b).

Definition rand (i : N) (n : N) : bytes :=
  map (fun k => let j := N.of_nat k in n2b ((i * 7919 + j * j * 31 + j * 1237 + 13) / 3)) (seq 0 (N.to_nat n)).
