(** Common definitions: bytes, machine integers, outcomes.
    No part of /repo is modelled here except the outcome kinds that C++ gives. *)
From Coq Require Export List NArith ZArith Lia Bool.
From Coq Require Export Strings.Byte.
From Coq Require Export ZifyBool ZifyNat ZifyN.
Export ListNotations.
Open Scope N_scope.

Arguments N.add : simpl never.
Arguments N.sub : simpl never.
Arguments N.mul : simpl never.
Arguments N.modulo : simpl never.
Arguments N.div : simpl never.
Arguments N.pow : simpl never.
Arguments N.of_nat : simpl never.
Arguments N.to_nat : simpl never.
Arguments Z.add : simpl never.
Arguments Z.sub : simpl never.
Arguments Z.mul : simpl never.
Arguments Z.modulo : simpl never.
Arguments Z.of_N : simpl never.

(** ** Bytes: C++ [unsigned char] *)
Definition b2n (b : byte) : N := Byte.to_N b.
Definition n2b (n : N) : byte :=
  match Byte.of_N (n mod 256) with Some b => b | None => x00 end.

Notation bytes := (list byte).

Definition lenN {A} (l : list A) : N := N.of_nat (length l).
Definition takeN {A} (n : N) (l : list A) : list A := firstn (N.to_nat n) l.
Definition dropN {A} (n : N) (l : list A) : list A := skipn (N.to_nat n) l.
(** bytes [a, b) of a list *)
Definition sliceN {A} (a b : N) (l : list A) : list A := takeN (b - a) (dropN a l).

Fixpoint eqb_bytes (x y : bytes) : bool :=
  match x, y with
  | [], [] => true
  | a :: x', b :: y' => Byte.eqb a b && eqb_bytes x' y'
  | _, _ => false
  end.

(** ** Machine integers *)
Definition two32 : N := 4294967296.
Definition two64 : N := 18446744073709551616.
Definition w32 (n : N) : N := n mod two32.              (* u_int32_t, unsigned int *)
Definition w64 (n : N) : N := n mod two64.              (* u_int64_t, size_t *)
Definition w16 (n : N) : N := n mod 65536.              (* u_int16_t *)
Definition w8 (n : N) : N := n mod 256.                 (* unsigned char *)
(** subtraction of 64-bit unsigned numbers *)
Definition sub64 (a b : N) : N := (a + two64 - b) mod two64.
(** conversion of a 64-bit unsigned value to [int] (implementation-defined before C++20, modulo on gcc) *)
Definition to_int32 (n : N) : Z :=
  let m := (Z.of_N n mod 4294967296)%Z in
  if (m <? 2147483648)%Z then m else (m - 4294967296)%Z.

(** ** Outcomes of a C++ call *)
Inductive exn : Type :=
| InvalidArgument | LengthError | LogicError | RuntimeError
| OtherExn             (* another class derived from std::exception *)
| PointerThrown.       (* [throw new std::logic_error]: not caught by [catch (std::exception&)] *)

Inductive crash : Type :=
| Terminate            (* exception leaving a noexcept function *)
| AssertFail           (* assert(..) false, in a Debug build *)
| Undefined.           (* undefined behaviour *)

Inductive outcome (A : Type) : Type :=
| Ret (a : A)
| Throw (e : exn)
| Crash (c : crash)
| OutOfFuel.           (* the loop has not finished after the given number of rounds *)
Arguments Ret {A} a.
Arguments Throw {A} e.
Arguments Crash {A} c.
Arguments OutOfFuel {A}.

Definition bind {A B} (m : outcome A) (f : A -> outcome B) : outcome B :=
  match m with
  | Ret a => f a
  | Throw e => Throw e
  | Crash c => Crash c
  | OutOfFuel => OutOfFuel
  end.
Notation "x <- m ;; k" := (bind m (fun x => k))
  (at level 61, m at next level, right associativity).
Notation "' p <- m ;; k" := (bind m (fun x => let 'p := x in k))
  (at level 61, p pattern, m at next level, right associativity).

(** a function marked noexcept *)
Definition noexcept {A} (m : outcome A) : outcome A :=
  match m with
  | Throw _ => Crash Terminate
  | o => o
  end.

(** [assert(b)]: live in the Debug build (build_all.sh), compiled out in the
    Release build that install.sh makes (CMake adds -DNDEBUG there). *)
Inductive build : Type := Debug | Release.
Definition assertC {A} (bd : build) (b : bool) (k : outcome A) : outcome A :=
  match bd with
  | Debug => if b then k else Crash AssertFail
  | Release => k
  end.

Definition is_ret {A} (m : outcome A) : bool := match m with Ret _ => true | _ => false end.
