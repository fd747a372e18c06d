(** What the utilities are supposed to do: numbers in texts, random strings, the timer and ErrorStruct. *)
From Coq Require Import Strings.String.
From Verif Require Import Base MiscModel.
Open Scope N_scope.
Open Scope list_scope.

(** ** Decimal digits and the number that a text of digits means *)
Definition is_digit (c : byte) : Prop := 48 <= b2n c <= 57.
Fixpoint dec_val (s : bytes) (acc : N) : N :=
  match s with [] => acc | c :: r => dec_val r (acc * 10 + (b2n c - 48)) end.

(** ** Random strings *)
Definition letters : bytes := list_byte_of_string "ABCDEFGHIJKLMNOPQRSTUVWXYZabcdefghijklmnopqrstuvwxyz".
Definition is_letter (c : byte) : bool := existsb (Byte.eqb c) letters.
(** the bytes of the draws [i], [i + 1], ..., [i + k - 1] *)
Fixpoint drawn (rnd : nat -> option bytes) (i k : nat) : bytes :=
  match k with O => [] | S k' => match rnd i with Some b => b | None => [] end ++ drawn rnd (S i) k' end.
(** none of the first [k] draws fails *)
Definition draws_work (rnd : nat -> option bytes) (k : nat) : Prop := forall j, (j < k)%nat -> rnd j <> None.

(** ** timer: the protocol as a small automaton *)
Inductive phase := Idle | Running (last : N) (laps : list N) | Stopped (laps : list N).
Definition maxlap (laps : list N) : N := fold_right N.max 0 laps.
Definition sumlaps (laps : list N) : N := fold_right N.add 0 laps.
(** nanoseconds of a clock, in whole milliseconds of 64 bits *)
Definition millis (now last : N) : N := (now - last) / 1000000 mod 2 ^ 64.
(** None: wrong phase *)
Definition phase_step (p : phase) (now : N) (o : timer_op) : option (phase * N) :=
  match o, p with
  | TStart, Running _ _ => None
  | TStart, _ => Some (Running now [], 0)
  | TStop, Running last laps => Some (Stopped (laps ++ [millis now last]), 0)
  | TRecord, Running last laps => let e := millis now last in Some (Running now (laps ++ [e]), e)
  | TPeek, Running last laps => Some (p, millis now last)
  | TAverage, Stopped laps => Some (p, sumlaps laps / lenN laps)
  | TSlowest, Stopped laps => Some (p, maxlap laps)
  | TTime, Stopped laps => Some (p, lenN laps * (sumlaps laps / lenN laps))
  | TLaps, Stopped laps => Some (p, lenN laps)
  | _, _ => None
  end.
Definition phase_laps (p : phase) : list N := match p with Idle => [] | Running _ l => l | Stopped l => l end.
Fixpoint phase_run (p : phase) (ops : list (N * timer_op)) : phase * list (outcome N) :=
  match ops with
  | [] => (p, [])
  | (now, o) :: r =>
      match phase_step p now o with
      | Some (p', v) => let '(pf, outs) := phase_run p' r in (pf, Ret v :: outs)
      | None => let '(pf, outs) := phase_run p r in (pf, Throw LogicError :: outs)
      end
  end.
(** no overflow of the 64-bit sum of laps at any point *)
Fixpoint sums_ok (p : phase) (ops : list (N * timer_op)) : Prop :=
  sumlaps (phase_laps p) < two64 /\
  match ops with
  | [] => True
  | (now, o) :: r => match phase_step p now o with Some (p', _) => sums_ok p' r | None => sums_ok p r end
  end.

(** ** ErrorStruct from its calls: how it was made, and what was set and moved since; the newest call comes last *)
Inductive made (T : Type) := ByDefault | ByValue (v : T) | ByFailure (s : success_type) | ByAll (s : success_type) (v : T) | ByMove (v : T).
Arguments ByDefault {T}. Arguments ByValue {T}. Arguments ByFailure {T}. Arguments ByAll {T}. Arguments ByMove {T}.
Definition make {T} (m : made T) : errstruct T :=
  match m with ByDefault => err_default | ByValue v => err_ok v | ByFailure s => err_fail s | ByAll s v => err_full s v | ByMove v => createMove v end.
Definition success_at {T} (m : made T) (ops : list (err_op T)) : success_type :=
  fold_left (fun s o => match o with OpSetSuccess s' => s' | _ => s end) ops
    match m with ByDefault => FAIL | ByValue _ | ByMove _ => SUCCESS | ByFailure s | ByAll s _ => s end.
Definition value_at {T} (m : made T) (ops : list (err_op T)) : option T :=
  fold_left (fun v o => match o with OpSet v' => Some v' | _ => v end) ops
    match m with ByDefault | ByFailure _ => None | ByValue v | ByMove v | ByAll _ v => Some v end.
(** the value, if there is one and the call was a success *)
Definition result_at {T} (m : made T) (ops : list (err_op T)) : option T := match success_at m ops with SUCCESS => value_at m ops | _ => None end.
(** at least one returnMove gave the value *)
Definition moved_at {T} (m : made T) (ops : list (err_op T)) : Prop := exists before after, ops = before ++ OpMove :: after /\ result_at m before <> None.
Definition given {T} (e : errstruct T) (o : err_op T) : option T := match err_step e o with Ret (_, v) => v | _ => None end.
