(** Model of the questions the console program asks.  Source: src/app.cpp 16-76, 140-232; include/app.h.
    src/CMakeLists.txt leaves app.cpp out of the build.  Modelled are the checks of an input line and the loops that ask until a
    line passes; not modelled are the texts printed, printStart, run and askForHeader, which call functions that are gone. *)
From Coq Require Import ZArith.
From Verif Require Import Base MiscModel PwModel ChModel.
Open Scope N_scope.

(** std::stoi, base 10: white space of the "C" locale is skipped, then an optional sign and as many digits as there are; without a
    digit, or if the value is no int, it throws ([None]); what follows the digits is ignored *)
Definition is_space (c : byte) : bool := (b2n c =? 32) || ((9 <=? b2n c) && (b2n c <=? 13)).
Definition is_dig (c : byte) : bool := (48 <=? b2n c) && (b2n c <=? 57).
Fixpoint skip_space (s : bytes) : bytes := match s with c :: r => if is_space c then skip_space r else s | [] => [] end.
Fixpoint lead_digits (s : bytes) : bytes := match s with c :: r => if is_dig c then c :: lead_digits r else [] | [] => [] end.
Definition number_of (ds : bytes) : Z := Z.of_N (fold_left (fun a c => a * 10 + (b2n c - 48)) ds 0).
Definition stoi (s : bytes) : option Z :=
  let s := skip_space s in
  let '(neg, s) := match s with c :: r => if b2n c =? 45 then (true, r) else if b2n c =? 43 then (false, r) else (false, s) | [] => (false, s) end in
  match lead_digits s with
  | [] => None
  | ds => let v := if neg : bool then Z.opp (number_of ds) else number_of ds in
          if ((- 2147483648 <=? v) && (v <=? 2147483647))%Z then Some v else None
  end.

(** isValidChar: app.cpp 16-28 (noexcept) *)
Definition isValidChar (mode : bytes) : bool := match stoi mode with Some v => (0 <=? v)%Z && (v <? 256)%Z | None => false end.
(** isValidFileMode, isValidHashMode, isValidChainHashMode: app.cpp 30-44, 46-60, 62-76 (noexcept).  They differ in the greatest mode
    (settings.h 16, 22, 28); FileModes::isModeValid and its sisters accept 1 .. [max] of the value as an unsigned char.  A failing
    second std::stoi would end the process. *)
Definition isValidMode (max : N) (mode : bytes) (accept_blank : bool) : outcome bool :=
  noexcept
    match mode with
    | [] => Ret accept_blank
    | _ =>
        if negb (isValidChar mode) then Ret false
        else match stoi mode with
             | Some v => let m := Z.to_N (v mod 256) in Ret ((1 <=? m) && (m <=? max))
             | None => Throw InvalidArgument
             end
    end.

(** ** Asking.  [lines] are the lines the user will enter; behind the last one std::getline leaves the string as it is. *)
(** askForFileMode, askForHashMode, askForChainHashMode: app.cpp 158-175, 177-194, 196-213 (noexcept); with the lines not yet read *)
Fixpoint askMode (max standard : N) (lines : list bytes) : outcome (N * list bytes) :=
  let answer (l : bytes) :=
    match l with
    | [] => Ret standard
    | _ => match stoi l with Some v => Ret (Z.to_N (v mod 256)) | None => Crash Terminate end
    end in
  match lines with
  | [] => ok <- isValidMode max [] true ;; if (ok : bool) then m <- answer [] ;; Ret (m, []) else OutOfFuel
  | l :: r => ok <- isValidMode max l true ;; if (ok : bool) then m <- answer l ;; Ret (m, r) else askMode max standard r
  end.
(** askForIters: app.cpp 215-232 (noexcept); settings.h 34-38 *)
Fixpoint askIters (lines : list bytes) : outcome (N * list bytes) :=
  let answer (l : bytes) := match l with [] => Ret 1000 | _ => match stoul l with Some v => Ret v | None => Crash Terminate end end in
  match lines with
  | [] => ok <- isValidNumber [] true 1 MAX_ITERATIONS ;; if (ok : bool) then v <- answer [] ;; Ret (v, []) else OutOfFuel
  | l :: r => ok <- isValidNumber l true 1 MAX_ITERATIONS ;; if (ok : bool) then v <- answer l ;; Ret (v, r) else askIters r
  end.
(** askForPasswd: app.cpp 140-156 (noexcept).  Behind the last line the string stays empty or as it was, both rejected before: [fuel]
    bounds the number of questions. *)
Fixpoint askPasswd (fuel : nat) (pw : bytes) (lines : list bytes) : outcome (bytes * list bytes) :=
  match fuel with
  | O => OutOfFuel
  | S k =>
      let '(pw, r) := match lines with l :: r => (l, r) | [] => (pw, []) end in
      v <- isPasswordValid pw ;; match v with PwOk => Ret (pw, r) | _ => askPasswd k pw r end
  end.
