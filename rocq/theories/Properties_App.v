(** Property C85. *)
From Coq Require Import Strings.String.
From Verif Require Import Base MiscModel MiscFacts PwModel ChModel AppModel AppSpec AppFacts.
Open Scope N_scope.
Open Scope list_scope.

(** C85 *)
Theorem C85_mode_check : forall max l blank, max <= 255 -> exists r, isValidMode max l blank = Ret r /\
  (r = true <-> (l = [] /\ blank = true) \/ exists m, names_mode max l m).
Proof. exact isValidMode_cases. Qed.
Print Assumptions C85_mode_check.
Theorem C85_ask_mode : forall max standard lines, max <= 255 -> exists m rest, askMode max standard lines = Ret (m, rest) /\
  ((exists bad l, lines = bad ++ l :: rest /\ answers max standard l m /\ Forall (fun b => forall k, ~ answers max standard b k) bad) \/
   (rest = [] /\ m = standard /\ Forall (fun b => forall k, ~ answers max standard b k) lines)).
Proof. exact askMode_spec. Qed.
Print Assumptions C85_ask_mode.
Theorem C85_ask_iterations : forall lines,
  (exists v rest, askIters lines = Ret (v, rest) /\ 1 <= v <= 1000000000 /\
     ((exists bad l, lines = bad ++ l :: rest /\ number_line l v /\ Forall rejected bad) \/ (rest = [] /\ v = 1000 /\ Forall rejected lines))) \/
  (askIters lines = Crash Undefined /\ exists bad l rest, lines = bad ++ l :: rest /\ trips_isdigit l /\ Forall rejected bad).
Proof. exact askIters_spec. Qed.
Print Assumptions C85_ask_iterations.
Theorem C85_ask_password : forall lines pw rest,
  (exists fuel, askPasswd fuel [] lines = Ret (pw, rest)) <-> exists bad, lines = bad ++ pw :: rest /\ good_pw pw /\ Forall refused_pw bad.
Proof. exact askPasswd_spec. Qed.
Print Assumptions C85_ask_password.
Theorem C85_ask_password_forever : forall lines, Forall refused_pw lines <-> forall fuel, askPasswd fuel [] lines = OutOfFuel.
Proof. exact askPasswd_hangs. Qed.
Print Assumptions C85_ask_password_forever.
Theorem C85_ask_password_undefined : forall lines,
  (exists fuel, askPasswd fuel [] lines = Crash Undefined) <-> exists bad l rest, lines = bad ++ l :: rest /\ endless_pw l /\ Forall refused_pw bad.
Proof. exact askPasswd_undefined. Qed.
Print Assumptions C85_ask_password_undefined.
Example C85_ex : isValidMode 3 (str " +2nd") false = Ret true /\ isValidMode 3 (str "4") false = Ret false /\ isValidMode 3 (str "-2") true = Ret false /\
  isValidMode 5 (str "99999999999") true = Ret false /\ askMode 5 4 [str "six"; str "6"; str "5 or so"; str "1"] = Ret (5, [str "1"]) /\ askMode 3 3 [str "x"] = Ret (3, []) /\
  askIters [str "0"; str "1000000001"; str "+5"; str "007"] = Ret (7, []) /\ askIters [[x39; xe2; x82; xac]] = Crash Undefined /\
  askPasswd 5 [] [str "short"; str "longEnough1!"; str "x"] = Ret (str "longEnough1!", [str "x"]).
Proof. vm_compute. repeat split; reflexivity. Qed.
