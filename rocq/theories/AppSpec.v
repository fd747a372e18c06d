(** Vocabulary for C85. *)
From Verif Require Import Base MiscSpec PwSpec.
Open Scope N_scope.

Definition white (c : byte) : Prop := b2n c = 32 \/ 9 <= b2n c <= 13.
(** white space, an optional plus, digits, and anything that does not go on with a digit; the digits write a number of 1 .. [max] *)
Definition names_mode (max : N) (l : bytes) (m : N) : Prop :=
  exists sp sg ds rest, l = sp ++ sg ++ ds ++ rest /\ Forall white sp /\ (sg = [] \/ sg = [x2b]) /\ ds <> [] /\ Forall is_digit ds /\
    (forall c r, rest = c :: r -> ~ is_digit c) /\ dec_val ds 0 = m /\ 1 <= m <= max.
(** the line that answers a question: blank stands for the standard *)
Definition answers (max standard : N) (l : bytes) (m : N) : Prop := (l = [] /\ m = standard) \/ names_mode max l m.
(** a line that answers the question for the iterations *)
Definition number_line (l : bytes) (v : N) : Prop :=
  (l = [] /\ v = 1000) \/ (l <> [] /\ Forall is_digit l /\ dec_val l 0 = v /\ 1 <= v <= 1000000000).
(** a line on which std::isdigit is called with a negative char *)
Definition trips_isdigit (l : bytes) : Prop := exists p c r, l = p ++ c :: r /\ Forall is_digit p /\ 128 <= b2n c.
Definition rejected (l : bytes) : Prop := (forall k, ~ number_line l k) /\ ~ trips_isdigit l.
(** the password policy (C29) *)
Definition good_pw (pw : bytes) : Prop := Forall allowed pw /\ 8 <= lenN pw < 2 ^ 31.
(** a line that begins with 2^31 allowed characters *)
Definition endless_pw (pw : bytes) : Prop := exists p r, pw = p ++ r /\ Forall allowed p /\ lenN p = 2 ^ 31.
Definition refused_pw (pw : bytes) : Prop := ~ good_pw pw /\ ~ endless_pw pw.
