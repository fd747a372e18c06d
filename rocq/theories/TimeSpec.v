(** What is said about header settings with run times. *)
From Verif Require Import Base HeaderModel HeaderSpec.
(** settings as the setters of DataHeaderSettingsTime leave them; a run time is at most a day *)
Definition time_settings_made (ds : dhsettings) : Prop := exists ops, slots ds = slots (set_run 86400000 ops).
(** the clock reading [k] is the first that has reached the run time [t] *)
Definition runs_out (clk : nat -> N) (t : N) (k : nat) : Prop := t <= clk k /\ forall q, (q < k)%nat -> clk q < t.
