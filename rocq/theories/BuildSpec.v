(** Specification for C121: the two builds of the library (build_all.sh makes a Debug build, install.sh a Release build). *)
From Verif Require Import Base HeaderSpec FileModel ApiModel ApiSpec.

(** the same circumstances for the other build *)
Definition built (bd : build) (w : world) : world :=
  mkWorld (w_loc w) (w_stat w) (w_read w) (w_write w) (w_create w) (w_remove w) (w_dir w) (w_room w) (w_rnd w) (w_elapsed w) (w_clk1 w) (w_clk2 w)
    (w_hashes w) bd (w_fuel w).
(** the same call, with the same reply, made to the other build *)
Definition made_in (bd : build) (e : entry) : entry := mkEntry (built bd (e_world e)) (e_before e) (e_op e) (e_reply e) (e_after e).
(** a file whose size fields fit, with a chain hash or a header that announces a wrong length *)
Definition misread (c : bytes) : Prop := (exists hsz, sizes_fit c hsz) /\ (bad_length1 c \/ bad_length2 c \/ bad_size c).
(** no such file is there when headers are read *)
Definition sound (f : fs) : Prop := forall l c, f l = Some c -> ~ misread c.
Definition sound_call (e : entry) : Prop := match e_op e with OSelect _ | OList _ => sound (e_before e) | _ => True end.
