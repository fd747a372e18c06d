(** What the log tells about a password check and a new header that do not succeed. *)
From Verif Require Import Base BytesModel MiscModel PwModel PwSpec HeaderModel HeaderSpec FileModel ApiModel ApiSpec LogModel LogSpec.
Open Scope N_scope.
Open Scope list_scope.

(** [clk j]: the reading number [j]; it is the first one that is not below the limit *)
Definition first_over (clk : nat -> N) (limit : N) (j : nat) : Prop := limit <> 0 /\ limit <= clk j /\ forall i, (i < j)%nat -> clk i < limit.
(** the warning: the limit and the round; the clock is read in the rounds 1000, 2000, ... of the first chain hash and 0, 1000, ... of the second one *)
Definition gave_up1 (clk : nat -> N) (c : N * N * bytes) (limit : N) (l : line) : Prop :=
  exists j site, first_over clk limit j /\ N.of_nat j < readings_string (iterations c) /\
    nth_error [51; 70; 90; 112; 133] (N.to_nat (fst (fst c)) - 1) = Some site /\
    l = mkLine SWarning Pwfunc_cpp site [Num limit; Num (1000 * (N.of_nat j + 1))].
Definition gave_up2 (clk : nat -> N) (c : N * N * bytes) (limit : N) (l : line) : Prop :=
  exists j site, first_over clk limit j /\ N.of_nat j < readings_bytes (iterations c) /\
    nth_error [150; 169; 189; 209; 229] (N.to_nat (fst (fst c)) - 1) = Some site /\
    l = mkLine SWarning Pwfunc_cpp site [Num limit; Num (1000 * N.of_nat j)].
Definition time_error (n : N) : line := api_cpp SError n [Succ TIMEOUT; Code ERR_TIMEOUT].

(** the log of verifyPassword that answers [r], for the header [h] and the time limit [t] *)
Definition unverified (w : world) (t : N) (h : header) (r : reply) (ls : list line) : Prop :=
  let start := [api_h 387 [Num t]; api_cpp SVerbose 437 [Num t]; lookup (h_hmode h); hashing 97 (h_ch1 h) t] in
  let t2 := (t + 2 ^ 64 - w_elapsed w) mod 2 ^ 64 in
  match r with
  | RErr FAIL ERR_PASSWORD_INVALID => ls = start ++ [hashing 63 (h_ch2 h) t2; api_cpp SWarning 481 []]
  | RErr TIMEOUT ERR_TIMEOUT =>
      (exists l, gave_up1 (w_clk1 w) (h_ch1 h) t l /\ ls = start ++ [l; time_error 449]) \/
      (t <> 0 /\ w_elapsed w = t /\ ls = start ++ [api_cpp SWarning 457 []]) \/
      (exists l, gave_up2 (w_clk2 w) (h_ch2 h) t2 l /\ ls = start ++ [hashing 63 (h_ch2 h) t2; l; time_error 467])
  | _ => False
  end.

(** the log of createDataHeader with the settings [ds] and the time limit [t], called in state [s], that runs out of time *)
Definition out_of_time (w : world) (s : state) (ds : dhsettings) (t : N) (ls : list line) : Prop :=
  exists hm m1 n1 m2 n2, s_hmode ds = Some hm /\ s_ch1 ds = Some m1 /\ s_n1 ds = Some n1 /\ s_ch2 ds = Some m2 /\ s_n2 ds = Some n2 /\
  let c1 := (m1, n1, []) in let c2 := (m2, n2, []) in
  let start := [api_h 400 [Num t; Num n1; Num n2]] ++ match s with DECRYPTED => [api_cpp SVerbose 654 (settings_shown ds ++ [Num t])] | _ => [] end ++
               [api_cpp SVerbose 36 (settings_shown ds ++ [Num t]); lookup hm; lookup hm; hashing 97 c1 t] in
  let stop := time_error (match s with DECRYPTED => 659 | _ => 509 end) in
  (exists l, gave_up1 (w_clk1 w) c1 t l /\ ls = start ++ [l; time_error 83; stop]) \/
  (t <> 0 /\ t <= w_elapsed w /\ ls = start ++ [api_cpp SError 98 []; stop]) \/
  (exists l, gave_up2 (w_clk2 w) c2 (t - w_elapsed w) l /\ ls = start ++ [hashing 63 c2 (t - w_elapsed w); l; time_error 111; stop]).
