(** Property C74. *)
From Coq Require Import Strings.String.
From Verif Require Import Base BaseFacts BytesModel BytesSpec MiscModel CipherModel CipherSpec PwModel PwSpec ChModel ChSpec HeaderModel HeaderSpec Toy FileModel ApiModel ApiSpec ApiSpec2
  RefSpec RefSpec2 RndSpec RndFacts2 Properties_Header Properties_File Properties_Api Properties_Api2 Properties_Ref.

(** C74 *)
Theorem C74_machine_any_generator : forall H, hashes_ok H -> forall bd mode tr a w f o, history_any bd H mode tr a -> world_any bd H w -> fs_ok f -> op_ok o ->
  answered_any tr /\ exists s, follow_any tr = Some s /\
    (matches_any w s f o (step w a f o) \/ step w a f o = (f, OutOfFuel) /\ (w_fuel w < rounds s o)%nat).
Proof. exact machine_any. Qed.
Print Assumptions C74_machine_any_generator.
(** a generator that fails at its [n]-th use in a call *)
Definition failing_at (n : nat) : world :=
  mkWorld (w_loc ex_world) (w_stat ex_world) (w_read ex_world) (w_write ex_world) (w_create ex_world) (w_remove ex_world) (w_dir ex_world) (w_room ex_world)
    (fun i k => if Nat.eqb i n then x00 :: zrnd k else zrnd k) (w_elapsed ex_world) (w_clk1 ex_world) (w_clk2 ex_world) (w_hashes ex_world) (w_build ex_world) (w_fuel ex_world).
Example failing_any n : world_any Release ex_hashes (failing_at n).
Proof. repeat split. Qed.
Definition ex_ds2 : dhsettings := mkSet (Some 1) (Some 1) (Some 2) (Some 3) (Some 2) (Some 3) [ex_block] [].
Definition ends (r : fs * result) : option crash := match r with (_, Ends c) => Some c | _ => None end.
Definition says (r : fs * result) : option answer := match r with (_, Done _ x) => Some x | _ => None end.
Example C74_machine_ex :
  ends (act_any (failing_at 0) Idle ex_files (OSelect a_enc_path)) = Some Terminate /\ says (act_any (failing_at 1) Idle ex_files (OSelect a_enc_path)) = Some Ok /\
  says (act_any (failing_at 0) Idle (one_file (put 17 x04 ex_file)) (OSelect a_enc_path)) = Some (Err ERR_HASHMODE_INVALID) /\
  ends (act_any (failing_at 0) Idle (one_file (put 16 x02 ex_file)) (OSelect a_enc_path)) = Some Terminate /\
  says (act_any (failing_at 0) (Empty a_enc_path) ex_files (OHeader ex_pw ex_ds 0)) = Some (Err ERR) /\
  ends (act_any (failing_at 1) (Empty a_enc_path) ex_files (OHeader ex_pw ex_ds 0)) = Some Terminate /\
  ends (act_any (failing_at 0) (Empty a_enc_path) ex_files (OHeader ex_pw ex_ds2 0)) = Some Terminate /\
  says (act_any (failing_at 1) (Empty a_enc_path) ex_files (OHeader ex_pw ex_ds2 0)) = Some (Err ERR) /\
  ends (act_any (failing_at 2) (Empty a_enc_path) ex_files (OHeader ex_pw ex_ds 0)) = Some Terminate /\
  ends (act_any (failing_at 3) (Empty a_enc_path) ex_files (OHeader ex_pw ex_ds 0)) = Some Terminate /\
  says (act_any (failing_at 4) (Empty a_enc_path) ex_files (OHeader ex_pw ex_ds 0)) = Some Ok /\
  exists tr a, history_any Release ex_hashes 1 tr a /\
    match step (failing_at 1) a ex_files OSalt with (_, Crash Terminate) => True | _ => False end /\
    match step (failing_at 2) a ex_files OSalt with (_, Ret (_, ROk)) => True | _ => False end.
Proof.
  repeat (split; [vm_compute; reflexivity|]).
  assert (exists tr a, history Release ex_hashes 1 tr a /\ match step (failing_at 1) a ex_files OSalt with (_, Crash Terminate) => True | _ => False end /\
    match step (failing_at 2) a ex_files OSalt with (_, Ret (_, ROk)) => True | _ => False end) as (tr & a & Hh & X) by (history_of opening; auto).
  exists tr, a. split; [apply history_is_any, Hh|exact X].
Qed.
Theorem C74_mended : forall H, hashes_ok H -> forall bd mode tr a, history_any bd H mode tr a ->
  exists tr', history bd H mode tr' a /\ mends tr tr' /\ follow_any tr = follow tr'.
Proof. exact history_mended. Qed.
Print Assumptions C74_mended.
(** a header that was not made because the generator failed, then one that was *)
Example C74_mended_ex : exists tr a, history_any Release ex_hashes 1 tr a /\ length tr = 3%nat /\
  match follow_any tr with Some (Open p h pw true) => p = a_enc_path /\ h_hmode h = 1 /\ pw = ex_pw | _ => False end.
Proof.
  assert (op_ok (OHeader ex_pw ex_ds 0)) as Ho by op_tac. assert (fs_ok (one_file [])) as Hf by (apply one_file_ok; reflexivity).
  apply (play_any Release ex_hashes [(ex_world, one_file [], OSelect a_enc_path); (failing_at 0, one_file [], OHeader ex_pw ex_ds 0); (ex_world, one_file [], OHeader ex_pw ex_ds 0)]).
  - repeat apply Forall_cons; try apply Forall_nil; (split; [repeat split|split; [exact Hf|first [exact Ho|exact I]]]).
  - vm_compute. auto.
Qed.
Theorem C74_dead_generator : forall H, hashes_ok H -> forall bd mode tr a w f, history_any bd H mode tr a -> world_any bd H w -> fs_ok f -> dead w ->
  (a_state a = DECRYPTED -> step w a f OSalt = (f, Crash Terminate)) /\
  (forall pw ds t, op_ok (OHeader pw ds t) -> all_set ds = true -> a_state a = EMPTY_FILE_SELECTED \/ a_state a = DECRYPTED ->
     step w a f (OHeader pw ds t) =
       (f, if (value (s_ch1 ds) =? 2) || (value (s_ch1 ds) =? 4) then Crash Terminate else Ret (a, RErr FAIL ERR))) /\
  (forall p c, a_state a = INIT -> enc_path p -> w_stat w p = true -> w_read w p = true -> f (w_loc w p) = Some c -> (exists hsz, hsz < 2 ^ 64 /\ sizes_fit c hsz) ->
     1 <= hash_byte c <= 3 -> step w a f (OSelect p) = (f, Crash Terminate)).
Proof. exact dead_calls. Qed.
Print Assumptions C74_dead_generator.
Definition dead_world : world :=
  mkWorld (w_loc ex_world) (w_stat ex_world) (w_read ex_world) (w_write ex_world) (w_create ex_world) (w_remove ex_world) (w_dir ex_world) (w_room ex_world)
    (fun _ k => x00 :: zrnd k) (w_elapsed ex_world) (w_clk1 ex_world) (w_clk2 ex_world) (w_hashes ex_world) (w_build ex_world) (w_fuel ex_world).
Example dead_ok : world_any Release ex_hashes dead_world /\ dead dead_world.
Proof.
  split; [repeat split|]. intros i k E. cbn [dead_world w_rnd] in E. pose proof (zrnd_ok k) as Z. unfold lenN in *. cbn [length] in E. lia.
Qed.
Example C74_dead_ex : all_set ex_ds = true /\ all_set ex_ds2 = true /\ (exists hsz, hsz < 2 ^ 64 /\ sizes_fit ex_file hsz) /\ hash_byte ex_file = 1 /\
  match step dead_world (fresh 1) ex_files (OSelect a_enc_path) with (_, Crash Terminate) => True | _ => False end /\
  exists tr a, history Release ex_hashes 1 tr a /\ a_state a = DECRYPTED /\
    match step dead_world a ex_files (OHeader ex_pw ex_ds 0) with (_, Ret (_, RErr FAIL ERR)) => True | _ => False end /\
    match step dead_world a ex_files (OHeader ex_pw ex_ds2 0) with (_, Crash Terminate) => True | _ => False end.
Proof.
  split; [reflexivity|]. split; [reflexivity|]. split; [|split; [vm_compute; reflexivity|split; [vm_compute; exact I|history_of opening; auto]]].
  exists 124. split; [reflexivity|]. eexists (dropN 16 ex_file). split; [vm_compute; reflexivity|]. vm_compute. split; discriminate.
Qed.
