(** Property C121. *)
From Coq Require Import Strings.String.
From Verif Require Import Base BytesModel BytesSpec MiscModel CipherModel CipherSpec PwModel PwSpec ChModel ChSpec HeaderModel HeaderSpec HeaderFacts5 Toy FileModel ApiModel ApiSpec ApiSpec2
  ApiFacts9 Properties_Header Properties_File Properties_Api Properties_Api2 BuildSpec BuildFacts.

Theorem C121_call : forall w a f o, step (built Debug w) a f o = step (built Release w) a f o \/
  step (built Debug w) a f o = (f, Crash AssertFail) /\ a_state a = INIT /\ ((exists p, o = OSelect p) \/ exists dir, o = OList dir).
Proof. exact call_same. Qed.
Print Assumptions C121_call.
Theorem C121_to_release : forall H mode tr a, history Debug H mode tr a -> history Release H mode (map (made_in Release) tr) a.
Proof. exact to_release. Qed.
Print Assumptions C121_to_release.
Theorem C121_to_debug : forall H, hashes_ok H -> forall mode tr a, history Release H mode tr a -> Forall sound_call tr -> history Debug H mode (map (made_in Debug) tr) a.
Proof. exact to_debug. Qed.
Print Assumptions C121_to_debug.
Theorem C121_select_stops : forall H, hashes_ok H -> forall mode tr a w f p, history Debug H mode tr a -> world_ok Debug H w -> fs_ok f -> a_state a = INIT ->
  (step w a f (OSelect p) = (f, Crash AssertFail) <-> enc_path p /\ w_stat w p = true /\ w_read w p = true /\ exists c, f (w_loc w p) = Some c /\ misread c).
Proof. exact select_stop. Qed.
Print Assumptions C121_select_stops.
Theorem C121_stops : forall H, hashes_ok H -> forall mode tr a w f o f', history Debug H mode tr a -> world_ok Debug H w -> fs_ok f -> op_ok o ->
  step w a f o = (f', Crash AssertFail) ->
  f' = f /\ a_state a = INIT /\ ((exists p, o = OSelect p) \/ exists dir, o = OList dir) /\ (exists l c, f l = Some c /\ misread c).
Proof. exact stop_why. Qed.
Print Assumptions C121_stops.
Theorem C121_own : forall H, hashes_ok H -> forall bd mode tr a w f o p f' a', history bd H mode tr a -> world_ok bd H w -> fs_ok f ->
  (o = OWrite \/ o = OWriteTo p) -> step w a f o = (f', Ret (a', ROk)) -> exists q c, target tr o = Some q /\ f' (w_loc w q) = Some c /\ ~ misread c.
Proof. exact own_sound. Qed.
Print Assumptions C121_own.
(** a file changed by hand stops a Debug build and is opened by a Release build *)
Example C121_ex : misread ex_bad_size /\ step (built Debug ex_world) (fresh 1) (one_file ex_bad_size) (OSelect a_enc_path) = (one_file ex_bad_size, Crash AssertFail) /\
  match step (built Release ex_world) (fresh 1) (one_file ex_bad_size) (OSelect a_enc_path) with (_, Ret (_, ROk)) => True | _ => False end.
Proof.
  split; [|split; [vm_compute; reflexivity|vm_compute; exact I]]. split.
  - exists 125, (dropN 16 ex_file). split; [vm_compute; reflexivity|]. vm_compute. split; discriminate.
  - assert (decode_stream Debug zrnd ex_bad_size = Crash AssertFail) as E by (vm_compute; reflexivity).
    apply (decode_crash zrnd zrnd_ok Debug ex_bad_size AssertFail) in E; [|vm_compute; reflexivity]. destruct E as [[E _]|(_ & _ & B)]; [discriminate E|exact B].
Qed.
(** a file that the library wrote: a Debug build opens it, changes it and writes it again, and so does a Release build *)
Example C121_ex_own : sound ex_files /\ exists tr a, history Debug ex_hashes 1 tr a /\ a_state a = FINISHED /\ (6 <= lenN tr).
Proof.
  split.
  - intros l c E [_ B]. unfold ex_files, one_file, upd in E. destruct (_ =? _); [|discriminate E]. injection E as <-.
    pose proof (bad_dies ex_file ltac:(vm_compute; reflexivity) B zrnd zrnd_ok) as D. vm_compute in D. discriminate D.
  - apply (play_example Debug ex_hashes (map (fun o => (built Debug ex_world, ex_files, o)) (opening ++ [OSalt; OEncrypt (text ex_data); OWrite])%list)).
    + unfold opening. cbn [map app]. repeat (apply Forall_cons; [split; [exact (built_ok _ Debug _ _ ex_world_ok)|split; [exact ex_files_ok|op_tac]]|]). apply Forall_nil.
    + vm_compute. split; [reflexivity|discriminate].
Qed.
