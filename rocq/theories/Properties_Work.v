(** Property C95: what a password check and createDataHeader have to compute. *)
From Coq Require Import Strings.String.
From Verif Require Import Base BaseFacts BytesModel BytesSpec MiscModel CipherModel PwModel PwSpec ChModel HeaderModel HeaderSpec Toy FileModel ApiModel ApiSpec ApiFacts7 WorkModel WorkSpec WorkFacts WorkFacts2
  Properties_Header Properties_File Properties_Api.
Open Scope N_scope.
Open Scope list_scope.

(** the record is one of the calls of the API: answers and files are the same *)
Theorem C95_same_call : forall w a f o, snd (step_w w a f o) = step w a f o.
Proof. exact same_call. Qed.
Print Assumptions C95_same_call.
(** what happens in a call, event by event *)
Theorem C95_verify_events : forall H, hashes_ok H -> forall bd mode tr a w f p c hsz l1 l2 h rest pw t, history bd H mode tr a -> world_ok bd H w -> t < 2 ^ 64 ->
  a_state a = FILE_SELECTED -> selected tr = Some (p, c) -> written_as c hsz l1 l2 h rest -> fst (step_w w a f (OVerify pw t)) = verify_events H w h pw t.
Proof. exact verify_call. Qed.
Print Assumptions C95_verify_events.
Theorem C95_create_events : forall H, hashes_ok H -> forall bd mode tr a w f ds pw t h, history bd H mode tr a -> world_ok bd H w -> t < 2 ^ 64 ->
  a_state a = EMPTY_FILE_SELECTED \/ a_state a = DECRYPTED -> settings_made ds -> settings_complete ds -> created H w ds pw h ->
  fst (step_w w a f (OHeader pw ds t)) = create_events H w h pw t.
Proof. exact create_call. Qed.
Print Assumptions C95_create_events.
(** one digest per iteration; whoever gets an answer other than the timeout has paid for all of them *)
Theorem C95_verify_work : forall H, hashes_ok H -> forall bd mode tr a w f p c hsz l1 l2 h rest pw t, history bd H mode tr a -> world_ok bd H w -> t < 2 ^ 64 ->
  a_state a = FILE_SELECTED -> selected tr = Some (p, c) -> written_as c hsz l1 l2 h rest ->
  digests (fst (step_w w a f (OVerify pw t))) <= iterations (h_ch1 h) + iterations (h_ch2 h) /\
  (verify_in_time w t (iterations (h_ch1 h)) (iterations (h_ch2 h)) -> digests (fst (step_w w a f (OVerify pw t))) = iterations (h_ch1 h) + iterations (h_ch2 h)).
Proof. exact verify_call_work. Qed.
Print Assumptions C95_verify_work.
Theorem C95_answers_cost : forall H, hashes_ok H -> forall bd mode tr a w f p c hsz l1 l2 h rest pw t f' a' r, history bd H mode tr a -> world_ok bd H w -> t < 2 ^ 64 ->
  a_state a = FILE_SELECTED -> selected tr = Some (p, c) -> written_as c hsz l1 l2 h rest -> step w a f (OVerify pw t) = (f', Ret (a', r)) -> r <> RErr TIMEOUT ERR_TIMEOUT ->
  digests (fst (step_w w a f (OVerify pw t))) = iterations (h_ch1 h) + iterations (h_ch2 h).
Proof. exact verify_cost. Qed.
Print Assumptions C95_answers_cost.
Theorem C95_create_work : forall H, hashes_ok H -> forall bd mode tr a w f ds pw t n1 n2, history bd H mode tr a -> world_ok bd H w -> t < 2 ^ 64 ->
  a_state a = EMPTY_FILE_SELECTED \/ a_state a = DECRYPTED -> settings_made ds -> settings_complete ds -> s_n1 ds = Some n1 -> s_n2 ds = Some n2 ->
  digests (fst (step_w w a f (OHeader pw ds t))) <= n1 + n2 /\ (create_in_time w t n1 n2 -> digests (fst (step_w w a f (OHeader pw ds t))) = n1 + n2).
Proof. exact create_call_work. Qed.
Print Assumptions C95_create_work.
(** whatever the file says, and without any limit: two thousand million digests at most *)
Theorem C95_bounded : forall H, hashes_ok H -> forall bd mode tr a w f o, history bd H mode tr a -> world_ok bd H w -> op_ok o -> digests (fst (step_w w a f o)) <= 2000000000.
Proof. exact bounded_work. Qed.
Print Assumptions C95_bounded.
(** the digests have to be computed one after the other *)
Theorem C95_verify_sequential : forall H, hashes_ok H -> forall bd mode tr a w f p c hsz l1 l2 h rest pw t, history bd H mode tr a -> world_ok bd H w -> t < 2 ^ 64 ->
  a_state a = FILE_SELECTED -> selected tr = Some (p, c) -> written_as c hsz l1 l2 h rest -> sequential (hash_of H (h_hmode h)) (fst (step_w w a f (OVerify pw t))).
Proof. exact verify_call_sequential. Qed.
Print Assumptions C95_verify_sequential.
Theorem C95_create_sequential : forall H, hashes_ok H -> forall bd mode tr a w f ds pw t m, history bd H mode tr a -> world_ok bd H w -> t < 2 ^ 64 ->
  a_state a = EMPTY_FILE_SELECTED \/ a_state a = DECRYPTED -> settings_made ds -> settings_complete ds -> s_hmode ds = Some m ->
  sequential (hash_of H m) (fst (step_w w a f (OHeader pw ds t))).
Proof. exact create_call_sequential. Qed.
Print Assumptions C95_create_sequential.
(** two passwords of the same length, right or wrong: the same number of digests, over texts of the same lengths, with the same readings in between *)
Theorem C95_same_for_all_passwords : forall H, hashes_ok H -> forall bd mode tr a w f pw pw' t, history bd H mode tr a -> world_ok bd H w -> t < 2 ^ 64 ->
  lenN pw = lenN pw' -> seen (fst (step_w w a f (OVerify pw t))) = seen (fst (step_w w a f (OVerify pw' t))).
Proof. exact verify_call_seen. Qed.
Print Assumptions C95_same_for_all_passwords.
(** with a limit the clock is read at least every 1001 digests *)
Theorem C95_paced : forall H, hashes_ok H -> forall bd mode tr a w f o t, history bd H mode tr a -> world_ok bd H w -> op_ok o -> t <> 0 ->
  (exists pw, o = OVerify pw t) \/ (exists pw ds, o = OHeader pw ds t) -> paced 1001 (fst (step_w w a f o)).
Proof. exact call_paced. Qed.
Print Assumptions C95_paced.
(** createDataHeader stops at the first reading that reaches the limit ... *)
Theorem C95_create_stops : forall H, hashes_ok H -> forall bd mode tr a w f pw ds t, history bd H mode tr a -> world_ok bd H w -> op_ok (OHeader pw ds t) -> t <> 0 ->
  stops t (fst (step_w w a f (OHeader pw ds t))).
Proof. exact create_call_stops. Qed.
Print Assumptions C95_create_stops.
(** ... verifyPassword does not: if the reading between the chains is later than the limit, the whole second chain is computed *)
Theorem C95_verify_runs_on : forall H, hashes_ok H -> forall bd mode tr a w f p c hsz l1 l2 h rest pw t, history bd H mode tr a -> world_ok bd H w -> a_state a = FILE_SELECTED ->
  selected tr = Some (p, c) -> written_as c hsz l1 l2 h rest -> t <> 0 -> t < w_elapsed w -> ~ reached (w_clk1 w) t (readings_string (iterations (h_ch1 h))) ->
  (forall i, w_clk2 w i < 2 ^ 64 - (w_elapsed w - t)) ->
  exists x y, fst (step_w w a f (OVerify pw t)) = x ++ EvClock (w_elapsed w) :: y /\ digests x = iterations (h_ch1 h) /\ digests y = iterations (h_ch2 h).
Proof. exact verify_call_runs_on. Qed.
Print Assumptions C95_verify_runs_on.

(** the check of the example file: right and wrong passwords, and the three possible ends *)
Definition show (l : list event) : list N := map (fun e => match e with EvHash x => lenN x | EvClock t => 1000 + t end) l.
Example C95_ex : exists tr a, history Release ex_hashes 1 tr a /\ a_state a = FILE_SELECTED /\ selected tr = Some (a_enc_path, ex_file) /\
  iterations (h_ch1 ex_head) + iterations (h_ch2 ex_head) = 5 /\
  show (fst (step_w ex_world a ex_files (OVerify ex_pw 0))) = show (fst (step_w ex_world a ex_files (OVerify (str "secreT") 0))) /\
  show (fst (step_w ex_world a ex_files (OVerify ex_pw 0))) = [24; 50; 1000; 40; 40; 40] /\
  show (fst (step_w slow_world a ex_files (OVerify ex_pw 99))) = [24; 50; 1100; 40; 3601000; 40; 40] /\
  show (fst (step_w slow_world a ex_files (OVerify ex_pw 100))) = [24; 50; 1100] /\
  show (fst (step_w slow_world a ex_files (OVerify ex_pw 101))) = [24; 50; 1100; 40; 3601000].
Proof. history_of [OSelect a_enc_path]. repeat split; reflexivity. Qed.
Example C95_create_ex : (exists tr a, history Release ex_hashes 1 tr a /\ a_state a = DECRYPTED /\
  show (fst (step_w ex_world a ex_files (OHeader ex_pw ex_ds 0))) = [24; 50; 1000; 287; 287; 287] /\
  show (fst (step_w slow_world a ex_files (OHeader ex_pw ex_ds 99))) = [24; 50; 1100] /\
  show (fst (step_w slow_world a ex_files (OHeader ex_pw ex_ds 100))) = [24; 50; 1100] /\
  show (fst (step_w slow_world a ex_files (OHeader ex_pw ex_ds 101))) = [24; 50; 1100; 287; 3601000]) /\ settings_made ex_ds /\ settings_complete ex_ds.
Proof. split; [history_of opening; repeat split; reflexivity|]. destruct ex_ds_ok as (A & B & _). auto. Qed.
(** it is false that a check stops at a reading that reaches its limit *)
Theorem C95_verify_stops_refuted : exists tr a, history Release ex_hashes 1 tr a /\ world_ok Release ex_hashes slow_world /\ ~ stops 99 (fst (step_w slow_world a ex_files (OVerify ex_pw 99))).
Proof.
  destruct C95_ex as (tr & a & P & S & Q & _). exists tr, a.
  assert (world_ok Release ex_hashes slow_world) as W by (split; [reflexivity|]; split; [reflexivity|]; split; [intros i k; apply zrnd_ok|reflexivity]).
  split; [exact P|]. split; [exact W|]. intros St.
  destruct (sealed_written ex_hashes ex_hashes_ok ex_head ex_pw (bdata ex_data) ex_file ex_file_ok (proj1 (proj2 ex_head_ok)) ltac:(vm_compute; reflexivity)) as (_ & _ & _ & _ & Wr).
  destruct (C95_verify_runs_on ex_hashes ex_hashes_ok Release 1 tr a slow_world ex_files a_enc_path ex_file _ _ _ ex_head _ ex_pw 99 P W S Q Wr) as (x & y & E & _ & D);
    [discriminate|reflexivity|intros (_ & k & _ & K); apply K; reflexivity|intros i; reflexivity|].
  rewrite (St _ _ _ E) in D by discriminate. discriminate D.
Qed.
Print Assumptions C95_verify_stops_refuted.
