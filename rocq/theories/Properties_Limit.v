(** Property C120. *)
From Coq Require Import Strings.String.
From Verif Require Import Base BytesModel BytesSpec MiscModel CipherModel CipherSpec PwModel PwSpec ChModel ChSpec HeaderModel HeaderSpec Toy FileModel ApiModel ApiSpec
  ApiFacts9 Properties_Header Properties_File Properties_Api LimitFacts.

Theorem C120_create : forall H, hashes_ok H -> forall bd mode tr a w f pw ds t t' a1 y, history bd H mode tr a -> world_ok bd H w -> fs_ok f -> settings_made ds ->
  t < 2 ^ 64 -> t' < 2 ^ 64 -> t <> 0 -> t <= t' \/ t' = 0 -> step w a f (OHeader pw ds t) = (f, Ret (a1, y)) -> y <> RErr TIMEOUT ERR_TIMEOUT ->
  exists a2, step w a f (OHeader pw ds t') = (f, Ret (a2, y)) /\ a_state a2 = a_state a1.
Proof. exact create_longer. Qed.
Print Assumptions C120_create.
Theorem C120_verify : forall H, hashes_ok H -> forall bd mode tr a w f pw t t' a1 y, history bd H mode tr a -> world_ok bd H w -> fs_ok f ->
  t < 2 ^ 64 -> t' < 2 ^ 64 -> t <> 0 -> t <= t' -> ~ (t < w_elapsed w <= t') -> step w a f (OVerify pw t) = (f, Ret (a1, y)) -> y <> RErr TIMEOUT ERR_TIMEOUT ->
  exists a2, step w a f (OVerify pw t') = (f, Ret (a2, y)) /\ a_state a2 = a_state a1.
Proof. exact verify_longer. Qed.
Print Assumptions C120_verify.
Theorem C120_verify_unlimited : forall H, hashes_ok H -> forall bd mode tr a w f pw t a1 y, history bd H mode tr a -> world_ok bd H w -> fs_ok f -> t < 2 ^ 64 ->
  (forall k, w_clk2 w k + w_elapsed w < 2 ^ 64) -> step w a f (OVerify pw t) = (f, Ret (a1, y)) -> y <> RErr TIMEOUT ERR_TIMEOUT ->
  exists a2, step w a f (OVerify pw 0) = (f, Ret (a2, y)) /\ a_state a2 = a_state a1.
Proof. exact verify_unlimited. Qed.
Print Assumptions C120_verify_unlimited.
Theorem C120_verify_gap : forall H, hashes_ok H -> forall bd mode tr a w f p c hsz l1 l2 h rest pw t t' a1 y, history bd H mode tr a -> world_ok bd H w -> fs_ok f ->
  t < 2 ^ 64 -> t' < 2 ^ 64 -> a_state a = FILE_SELECTED -> selected tr = Some (p, c) -> written_as c hsz l1 l2 h rest ->
  t <> 0 -> t < w_elapsed w -> w_elapsed w <= t' -> step w a f (OVerify pw t) = (f, Ret (a1, y)) -> y <> RErr TIMEOUT ERR_TIMEOUT ->
  (step w a f (OVerify pw t') = (f, Ret (a, RErr TIMEOUT ERR_TIMEOUT)) <->
   w_elapsed w = t' \/ exists k, N.of_nat k < readings_bytes (iterations (h_ch2 h)) /\ t' - w_elapsed w <= w_clk2 w k).
Proof. exact verify_in_gap. Qed.
Print Assumptions C120_verify_gap.
(** the timer shows 100 ms after the first chain hash and 5 ms whenever it is read in the second one: a limit of 99 ms is kept, so it seems, limits of 100
    to 105 ms are exceeded; a wrong password is found out in the same way *)
Definition timed_world : world :=
  mkWorld ex_loc (fun _ => true) (fun _ => true) (fun _ => true) (fun _ => true) (fun _ => true) (fun _ => Missing) 1000000
    (fun _ k => zrnd k) 100 (fun _ => 0) (fun _ => 5) ex_hashes Release (N.to_nat 3000).
Example timed_world_ok : world_ok Release ex_hashes timed_world.
Proof. split; [reflexivity|]. split; [reflexivity|]. split; [intros i k; apply zrnd_ok|reflexivity]. Qed.
Definition answer_of (r : fs * outcome (api * reply)) : option reply := match r with (_, Ret (_, y)) => Some y | _ => None end.
Definition late := Some (RErr TIMEOUT ERR_TIMEOUT).
Example C120_ex : exists tr a, history Release ex_hashes 1 tr a /\ a_state a = FILE_SELECTED /\ selected tr = Some (a_enc_path, ex_file) /\
  answer_of (step timed_world a ex_files (OVerify ex_pw 99)) = Some ROk /\ answer_of (step timed_world a ex_files (OVerify ex_pw 100)) = late /\
  answer_of (step timed_world a ex_files (OVerify ex_pw 105)) = late /\ answer_of (step timed_world a ex_files (OVerify ex_pw 106)) = Some ROk /\
  answer_of (step timed_world a ex_files (OVerify ex_pw2 99)) = Some (RErr FAIL ERR_PASSWORD_INVALID) /\ answer_of (step timed_world a ex_files (OVerify ex_pw2 101)) = late /\
  answer_of (step timed_world a ex_files (OVerify ex_pw 1)) = Some ROk /\ answer_of (step timed_world a ex_files (OVerify ex_pw 0)) = Some ROk.
Proof. history_of [OSelect a_enc_path]. repeat split. Qed.
Example C120_ex_create : exists tr a, history Release ex_hashes 1 tr a /\ a_state a = DECRYPTED /\
  answer_of (step timed_world a ex_files (OHeader ex_pw ex_ds 100)) = late /\ answer_of (step timed_world a ex_files (OHeader ex_pw ex_ds 105)) = late /\
  answer_of (step timed_world a ex_files (OHeader ex_pw ex_ds 106)) = Some ROk /\ answer_of (step timed_world a ex_files (OHeader ex_pw ex_ds 1000)) = Some ROk /\
  answer_of (step timed_world a ex_files (OHeader ex_pw ex_ds 0)) = Some ROk.
Proof. history_of opening. repeat split. Qed.
