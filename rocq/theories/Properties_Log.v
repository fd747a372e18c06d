(** Properties C97 and C98: what the log gives away, and which failures it tells. *)
From Coq Require Import Strings.String.
From Verif Require Import Base BaseFacts BytesModel BytesSpec MiscModel CipherModel CipherSpec PwModel PwSpec ChModel ChSpec HeaderModel HeaderSpec Toy FileModel ApiModel ApiSpec
  LogModel LogSpec LogFacts4 LogFacts5 LogFacts9 LogFacts10 LogFacts11 LogSpec2 LogFacts12 ApiFacts9 Properties_Header Properties_File Properties_Api.
Open Scope N_scope.
Open Scope list_scope.

(** the log of every call that succeeds *)
Theorem C97_success_log : forall H, hashes_ok H -> forall bd mode tr a w f o f' a' r, history bd H mode tr a -> world_ok bd H w -> fs_ok f -> op_ok o ->
  step w a f o = (f', Ret (a', r)) -> succeeded r = true ->
  let e := mkEntry w f o r f' in exists h, (of_header e = true -> current H (e :: tr) h) /\ logged tr e (a_state a) h (lines_of w a f o).
Proof. exact success_logged. Qed.
Print Assumptions C97_success_log.
(** selecting a file, setting a password and changing the salt leave in the log all that is needed to test a guessed password, whether or not the file is ever written *)
Theorem C97_guess : forall H, hashes_ok H -> forall bd mode tr a w f o f' a' r, history bd H mode tr a -> world_ok bd H w -> fs_ok f -> op_ok o ->
  step w a f o = (f', Ret (a', r)) -> succeeded r = true ->
  let e := mkEntry w f o r f' in of_header e = true -> shows_header o = true ->
  exists h, current H (e :: tr) h /\ forall q, fits_log H (lines_of w a f o) q <-> opens H h q.
Proof. exact guess_log. Qed.
Print Assumptions C97_guess.
(** the log of selecting a file gives the answers that password checks give *)
Theorem C97_guess_select : forall H, hashes_ok H -> forall bd mode tr a w f p f' a' w2 f2 q t f3 b x, history bd H mode tr a -> world_ok bd H w -> fs_ok f ->
  step w a f (OSelect p) = (f', Ret (a', ROk)) -> content f (w_loc w p) <> [] -> world_ok bd H w2 -> t < 2 ^ 64 ->
  step w2 a' f2 (OVerify q t) = (f3, Ret (b, x)) -> x <> RErr TIMEOUT ERR_TIMEOUT ->
  (x = ROk <-> fits_log H (lines_of w a f (OSelect p)) q).
Proof. exact guess_select. Qed.
Print Assumptions C97_guess_select.
(** nothing else: calls on objects that differ in secrets only, with the same answers, leave the same log up to the check values *)
Theorem C97_call : forall w a b f o o' a1 r1 b1 r2, hashes_ok (w_hashes w) -> api_like a b -> op_like o o' ->
  snd (step w a f o) = Ret (a1, r1) -> snd (step w b f o') = Ret (b1, r2) -> reply_like r1 r2 ->
  map hide (lines_of w a f o) = map hide (lines_of w b f o') /\ api_like a1 b1.
Proof. exact call_hides. Qed.
Print Assumptions C97_call.
(** except for verifyPassword the answers need not be compared, and crashes are the same too *)
Theorem C97_call_any_end : forall w a b f o o', hashes_ok (w_hashes w) -> api_like a b -> op_like o o' -> is_verify o = false ->
  map hide (lines_of w a f o) = map hide (lines_of w b f o') /\ ends_like (snd (step w a f o)) (snd (step w b f o')) /\
  files_like (fst (step w a f o)) (fst (step w b f o')) /\ (is_write o = false -> fst (step w a f o) = fst (step w b f o')).
Proof. exact step_hides. Qed.
Print Assumptions C97_call_any_end.
Theorem C97_session : forall calls calls' a b ls rs a1 ls' rs' b1, Forall2 calls_like calls calls' -> api_like a b ->
  Forall (fun c => hashes_ok (w_hashes (fst (fst c)))) calls ->
  session calls a = Some (ls, rs, a1) -> session calls' b = Some (ls', rs', b1) -> Forall2 reply_like rs rs' ->
  map hide ls = map hide ls' /\ api_like a1 b1.
Proof. exact session_hides. Qed.
Print Assumptions C97_session.
(** with severity info or above, nothing at all *)
Theorem C97_info : forall calls calls' a b ls rs a1 ls' rs' b1, Forall2 calls_like calls calls' -> api_like a b ->
  Forall (fun c => hashes_ok (w_hashes (fst (fst c)))) calls ->
  session calls a = Some (ls, rs, a1) -> session calls' b = Some (ls', rs', b1) -> Forall2 reply_like rs rs' ->
  filter (at_least SInfo) ls = filter (at_least SInfo) ls'.
Proof. exact info_hides. Qed.
Print Assumptions C97_info.
(** a new password that is refused leaves its first bad character or its length, as a warning *)
Theorem C97_refused_password : forall pw ls, password_lines pw = ls <-> password_log pw ls.
Proof. exact password_logged. Qed.
Print Assumptions C97_refused_password.

(** two sessions: a file is opened, a new password is set, other data are encrypted, and nothing is written *)
Definition secret_calls (pw : bytes) (x : Bytes) : list (world * fs * op) := ex_calls (opening ++ [OHeader pw ex_ds 0; OSalt; OEncrypt (text x); OGetData]).
Definition data_a : Bytes := fromArray (str "pass: 1234").
Definition data_b : Bytes := fromArray (str "pass: 9876").
Example C97_session_ex : Forall2 calls_like (secret_calls ex_pw data_a) (secret_calls ex_pw2 data_b) /\
  match session (secret_calls ex_pw data_a) (fresh 1), session (secret_calls ex_pw2 data_b) (fresh 1) with
  | Some (l1, r1, _), Some (l2, r2, _) =>
      map hide l1 = map hide l2 /\ r1 = r2 /\ filter (at_least SInfo) l1 = filter (at_least SInfo) l2 /\ lenN (filter (at_least SInfo) l1) = 3 /\
      match g_valid (study l1), g_valid (study l2) with Some u, Some v => eqb_bytes u v = false | _, _ => False end
  | _, _ => False
  end.
Proof. split; [repeat constructor | ]. vm_compute. repeat split. Qed.
(** the log of that session answers which of the two passwords was set *)
Example C97_guess_ex :
  match session (secret_calls ex_pw2 data_a) (fresh 1) with
  | Some (ls, _, _) =>
      match study ls with
      | mkFindings (Some m) (Some c1) (Some c2) (Some v) =>
          eqb_bytes v (chain_value (hash_of ex_hashes m) c2 (chain_value (hash_of ex_hashes m) c1 ex_pw2)) = true /\
          eqb_bytes v (chain_value (hash_of ex_hashes m) c2 (chain_value (hash_of ex_hashes m) c1 ex_pw)) = false
      | _ => False
      end
  | None => False
  end.
Proof. vm_compute. auto. Qed.
Example C97_success_ex : (op_ok (OHeader ex_pw2 ex_ds 0) /\ of_header (mkEntry ex_world ex_files (OHeader ex_pw2 ex_ds 0) ROk ex_files) = true) /\
  exists tr a, history Release ex_hashes 1 tr a /\
  match step ex_world a ex_files (OHeader ex_pw2 ex_ds 0) with (_, Ret (_, ROk)) => True | _ => False end /\
  hd_error (lines_of ex_world a ex_files (OHeader ex_pw2 ex_ds 0)) = Some (mkLine SDebug Api_h 400 [Num 0; Num 2; Num 3]) /\ lenN (lines_of ex_world a ex_files (OHeader ex_pw2 ex_ds 0)) = 16.
Proof. split; [split; [op_tac | reflexivity] | ]. history_of opening. repeat split. Qed.
(** the whole log of selecting a file *)
Example C97_select_ex : lines_of ex_world (fresh 1) ex_files (OSelect a_enc_path) =
  [api_h 353 [Txt a_enc_path]; api_cpp SVerbose 372 [Txt a_enc_path]; dh 11 [Num 1]; lookup 1; lookup 1; dh 67 [Num 1]; dh 43 (chain_shown (h_ch1 ex_head)); dh 55 (chain_shown (h_ch2 ex_head));
   dh 74 [Hex (h_valid ex_head)]; dh 145 [Hex (h_salt ex_head)]; dh 114 [Num 191]; dh 168 [Flag false]; api_cpp SInfo 242 [Txt a_enc_path]; api_h 229 []].
Proof. vm_compute. reflexivity. Qed.
Example C97_refused_ex : password_lines (str "short") = [mkLine SWarning Pwfunc_cpp 29 [Num 5; Num 8]] /\ password_lines (str "correct horse") = [mkLine SWarning Pwfunc_cpp 21 [Txt (str " "); Num 32]] /\
  password_lines [x61; xc3; xa4] = [mkLine SWarning Pwfunc_cpp 21 [Txt [xc3]; Minus 61]] /\ password_lines (str "longenough") = [].
Proof. vm_compute. auto. Qed.

(** every failure leaves an error in the log, a wrong password or a time limit at least a warning *)
Theorem C98_failure_told : forall w a f o f' a' r, step w a f o = (f', Ret (a', r)) -> succeeded r = false -> r <> RErr FAIL ERR_API_STATE_INVALID -> told (due r) (lines_of w a f o).
Proof. exact failure_told. Qed.
Print Assumptions C98_failure_told.
(** except that a call in the wrong state leaves nothing but its name *)
Theorem C98_wrong_state_untold : forall w a f o f' a', offered (a_state a) o = false -> step w a f o = (f', Ret (a', RErr FAIL ERR_API_STATE_INVALID)) -> exists n fs, lines_of w a f o = [api_h n fs].
Proof. exact wrong_state_log. Qed.
Print Assumptions C98_wrong_state_untold.
(** a call that succeeds leaves no warning and no error, except that a read from an empty file looks like a problem *)
Theorem C98_success_quiet : forall H, hashes_ok H -> forall bd mode tr a w f o f' a' r, history bd H mode tr a -> world_ok bd H w -> fs_ok f -> op_ok o ->
  step w a f o = (f', Ret (a', r)) -> succeeded r = true -> (forall dir, o <> OList dir) ->
  Forall (fun l => at_least SWarning l = false \/ (opens_empty w f o = true /\ empty_read l)) (lines_of w a f o).
Proof. exact success_quiet. Qed.
Print Assumptions C98_success_quiet.
Definition loud (ls : list line) : list line := filter (at_least SWarning) ls.
Example C98_ex :
  match session (ex_calls [OSelect a_enc_path; OVerify ex_pw2 0; OGetData; OContent; OVerify ex_pw 0; ODecrypt]) (fresh 1) with
  | Some (ls, rs, _) => nth_error rs 1 = Some (RErr FAIL ERR_PASSWORD_INVALID) /\ nth_error rs 2 = Some (RErr FAIL ERR_API_STATE_INVALID) /\ loud ls = [api_cpp SWarning 481 []]
  | None => False
  end.
Proof. vm_compute. repeat split. Qed.
(** an empty file and a directory with a broken file give warnings and errors although the calls succeed *)
Example C98_warning_ex :
  loud (lines_of ex_world (fresh 1) (one_file []) (OSelect a_enc_path)) = [mkLine SWarning Utility_cpp 91 []] /\
  loud (lines_of ex_world (fresh 1) (one_file [x00]) (OSelect a_enc_path)) =
    [mkLine SWarning Utility_cpp 91 []; mkLine SError Filehandler_cpp 105 []; api_cpp SError 24 [What LengthError]; api_cpp SError 376 [Code ERR_FILEHANDLER_CREATION; What LengthError]] /\
  (match step dir_world (fresh 1) (one_file [x00]) (OList (str "dir")) with (_, Ret (_, r)) => r = RNames [] | _ => False end) /\
  In (api_cpp SError 24 [What LengthError]) (loud (lines_of dir_world (fresh 1) (one_file [x00]) (OList (str "dir")))).
Proof. vm_compute. repeat split; auto. Qed.
(** a password check that does not succeed: the whole log, with the round in which the time limit was noticed *)
Theorem C98_unverified : forall H, hashes_ok H -> forall bd mode tr a w f q t f' a' r, history bd H mode tr a -> world_ok bd H w -> t < 2 ^ 64 -> a_state a = FILE_SELECTED ->
  step w a f (OVerify q t) = (f', Ret (a', r)) -> succeeded r = false ->
  exists h, current H tr h /\ unverified w t h r (lines_of w a f (OVerify q t)).
Proof. exact unverified_log. Qed.
Print Assumptions C98_unverified.
Theorem C98_out_of_time : forall H, hashes_ok H -> forall bd mode tr a w f pw ds t f' a', history bd H mode tr a -> world_ok bd H w -> op_ok (OHeader pw ds t) ->
  step w a f (OHeader pw ds t) = (f', Ret (a', RErr TIMEOUT ERR_TIMEOUT)) -> out_of_time w (a_state a) ds t (lines_of w a f (OHeader pw ds t)).
Proof. exact out_of_time_log. Qed.
Print Assumptions C98_out_of_time.
(** the second chain hash reads the clock in its round 0; here one unit of time is left for it, or none *)
Example C98_unverified_ex : world_ok Release ex_hashes slow_world /\ exists tr a, history Release ex_hashes 1 tr a /\
  a_state a = FILE_SELECTED /\
  match step slow_world a ex_files (OVerify ex_pw 101) with (_, Ret (_, r)) => r = RErr TIMEOUT ERR_TIMEOUT | _ => False end /\
  lines_of slow_world a ex_files (OVerify ex_pw 101) =
    [api_h 387 [Num 101]; api_cpp SVerbose 437 [Num 101]; lookup 1; hashing 97 (3, 2, []) 101; hashing 63 (2, 3, []) 1; mkLine SWarning Pwfunc_cpp 169 [Num 1; Num 0]; time_error 467] /\
  loud (lines_of slow_world a ex_files (OVerify ex_pw 100)) = [api_cpp SWarning 457 []] /\
  match step ex_world a ex_files (OVerify ex_pw2 0) with (_, Ret (_, r)) => r = RErr FAIL ERR_PASSWORD_INVALID | _ => False end.
Proof. split; [split; [reflexivity|]; split; [reflexivity|]; split; [intros i k; apply zrnd_ok|reflexivity]|]. history_of [OSelect a_enc_path]. repeat split. Qed.
Example C98_out_of_time_ex : op_ok (OHeader ex_pw ex_ds 101) /\ exists tr a, history Release ex_hashes 1 tr a /\
  a_state a = DECRYPTED /\
  match step slow_world a ex_files (OHeader ex_pw ex_ds 101) with (_, Ret (_, r)) => r = RErr TIMEOUT ERR_TIMEOUT | _ => False end /\
  loud (lines_of slow_world a ex_files (OHeader ex_pw ex_ds 101)) = [mkLine SWarning Pwfunc_cpp 169 [Num 1; Num 0]; time_error 111; time_error 659] /\
  loud (lines_of slow_world a ex_files (OHeader ex_pw ex_ds 100)) = [api_cpp SError 98 []; time_error 659].
Proof. split; [op_tac|]. history_of opening. repeat split. Qed.
