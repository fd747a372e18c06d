(** Property C92. *)
From Coq Require Import Strings.String.
From Verif Require Import Base BytesModel MiscModel CipherModel CipherSpec PwModel PwSpec ChModel ChSpec HeaderModel HeaderSpec FileModel ApiModel ApiSpec Toy Properties_Header Properties_File ApiFacts9
  TraceSpec TraceFacts Properties_Api.

(** the object answers as if only the essential calls had been made *)
Theorem C92_no_trace : forall H, hashes_ok H -> forall bd mode tr a, history bd H mode tr a ->
  exists b, history bd H mode (essential tr) b /\ forall l, watch l a = watch l b.
Proof. exact no_trace. Qed.
Print Assumptions C92_no_trace.
Theorem C92_same_calls : forall H, hashes_ok H -> forall bd mode tr a tr' a', history bd H mode tr a -> history bd H mode tr' a' ->
  essential tr = essential tr' -> forall l, watch l a = watch l a'.
Proof. exact same_essence. Qed.
Print Assumptions C92_same_calls.

(** a wrong password is answered like any other wrong password, and the object stays as it is *)
Theorem C92_wrong_passwords : forall H, hashes_ok H -> forall bd mode tr a w f p c hsz l1 l2 h rest pw1 pw2 t,
  history bd H mode tr a -> world_ok bd H w -> t < 2 ^ 64 -> a_state a = FILE_SELECTED -> selected tr = Some (p, c) -> written_as c hsz l1 l2 h rest ->
  ~ opens H h pw1 -> ~ opens H h pw2 -> step w a f (OVerify pw1 t) = step w a f (OVerify pw2 t).
Proof. exact wrong_same. Qed.
Print Assumptions C92_wrong_passwords.
(** any number of wrong passwords: what comes after them is as without them *)
Theorem C92_attempts : forall H, hashes_ok H -> forall bd mode tr a p c hsz l1 l2 h rest l after,
  history bd H mode tr a -> a_state a = FILE_SELECTED -> selected tr = Some (p, c) -> written_as c hsz l1 l2 h rest ->
  (forall t, In t l -> world_ok bd H (t_world t) /\ t_limit t < 2 ^ 64 /\ ~ opens H h (t_pw t)) ->
  exists replies, watch (map trying l ++ after) a = combine (map t_files l) (map (@Ret reply) replies) ++ watch after a /\
    Forall2 (fun t r => (r = RErr FAIL ERR_PASSWORD_INVALID /\ verify_in_time (t_world t) (t_limit t) (iterations (h_ch1 h)) (iterations (h_ch2 h))) \/
                        (r = RErr TIMEOUT ERR_TIMEOUT /\ ~ verify_in_time (t_world t) (t_limit t) (iterations (h_ch1 h)) (iterations (h_ch2 h)))) l replies.
Proof. exact attempts. Qed.
Print Assumptions C92_attempts.

(** a session that is closed, another with failed calls and questions: three calls are left, and they are needed *)
Definition ex_ops : list op :=
  [OSelect a_enc_path; OVerify ex_pw 0; OLogout; OSelect a_enc_path; OIsEmpty; OVerify ex_pw2 0; OWrite; OVerify ex_pw 0; ODecrypt; OGetData;
   OEncrypt (Some (mkFD (Some 2) (Some ex_data)))].
Example C92_ex : exists tr a, history Release ex_hashes 1 tr a /\ List.length tr = 11%nat /\ rev (map e_op (essential tr)) = [OSelect a_enc_path; OVerify ex_pw 0; ODecrypt] /\
  map (fun x => match x with (_, Ret r) => succeeded r | _ => false end) (watch [mkCall ex_world ex_files (OEncrypt (text ex_data)); mkCall ex_world ex_files OWrite; mkCall ex_world ex_files OWrite] a) = [true; true; false] /\
  map (fun x => match x with (_, Ret r) => succeeded r | _ => false end) (watch [mkCall ex_world ex_files (OEncrypt (text ex_data))] (fresh 1)) = [false].
Proof. history_of ex_ops. auto. Qed.
Example C92_attempts_ex : exists tr a, history Release ex_hashes 1 tr a /\ a_state a = FILE_SELECTED /\ selected tr = Some (a_enc_path, ex_file) /\
  map snd (watch (map trying [mkTry ex_world ex_files ex_pw2 0; mkTry ex_world ex_files (str "guess") 5] ++ [mkCall ex_world ex_files (OVerify ex_pw 0)]) a) =
    [Ret (RErr FAIL ERR_PASSWORD_INVALID); Ret (RErr FAIL ERR_PASSWORD_INVALID); Ret ROk].
Proof. history_of [OSelect a_enc_path]. repeat split. Qed.
