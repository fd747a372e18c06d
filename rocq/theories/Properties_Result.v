(** Property C91. *)
From Coq Require Import Strings.Byte.
From Verif Require Import Base BytesModel MiscModel CipherModel CipherSpec PwModel ChModel HeaderModel HeaderSpec FileModel ApiModel ApiSpec Toy Properties_Header Properties_File ApiFacts9 ResultModel ResultSpec ResultFacts Properties_Api.

(** every access to a kept result is answered as the earlier steps say *)
Theorem C91_answers : forall H, hashes_ok H -> forall bd mode evs c w f o i f' c' ans, program bd H mode evs c -> world_ok bd H w -> cop_ok c o ->
  index o = Some i -> cstep w f c o = (f', (c', ans)) ->
  exists s, nth_error (slips evs) i = Some s /\
    match foretold s o with
    | Some x => ans = x /\ f' = f /\ c_api c' = c_api c
    | None => exists x m, s = Parcel x m /\ f' = fst (step w (c_api c) f (OEncrypt x)) /\ ans = told (snd (step w (c_api c) f (OEncrypt x)))
    end.
Proof. exact answers. Qed.
Print Assumptions C91_answers.

(** the result of a failed call never gives a value, whatever is done in between *)
Theorem C91_failed : forall H, hashes_ok H -> forall bd mode later e earlier c w f o f' c' ans st k, program bd H mode (later ++ e :: earlier) c ->
  ev_ans e = Ret (AReply (RErr st k)) -> world_ok bd H w -> reads o (made earlier) -> cop_ok c o -> cstep w f c o = (f', (c', ans)) -> ans = Throw LogicError.
Proof. exact failed_reads. Qed.
Print Assumptions C91_failed.

(** neither does the result of changeSalt and writeToFile, although it is a success *)
Theorem C91_no_value : forall H, hashes_ok H -> forall bd mode later oe earlier c w f o f' c' ans,
  program bd H mode (later ++ mkEv (CCall oe) (Ret (AReply ROk)) :: earlier) c -> oe = OSalt \/ oe = OWrite \/ (exists p, oe = OWriteTo p) ->
  world_ok bd H w -> reads o (made earlier) -> cop_ok c o -> cstep w f c o = (f', (c', ans)) -> ans = Throw LogicError.
Proof. exact silent_reads. Qed.
Print Assumptions C91_no_value.

(** the data of one result is given away at most once *)
Theorem C91_given_once : forall H, hashes_ok H -> forall bd mode evs c i, program bd H mode evs c -> (list_sum (map (gives i) evs) <= 1)%nat.
Proof. intros H HH bd mode evs c i P. exact (proj1 (given_once H HH bd mode evs c i P)). Qed.
Print Assumptions C91_given_once.

(** encryptData with a result whose data is gone: a null pointer is used, or the state is wrong anyway *)
Theorem C91_after_giving : forall H, hashes_ok H -> forall bd mode evs c i w f f' c' ans, program bd H mode evs c -> list_sum (map (gives i) evs) <> 0%nat ->
  world_ok bd H w -> cop_ok c (CEncrypt i) -> cstep w f c (CEncrypt i) = (f', (c', ans)) -> f' = f /\
  ans = match a_state (c_api c) with DECRYPTED => Crash Undefined | _ => Ret (AReply (RErr FAIL ERR_API_STATE_INVALID)) end.
Proof. exact after_giving. Qed.
Print Assumptions C91_after_giving.

(** an encryptData that fails leaves the caller its data; only returnMove gives it *)
Theorem C91_retry : forall H, hashes_ok H -> forall bd mode evs c i w f f' c' st k, program bd H mode evs c -> world_ok bd H w -> fs_ok f -> cop_ok c (CEncrypt i) ->
  cstep w f c (CEncrypt i) = (f', (c', Ret (AReply (RErr st k)))) -> exists x,
  (forall w2 f2, world_ok bd H w2 -> exists c2, cstep w2 f2 c (CMove i) = (f2, (c2, Ret (AValue (VData x))))) /\
  (forall w2 f2, world_ok bd H w2 -> exists c2, cstep w2 f2 c' (CMove i) = (f2, (c2, Ret (AValue (VData x))))) /\
  (forall w2 f2 y, world_ok bd H w2 -> exists c2, cstep w2 f2 c' (CRef i) = (f2, (c2, Throw LogicError)) /\ cstep w2 f2 c' (CEdit i y) = (f2, (c2, Throw LogicError))) /\
  (forall w2 f2, world_ok bd H w2 -> let r := cstep w2 f2 c' (CEncrypt i) in
     fst r = fst (step w2 (c_api c') f2 (OEncrypt x)) /\ snd (snd r) = told (snd (step w2 (c_api c') f2 (OEncrypt x)))).
Proof. exact refused_encrypt. Qed.
Print Assumptions C91_retry.

(** results 0-2 of the calls that open the file; an edit with a wrong mode, refused; then other data with a temporary *)
Definition wrong_mode : filedata := mkFD (Some 2) (Some ex_data).
Definition ex_program : list cop := map CCall opening ++ [CValue 2; CRef 2; CEdit 2 wrong_mode; CEncrypt 2; CSuccess 3; CValue 3; CRef 2; CMove 2; CCall OSalt; CSuccess 4; CRef 4; CTake 2; CMove 2].
Ltac program_of l := apply (cplay_example Release ex_hashes ex_world ex_files l); [exact ex_world_ok|exact ex_files_ok|unfold ex_program, opening; cbn [map app]; repeat (apply Forall_cons; [cbn [call_ok]; first [exact I | op_tac]|]); apply Forall_nil|vm_compute].
Example C91_ex : exists evs c, program Release ex_hashes 1 evs c /\ rev (map ev_ans (firstn 13 evs)) =
  [Throw LogicError; Ret (AValue (VData (Some (mkFD (Some 1) (Some ex_data))))); Ret ANothing; Ret (AReply (RErr FAIL ERR_FILEMODE_INVALID)); Ret (AYes false); Throw LogicError;
   Throw LogicError; Ret (AValue (VData (Some wrong_mode))); Ret (AReply ROk); Ret (AYes true); Throw LogicError; Ret (AValue (VData (Some wrong_mode))); Ret (AValue (VData None))].
Proof. program_of ex_program. reflexivity. Qed.
(** successful encryptData, then the same result again after another session: the process dies *)
Example C91_ex_twice : exists evs c, program Release ex_hashes 1 evs c /\ list_sum (map (gives 2) evs) = 1%nat /\ a_state (c_api c) = DECRYPTED.
Proof. program_of (map CCall opening ++ [CEncrypt 2; CCall OWrite; CCall OLogout] ++ map CCall opening). auto. Qed.
