(** Property C89. *)
From Coq Require Import Strings.String.
From Verif Require Import Base BaseFacts BytesModel BytesSpec MiscModel CipherModel CipherSpec PwModel PwSpec ChModel ChSpec HeaderModel HeaderSpec Toy FileModel ApiModel ApiSpec
  InterModel FaultModel FaultSpec ApiFacts9 FaultFacts Properties_Header Properties_File Properties_Api.

(** the first [k] bytes can be read *)
Definition broken_after (k : N) : nat -> bytes -> source := fun _ c => mkSrc (Some 0) (Some (lenN c)) (takeN k c).
Example broken_ok k : read_errors (broken_after k).
Proof. intros n c. exists k. reflexivity. Qed.

(** C89 *)
Theorem C89_no_faults : forall w src a f o, sound src -> fs_ok f -> step_r w src a f o = step w a f o.
Proof. exact all_sound. Qed.
Print Assumptions C89_no_faults.
Theorem C89_read_errors : forall w src a f o, read_errors src -> fs_ok f -> (forall dir, o = OList dir -> exists x, snd (step w a f o) = Ret x) ->
  step_r w src a f o = step w a f o \/ exists c, read_failure o c /\ step_r w src a f o = (f, Ret (a, RErr FAIL c)).
Proof. exact all_fault. Qed.
Print Assumptions C89_read_errors.
(** the file has 191 bytes, 124 of them are the header *)
Example C89_ex : sound (fun _ c => mkSrc (Some 0) (Some (lenN c)) c) /\ fs_ok ex_files /\
  snd (step_r ex_world (broken_after 15) (fresh 1) ex_files (OSelect a_enc_path)) = Ret (fresh 1, RErr FAIL ERR_FILEHANDLER_CREATION) /\
  snd (step_r ex_world (broken_after 123) (fresh 1) ex_files (OSelect a_enc_path)) = Ret (fresh 1, RErr FAIL ERR_NOT_ENOUGH_DATA) /\
  match snd (step_r ex_world (broken_after 124) (fresh 1) ex_files (OSelect a_enc_path)) with Ret (a, ROk) =>
    a_state a = FILE_SELECTED /\ snd (step_r ex_world (broken_after 190) a ex_files OContent) = Ret (a, RErr FAIL ERR_FILE_READ) | _ => False end.
Proof. split; [intros n c; reflexivity|]. split; [exact ex_files_ok|]. split; [vm_compute; reflexivity|]. split; [vm_compute; reflexivity|]. vm_compute. auto. Qed.
Example C89_ex_decrypt : exists tr a, history Release ex_hashes 1 tr a /\ a_state a = PASSWORD_VERIFIED /\
  snd (step_r ex_world (broken_after 190) a ex_files ODecrypt) = Ret (a, RErr FAIL ERR) /\
  match snd (step_r ex_world (broken_after 191) a ex_files ODecrypt) with Ret (_, RData (mkFD _ (Some b))) => bdata b = bdata ex_data | _ => False end.
Proof. history_of [OSelect a_enc_path; OVerify ex_pw 0]. split; [reflexivity|]. split; reflexivity. Qed.

Theorem C89_pipe_is_empty : forall w src a f p c, a_state a = INIT -> usable_file w p -> enc_path p -> f (w_loc w p) = Some c -> unseekable (src 0%nat c) ->
  exists a', step_r w src a f (OSelect p) = (f, Ret (a', ROk)) /\ a_state a' = EMPTY_FILE_SELECTED.
Proof. exact select_pipe. Qed.
Print Assumptions C89_pipe_is_empty.
Theorem C89_directory_refused : forall w src a f p c, a_state a = INIT -> usable_file w p -> enc_path p -> f (w_loc w p) = Some c -> like_directory (src 0%nat c) -> s_end (src 0%nat c) <> Some 0 ->
  step_r w src a f (OSelect p) = (f, Ret (a, RErr FAIL ERR_FILEHANDLER_CREATION)).
Proof. exact select_directory. Qed.
Print Assumptions C89_directory_refused.
Example C89_ex_special : usable_file ex_world a_enc_path /\ enc_path a_enc_path /\ ex_files (w_loc ex_world a_enc_path) = Some ex_file /\ unseekable (mkSrc None None [x61]) /\
  like_directory (mkSrc (Some 0) None []) /\ like_directory (mkSrc (Some 0) (Some 4096) []).
Proof. split; [repeat split|]. split; [exact a_enc_path_ok|]. repeat split. Qed.
