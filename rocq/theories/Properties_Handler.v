(** Property C94: file handlers. *)
From Coq Require Import Strings.String.
From Verif Require Import Base BaseFacts BytesModel BytesSpec MiscModel CipherModel PwModel ChModel HeaderModel HeaderSpec Toy FileModel ApiModel ApiSpec RefSpec HandlerModel HandlerSpec HandlerFacts
  Properties_Header Properties_File Properties_Api.
Open Scope N_scope.
Open Scope list_scope.

(** every call answers, and does to the files, what follows from the calls before *)
Theorem C94_answers : forall bd H p tr c0 h w f o, fh_history bd H p tr c0 h -> world_ok bd H w -> fs_ok f ->
  meets (snd (fh_call w h f o)) (should bd p c0 tr w f o) /\ (forall l, fst (fh_call w h f o) l = leaves p c0 tr w f o l).
Proof. exact handler_answers. Qed.
Print Assumptions C94_answers.
(** after a good look and without a stream to write since then the sizes belong together *)
Theorem C94_sizes : forall bd H p tr c0 h w f, fh_history bd H p tr c0 h -> looked_well tr = true -> forgot p c0 tr = false ->
  exists n, n <= lenN (seen p c0 tr) /\ fh_call w h f FHeaderSize = (f, Ret (h, FNum n)) /\ fh_call w h f FFileSize = (f, Ret (h, FNum (lenN (seen p c0 tr)))) /\
    fh_call w h f FDataSize = (f, Ret (h, FNum (lenN (seen p c0 tr) - n))) /\
    (reading w f p = seen p c0 tr -> exists b, fh_call w h f FDataStream = (f, Ret (h, FBytes b)) /\ lenN b = lenN (seen p c0 tr) - n).
Proof. exact good_sizes. Qed.
Print Assumptions C94_sizes.
(** getWriteStreamIfEmpty goes on writing over what it wrote itself *)
Theorem C94_if_empty : forall bd H p tr c0 h w f ds last, fh_history bd H p tr c0 h -> seen p c0 tr = [] -> can_write w p -> f (w_loc w p) <> None ->
  exists h' f', fh_calls w h f (map FSaveIfEmpty (ds ++ [last])) = Some (h', f', map (fun _ => FDone) (ds ++ [last])) /\ f' (w_loc w p) = Some (takeN (w_room w) last).
Proof. exact again_and_again. Qed.
Print Assumptions C94_if_empty.
(** after a save the sizes are 0, isEmpty is as before, and the data stream starts with the header *)
Theorem C94_after_save : forall bd H p tr c0 h w f data, fh_history bd H p tr c0 h -> can_write w p -> f (w_loc w p) <> None -> lenN data <= w_room w ->
  exists h' f', fh_calls w h f [FSave data; FHeaderSize; FFileSize; FDataSize; FIsEmpty; FDataStream] =
    Some (h', f', [FDone; FNum 0; FNum 0; FNum 0; FBool (was_empty p c0 tr); FBytes data]) /\ f' (w_loc w p) = Some data.
Proof. exact after_save. Qed.
Print Assumptions C94_after_save.

(** a file is opened, cut to 20 bytes by somebody else, looked at again (update throws), then made whole *)
Definition cut_file : bytes := takeN 20 ex_file.
Definition ex_handler : handler := mkFH a_enc_path 124 191 false.
Example C94_opened : fh_history Release ex_hashes a_enc_path [] ex_file ex_handler.
Proof. eapply fh_new; [exact ex_world_ok|apply (one_file_ok ex_file); vm_compute; reflexivity|vm_compute; reflexivity|vm_compute; reflexivity]. Qed.
(** the data size of a handler need not be smaller than the file size *)
Theorem C94_data_size_refuted : exists tr c0 h, fh_history Release ex_hashes a_enc_path tr c0 h /\ seen a_enc_path c0 tr = cut_file /\ lenN cut_file = 20 /\
  fh_call ex_world h (one_file cut_file) FDataSize = (one_file cut_file, Ret (h, FNum (2 ^ 64 - 104))).
Proof.
  exists [mkFE ex_world (one_file cut_file) FUpdate (FThrown LogicError) (one_file cut_file)], ex_file, (mkFH a_enc_path 124 20 false). split; [|split; [|split]].
  - eapply fh_next; [exact C94_opened|exact ex_world_ok|apply (one_file_ok cut_file); vm_compute; reflexivity|vm_compute; reflexivity].
  - vm_compute. reflexivity.
  - vm_compute. reflexivity.
  - vm_compute. reflexivity.
Qed.
Print Assumptions C94_data_size_refuted.
Example C94_ex : match fh_calls ex_world ex_handler (one_file ex_file) [FIsEmpty; FHeaderSize; FFileSize; FDataSize; FIsHeader 1; FIsHeader 2; FSaveIfEmpty (str "x"); FFirstBytes 300] with
  | Some (_, _, l) => l = [FBool false; FNum 124; FNum 191; FNum 67; FDone; FErr ERR_FILEMODE_INVALID; FErr ERR_FILE_NOT_EMPTY; FThrown LengthError]
  | None => False
  end /\
  match fh_calls ex_world ex_handler (one_file cut_file) [FUpdate; FIsEmpty; FHeaderSize; FFileSize; FSave ex_file; FFileSize; FUpdate; FFileSize; FDataSize] with
  | Some (_, _, l) => l = [FThrown LogicError; FBool false; FNum 124; FNum 20; FDone; FNum 0; FDone; FNum 191; FNum 67]
  | None => False
  end.
Proof. vm_compute. auto. Qed.
Example C94_if_empty_ex : match fh_calls ex_world (mkFH a_enc_path 0 0 true) (one_file []) [FSaveIfEmpty (str "first"); FIsEmpty; FSaveIfEmpty (str "second"); FAllBytes] with
  | Some (_, _, l) => l = [FDone; FBool true; FDone; FBytes (str "second")]
  | None => False
  end /\ fh_history Release ex_hashes a_enc_path [] [] (mkFH a_enc_path 0 0 true) /\ can_write ex_world a_enc_path.
Proof.
  split; [vm_compute; auto|]. split; [|repeat split].
  eapply fh_new; [exact ex_world_ok|apply (one_file_ok []); vm_compute; reflexivity|vm_compute; reflexivity|vm_compute; reflexivity].
Qed.
