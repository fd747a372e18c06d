(** Lemmas for C100: the texts change nothing else. *)
From Coq Require Import Strings.String.
From Verif Require Import Base BytesModel MiscModel CipherModel PwModel ChModel HeaderModel FileModel ApiModel TextModel MsgModel MsgSpec.
Open Scope N_scope.
Open Scope list_scope.

Definition strip {A} (m : fres A) : dres A := x <- m ;; Ret (match x with inl x => inl (x_code x) | inr a => inr a end).

Lemma strip_bind {A B} (m : fres A) (k : A -> fres B) m0 k0 : strip m = m0 -> (forall x, strip (k x) = k0 x) -> strip (fbind m k) = dbind m0 k0.
Proof. intros <- K. destruct m as [[x|x]|e|c|]; cbn; try reflexivity. apply K. Qed.
Lemma strip_lift {A} (m : outcome A) : strip (flift m) = lift m.
Proof. destruct m; reflexivity. Qed.
Lemma strip_need {A} c i w (o : option A) : strip (fneed c i w o) = need c o.
Proof. destruct o; reflexivity. Qed.
Lemma strip_try {A} hf h (m : outcome A) : (forall e, option_map fst (hf e) = h e) -> strip (ftry hf m) = try_ h m.
Proof. intros K. destruct m as [x|e|c|]; cbn; try reflexivity. rewrite <- K. destruct (hf e) as [[? ?]|]; reflexivity. Qed.
Lemma strip_noexcept {A} (m : fres A) m0 : strip m = m0 -> strip (noexcept m) = noexcept m0.
Proof. intros <-. destruct m as [[x|x]|e|c|]; reflexivity. Qed.
Lemma strip_ret {A} (x : A) : strip (fret x) = dret x.
Proof. reflexivity. Qed.
Lemma strip_fail {A} c i w : strip (ffail c i w : fres A) = dfail c.
Proof. reflexivity. Qed.
Lemma strip_path {A} p (r : dres A) : strip (with_path p r) = r.
Proof. destruct r as [[x|x]|e|c|]; reflexivity. Qed.
Lemma strip_assert bd b : strip (fassert bd b) = dassert bd b.
Proof. unfold fassert, dassert, assertC. destruct bd, b; reflexivity. Qed.
Lemma std_handler c i e : option_map fst (h_std c i e) = any_std c e.
Proof. destruct e; reflexivity. Qed.
Lemma invalid_handler c i e : option_map fst (h_invalid c i e) = only_invalid c e.
Proof. destruct e; reflexivity. Qed.
Lemma invalid_or_handler c i c' i' e : option_map fst (h_invalid_or c i c' i' e) = invalid_or c c' e.
Proof. destruct e; reflexivity. Qed.
Lemma strip_part {A} tx b (m : outcome A) : strip (f_part tx b m) = try_ s_part_handler m.
Proof. destruct m as [x|e|c|]; try reflexivity. destruct e; reflexivity. Qed.

Ltac st :=
  match goal with
  | |- strip (noexcept _) = noexcept _ => apply strip_noexcept
  | |- strip (fbind _ _) = dbind _ _ => apply strip_bind; [ | intro ]
  | |- strip (flift _) = lift _ => apply strip_lift
  | |- strip (fneed _ _ _ _) = need _ _ => apply strip_need
  | |- strip (ftry _ _) = try_ _ _ => apply strip_try; intro; first [apply std_handler | apply invalid_handler | apply invalid_or_handler]
  | |- strip (f_part _ _ _) = try_ _ _ => apply strip_part
  | |- strip (fassert _ _) = dassert _ _ => apply strip_assert
  | |- context [match ?x with pair _ _ => _ end] => destruct x as [? ?]
  | |- context [if ?b then _ else _] => destruct b
  | |- context [match ?x with Done _ => _ | TimedOut => _ end] => destruct x
  | |- context [match ?x with inl _ => _ | inr _ => _ end] => destruct x
  | _ => first [reflexivity | assumption]
  end.
Ltac sts := repeat (cbv beta iota; st).

Lemma read1_strip n s : strip (f_read1 n s) = need ERR_NOT_ENOUGH_DATA (read1 s).
Proof. apply strip_need. Qed.
Lemma readBytes_strip n cap size s : strip (f_readBytes n cap size s) = need ERR_NOT_ENOUGH_DATA (readBytes cap size s).
Proof. apply strip_need. Qed.
Lemma read8_strip n s : strip (f_read8 n s) = read8 s.
Proof. unfold f_read8, read8. apply strip_bind; [apply readBytes_strip | intros [b s']]. sts. Qed.
Ltac rd := first [apply read1_strip | apply readBytes_strip | apply read8_strip | st].
Ltac rds := repeat (cbv beta iota; rd).

Lemma blocks_strip n : forall d s, strip (f_blocks n d s) = s_blocks n d s.
Proof. induction n as [|n IH]; intros d s; cbn [f_blocks s_blocks]; [reflexivity|]. rds. apply IH. Qed.
Lemma encs_strip n : forall d s, strip (f_encs n d s) = s_encs n d s.
Proof. induction n as [|n IH]; intros d s; cbn [f_encs s_encs]; [reflexivity|]. rds. apply IH. Qed.
Lemma parts_strip bd tx nls : forall lb dl c s, strip (f_parts bd tx nls lb dl c s) = s_parts bd nls lb dl c s.
Proof. induction nls as [|[nm len] r IH]; intros lb dl c s; cbn [f_parts s_parts]; [reflexivity|]. destruct (negb (len =? 0)); rds. apply IH. Qed.
Lemma chain_strip bd tx code set d s : strip (f_chain bd tx code set d s) = s_chain bd code set d s.
Proof. unfold f_chain, s_chain. rds. apply parts_strip. Qed.
Lemma decode_strip bd rnd file : strip (f_decode bd rnd file) = decode_stream bd rnd file.
Proof.
  unfold f_decode, decode_stream. rds; first [apply blocks_strip | apply encs_strip | apply chain_strip | idtac].
Qed.
Lemma parts_set_strip rnd p : strip (f_setHeaderParts rnd p) = setHeaderParts rnd p.
Proof. unfold f_setHeaderParts, setHeaderParts. sts. Qed.
Lemma header_strip w f i h : strip (f_getDataHeader w f i h) = fh_getDataHeader w f i h.
Proof. unfold f_getDataHeader, fh_getDataHeader. st. st; [apply decode_strip|]. sts. Qed.
Lemma handler_strip w f p : strip (f_getFileHandler w f p) = getFileHandler w f p.
Proof. unfold f_getFileHandler, getFileHandler. st. st; [apply strip_path|]. sts. Qed.
Lemma write_strip w f h : strip (f_writeStream w f h) = snd (fh_getWriteStream w f h).
Proof. apply strip_path. Qed.
Lemma write_empty_strip w f h : strip (f_writeStreamIfEmpty w f h) = snd (fh_getWriteStreamIfEmpty w f h).
Proof. unfold f_writeStreamIfEmpty, fh_getWriteStreamIfEmpty. destruct (fh_empty h); [apply write_strip | reflexivity]. Qed.
Lemma iters_strip w m pw ds t : strip (f_createHeaderIters w m pw ds t) = createHeaderIters w m pw ds t.
Proof. unfold f_createHeaderIters, createHeaderIters. sts; try apply parts_set_strip. Qed.
Lemma check_strip w d pw t : strip (f_checkPassword w d pw t) = checkPassword w d pw t.
Proof. unfold f_checkPassword, checkPassword. sts. Qed.
Lemma catch_strip {A} i (m : fres A) m0 : strip m = m0 -> strip (f_catch i m) = catch_std ERR m0.
Proof. intros <-. destruct m as [[x|x]|e|c|]; try reflexivity. destruct e; reflexivity. Qed.

(** ** Calls *)
Lemma failed_strip {A} (m : fres A) (m0 : dres A) : strip m = m0 -> option_map x_code (failed_with m) = match m0 with Ret (inl c) => Some c | _ => None end.
Proof. intros <-. destruct m as [[x|x]|e|c|]; reflexivity. Qed.
Lemma reported_failed a c : reported (Ret (a, failed c)) = Some c.
Proof. reflexivity. Qed.

Lemma select_code w a f p : option_map x_code (failed_with (f_selectFile w f p)) = reported (selectFile w a f p).
Proof.
  unfold f_selectFile, selectFile.
  pose proof (handler_strip w f p) as K. destruct (f_getFileHandler w f p) as [[x|h]|e|c|]; cbn in K; rewrite <- K; cbn; try reflexivity.
  destruct (fh_empty h); [reflexivity|].
  pose proof (header_strip w f 0%nat h) as K2. destruct (f_getDataHeader w f 0 h) as [[x|d]|e|c|]; cbn in K2; rewrite <- K2; reflexivity.
Qed.
Lemma list_code w f m dir a : option_map x_code (failed_with (f_getRelevantFileNames w f m dir)) = reported (r <- getRelevantFileNames w f m dir ;; Ret (a, reply_of RNames r)).
Proof. unfold f_getRelevantFileNames. destruct (getRelevantFileNames w f m dir) as [[x|x]|e|c|]; reflexivity. Qed.
Lemma create_code w f p a : option_map x_code (failed_with (f_createFile w f p)) = reported (snd (let '(f', r) := fh_createFile w f p in (f', x <- r ;; Ret (a, reply_of (fun _ => ROk) x)))).
Proof. unfold f_createFile. destruct (fh_createFile w f p) as [f' [[x|x]|e|c|]]; reflexivity. Qed.
Lemma delete_code w a f : option_map x_code (failed_with (f_deleteFile w a f)) = reported (snd (deleteFile w a f)).
Proof.
  unfold f_deleteFile, deleteFile. destruct (a_file a) as [h|]; [|reflexivity]. cbn. destruct (w_remove w (fh_path h)); [|reflexivity]. cbn.
  destruct (f (w_loc w (fh_path h))); reflexivity.
Qed.
Lemma content_code w a f : option_map x_code (failed_with (f_getFileContent w a f)) = reported (getFileContent w a f).
Proof.
  unfold f_getFileContent, getFileContent. destruct (a_file a) as [h|]; [|reflexivity]. cbn.
  destruct (fh_getAllBytes w f h) as [x|e|c|]; try reflexivity. destruct e; reflexivity.
Qed.
Lemma verify_code w a pw t : option_map x_code (failed_with (f_verifyPassword w a pw t)) = reported (verifyPassword w a pw t).
Proof.
  unfold f_verifyPassword, verifyPassword. destruct (a_dh a) as [d|]; [|reflexivity]. cbn.
  pose proof (catch_strip (str "Some error occurred while verifying the password") _ _ (check_strip w d pw t)) as K.
  destruct (f_catch _ _) as [[x|x]|e|c|]; cbn in K; rewrite <- K; reflexivity.
Qed.
Lemma decrypt_code w a f : option_map x_code (failed_with (f_getDecryptedData w a f)) = reported (getDecryptedData w a f).
Proof. unfold f_getDecryptedData, getDecryptedData. destruct (decryptBody w a f) as [x|e|c|]; try reflexivity. destruct e; reflexivity. Qed.
Lemma encrypt_code w a x : option_map x_code (failed_with (f_encryptData w a x)) = reported (encryptData w a x).
Proof.
  unfold f_encryptData, encryptData. destruct x as [x|]; [|reflexivity]. cbn. destruct (fd_mode x) as [m|]; [|reflexivity].
  destruct (negb (m =? a_mode a)); [reflexivity|]. destruct (fd_data x) as [data|]; [|reflexivity]. cbn. destruct (a_dh a) as [d|]; [|reflexivity]. cbn.
  destruct (setDataSize (getLen data) d) as [d1|e|c|]; cbn; try reflexivity; [|destruct e; reflexivity].
  destruct (calcHeaderBytes (w_hashes w) (w_clk1 w) (mkBytes [] 0) d1) as [d2 r].
  destruct (_ <- r ;; encryptBody w (a_key a) data d2) as [res|e|c|]; cbn; try reflexivity. destruct e; reflexivity.
Qed.
Lemma salt_code w a : option_map x_code (failed_with (f_changeSalt w a)) = reported (changeSalt w a).
Proof.
  unfold f_changeSalt, changeSalt. destruct (a_dh a) as [d|]; [|reflexivity]. cbn. destruct (getDataHeaderParts d) as [p|e|c|]; try reflexivity. cbn.
  destruct (p_getSalt p) as [s|e|c|]; try reflexivity. cbn. destruct (newBytes (Z.of_N (getLen s))) as [b|e|c|]; try reflexivity. cbn.
  destruct (fillrandom (w_rnd w 0) b) as [b'|e|c|]; try reflexivity. cbn. destruct (p_setSalt b' p) as [p'|e|c|]; try reflexivity. cbn.
  pose proof (parts_set_strip (w_rnd w 1) p') as K. destruct (f_setHeaderParts (w_rnd w 1) p') as [[x|x]|e|c|]; cbn in K; rewrite <- K; reflexivity.
Qed.
Lemma finish_code w a f p : reported (snd (finishWrite w a f p)) = None.
Proof. unfold finishWrite. destruct (noexcept (fullData a)); reflexivity. Qed.
Lemma write_code w a f : option_map x_code (failed_with (f_writeToFile w a f)) = reported (snd (writeToFile w a f)).
Proof.
  unfold f_writeToFile, writeToFile. destruct (a_file a) as [h|]; [|reflexivity]. cbn.
  pose proof (write_strip w f h) as K. destruct (fh_getWriteStream w f h) as [[h' f'] r]. cbn in K.
  destruct (f_writeStream w f h) as [[x|x]|e|c|]; cbn in K; rewrite <- K; cbn; try reflexivity. now rewrite finish_code.
Qed.
Lemma write_to_code w a f p : option_map x_code (failed_with (f_writeToPath w f p)) = reported (snd (writeToPath w a f p)).
Proof.
  unfold f_writeToPath, writeToPath. pose proof (handler_strip w f p) as K.
  destruct (f_getFileHandler w f p) as [[x|h]|e|c|]; cbn in K; rewrite <- K; cbn; try reflexivity.
  pose proof (write_empty_strip w f h) as K2. destruct (fh_getWriteStreamIfEmpty w f h) as [[h' f'] r]. cbn in K2.
  destruct (f_writeStreamIfEmpty w f h) as [[x|x]|e|c|]; cbn in K2; rewrite <- K2; cbn; try reflexivity. now rewrite finish_code.
Qed.
Lemma header_code w m pw ds t g : (forall x, reported (g (dret x)) = None) -> (forall c, reported (g (dfail c)) = Some c) ->
  (forall e, reported (g (Throw e)) = None) -> (forall c, reported (g (Crash c)) = None) -> reported (g OutOfFuel) = None ->
  option_map x_code (failed_with (f_createHeaderIters w m pw ds t)) = reported (g (createHeaderIters w m pw ds t)) .
Proof.
  intros A B C D E. pose proof (iters_strip w m pw ds t) as K.
  destruct (f_createHeaderIters w m pw ds t) as [[x|x]|e|c|]; cbn in K; rewrite <- K; cbn.
  - symmetry. exact (B _).
  - symmetry. exact (A _).
  - symmetry. apply C.
  - symmetry. apply D.
  - symmetry. apply E.
Qed.

(** the texts belong to the codes that the call reports *)
Lemma told_code w a f o : option_map x_code (told w a f o) = reported (snd (step w a f o)).
Proof.
  destruct o; unfold told, step.
  all: try (destruct (negb (set_isComplete ds)); [reflexivity|]).
  all: try reflexivity.
  all: destruct (a_state a) eqn:S; try reflexivity.
  all: first [apply list_code | apply create_code | apply select_code | apply delete_code | apply content_code | apply verify_code | apply decrypt_code | apply encrypt_code | apply salt_code | apply write_code | apply write_to_code | idtac].
  1: apply (header_code w _ _ _ _ (fun r => noexcept (headerEmpty a r))); try reflexivity; intros [d k]; reflexivity.
  1: apply (header_code w _ _ _ _ (fun r => noexcept (headerDecrypted a r))); try reflexivity; intros [d k]; reflexivity.
  unfold getFileData. destruct (a_fdata a); reflexivity.
Qed.
