(** Proofs for C89. *)
From Coq Require Import Strings.Byte.
From Verif Require Import Base BaseFacts BytesModel BytesFacts MiscModel CipherModel PwModel ChModel HeaderModel FileModel ApiModel ApiSpec FileFacts InterModel StreamFacts InterFacts FaultModel FaultSpec.
Import ListNotations.
Open Scope N_scope.
Open Scope list_scope.

Lemma measured_whole n x : n < 2 ^ 63 -> measured (mkSrc (Some 0) (Some n) x) = n.
Proof.
  intros L. change (2 ^ 63) with 9223372036854775808 in L. unfold measured, pos_of. cbn [s_begin s_end]. rewrite Z.sub_0_r, Z.mod_small; [apply N2Z.id|]. lia.
Qed.
Lemma readBytes_more cap size s t : readBytes cap size s = None \/ exists x r, readBytes cap size s = Some (x, r) /\ readBytes cap size (s ++ t) = Some (x, r ++ t).
Proof.
  unfold readBytes. destruct (cap <? _); [auto|]. set (n := Z.to_N (size mod 4294967296)). destruct (N.ltb_spec (lenN s) n) as [L|L]; [auto|right].
  destruct (N.ltb_spec (lenN (s ++ t)) n) as [L2|L2]; [rewrite lenN_app in L2; lia|]. eexists _, _. split; [reflexivity|]. rewrite takeN_app_le, dropN_app_le by lia. reflexivity.
Qed.
Lemma update_more p size s t : (size = 0 -> s ++ t = []) -> update_sized p size s = Throw LengthError \/ update_sized p size s = update_sized p size (s ++ t).
Proof.
  intros Z. unfold update_sized. destruct (readBytes_more 8 8 s t) as [E|(x & r & E1 & E2)].
  - rewrite E. destruct (N.eqb_spec size 0) as [->|NZ]; [|left; reflexivity]. right. specialize (Z eq_refl). apply app_eq_nil in Z. destruct Z as [-> ->]. reflexivity.
  - rewrite E1, E2. destruct (toLong (mkBytes x 8)) as [n|e|c|]; cbn [bind]; try (right; reflexivity). destruct (negb (n =? size)); [right; reflexivity|].
    destruct (readBytes_more 8 8 r t) as [E|(x' & r' & E1' & E2')]; [rewrite E; left; reflexivity|]. rewrite E1', E2'. right. reflexivity.
Qed.
Lemma addStream_more fuel : forall s t total written c, addStream_loop fuel s total written c = Throw RuntimeError \/ addStream_loop fuel s total written c = addStream_loop fuel (s ++ t) total written c.
Proof.
  induction fuel as [|fuel IH]; intros s t total written c; [right; reflexivity|]. cbn [addStream_loop]. destruct (newBytes (piece c total written)) as [b|e|k|]; cbn [bind]; try (right; reflexivity).
  unfold readExact. destruct (N.leb_spec (bmax b) (lenN s)) as [L|L]; [|left; reflexivity].
  destruct (N.leb_spec (bmax b) (lenN (s ++ t))) as [L2|L2]; [|rewrite lenN_app in L2; lia]. rewrite takeN_app_le, dropN_app_le by exact L. cbv zeta.
  destruct (c_cur c) as [bl|]; [|right; reflexivity]. destruct (blk_addData (c_kind c) _ bl) as [b'|e|k|]; cbn [bind]; try (right; reflexivity).
  match goal with |- (if ?b then _ else _) = _ \/ _ => destruct b end; [|right; reflexivity]. destruct (addBlock (set_cur c b')) as [[x c']|e|k|]; cbn [bind]; try (right; reflexivity). apply IH.
Qed.

Section Facts.
Variable w : world.
Variable src : nat -> bytes -> source.
Notation loc := (w_loc w).

(** ** nothing fails *)
Lemma sound_src n (f : fs) p : sound src -> fs_ok f -> measured (open_src w src n f p) = lenN (stream_of w f p) /\ delivered (open_src w src n f p) = stream_of w f p.
Proof.
  intros S F. unfold open_src, stream_of. destruct (f (loc p)) as [c|] eqn:E; [|split; reflexivity]. destruct (w_read w p); [|split; reflexivity].
  rewrite S. split; [apply measured_whole, (F _ _ E)|reflexivity].
Qed.
Lemma handler_sound n (f : fs) p : sound src -> fs_ok f -> getFileHandler_r w src n f p = getFileHandler w f p.
Proof.
  intros S F. unfold getFileHandler_r, getFileHandler, newFileHandler_r, newFileHandler, update_r. destruct (sound_src n f p S F) as [-> ->].
  destruct (isValidPath w f p true) as [[e|u]|e|c|]; cbn [dbind bind]; reflexivity.
Qed.
Lemma header_sound n i (f : fs) h : sound src -> fs_ok f -> getDataHeader_r w src n i f h = fh_getDataHeader w f i h.
Proof. intros S F. unfold getDataHeader_r, fh_getDataHeader. destruct (sound_src n f (fh_path h) S F) as [-> ->]. rewrite sized_stream. reflexivity. Qed.
Lemma isHeader_sound n i (f : fs) m h : sound src -> fs_ok f -> isDataHeader_r w src n i f m h = fh_isDataHeader w f i m h.
Proof. intros S F. unfold isDataHeader_r, fh_isDataHeader. rewrite header_sound by assumption. reflexivity. Qed.
Lemma relevant_sound (f : fs) mode dir : sound src -> fs_ok f -> forall names i ret, relevant_r w src f i mode dir names ret = relevant_loop w f i mode dir names ret.
Proof.
  intros S F. induction names as [|n names IH0]; intros i ret; [reflexivity|]. cbn [relevant_r relevant_loop]. rewrite handler_sound by assumption.
  assert (forall r, count_up i (relevant_r w src f (Datatypes.S i) mode dir names r) = count_up i (relevant_loop w f (Datatypes.S i) mode dir names r)) as IH by (intros r0; f_equal; apply IH0).
  destruct (getFileHandler w f (join dir n)) as [[e|h]|e|c|]; cbn [bind]; try reflexivity; [apply IH|]. destruct (fh_empty h); cbn [bind]; [apply IH|].
  rewrite isHeader_sound by assumption. destruct (fh_isDataHeader w f i mode h) as [x|e|c|]; cbn [bind]; try reflexivity. apply IH.
Qed.
Lemma allBytes_sound n (f : fs) h : sound src -> fs_ok f -> getAllBytes_r w src n f h = fh_getAllBytes w f h.
Proof.
  intros S F. unfold getAllBytes_r, fh_getAllBytes. destruct (f (loc (fh_path h))) as [c|] eqn:E; [|reflexivity]. destruct (w_read w (fh_path h)); [|reflexivity]. rewrite S. cbn [s_end s_gives pos_of].
  unfold newBytes. destruct (Z.ltb_spec (Z.of_N (lenN c)) 0) as [L|L]; [lia|]. cbn [bind bmax]. rewrite N2Z.id. reflexivity.
Qed.
Lemma dataStream_sound n (f : fs) h : sound src -> dataStream_r w src n f h = fh_dataStream w f h.
Proof.
  intros S. unfold dataStream_r, fh_dataStream, open_src, stream_of. assert (forall k : N, dropN k [] = ([] : bytes)) as D by (intros k; apply dropN_all; apply N.le_0_l).
  destruct (f (loc (fh_path h))) as [c|]; [destruct (w_read w (fh_path h))|]; rewrite ?S; cbn; rewrite ?D; reflexivity.
Qed.
Lemma all_sound a f o : sound src -> fs_ok f -> step_r w src a f o = step w a f o.
Proof.
  intros S F. unfold step_r. destruct o; cbn [step]; try reflexivity; destruct (a_state a) eqn:Es; try reflexivity.
  - unfold getRelevantFileNames_r, getRelevantFileNames. destruct (getAllEncFileNames w dir) as [[e|names]|e|c|]; cbn [dbind]; try reflexivity. rewrite relevant_sound by assumption. reflexivity.
  - unfold selectFile_r, selectFile. rewrite handler_sound by assumption. destruct (getFileHandler w f p) as [[e|h]|e|c|]; cbn [bind]; try reflexivity. destruct (fh_empty h); [reflexivity|].
    rewrite header_sound by assumption. reflexivity.
  - unfold getFileContent_r, getFileContent. destruct (a_file a) as [h|]; [|reflexivity]. cbn [ptr bind]. rewrite allBytes_sound by assumption. reflexivity.
  - unfold getDecryptedData_r, getDecryptedData, decryptBody_r, decryptBody. destruct (a_file a) as [h|]; [|reflexivity]. cbn [ptr bind]. rewrite dataStream_sound by assumption. reflexivity.
  - unfold writeToPath_r, writeToPath. rewrite handler_sound by assumption. reflexivity.
Qed.

(** ** reads fail *)
Lemma fault_src n (f : fs) p : read_errors src -> fs_ok f -> exists x t, stream_of w f p = x ++ t /\ measured (open_src w src n f p) = lenN (x ++ t) /\ delivered (open_src w src n f p) = x.
Proof.
  intros S F. unfold open_src, stream_of. destruct (f (loc p)) as [c|] eqn:E; [|exists [], []; repeat split]. destruct (w_read w p); [|exists [], []; repeat split].
  destruct (S n c) as (k & ->). exists (takeN k c), (dropN k c). rewrite takeN_dropN. split; [reflexivity|]. split; [apply measured_whole, (F _ _ E)|reflexivity].
Qed.
Lemma handler_fault n (f : fs) p : read_errors src -> fs_ok f -> getFileHandler_r w src n f p = Ret (inl ERR_FILEHANDLER_CREATION) \/ getFileHandler_r w src n f p = getFileHandler w f p.
Proof.
  intros S F. unfold getFileHandler_r, getFileHandler, newFileHandler_r, newFileHandler, update_r. destruct (fault_src n f p S F) as (x & t & -> & -> & ->).
  destruct (isValidPath w f p true) as [[e|u]|e|c|]; cbn [dbind bind]; try (right; reflexivity). rewrite <- update_eq.
  destruct (update_more p (lenN (x ++ t)) x t) as [-> | ->]; [apply lenN_0|left; reflexivity|right; reflexivity].
Qed.
Lemma header_fault n i (f : fs) h : read_errors src -> fs_ok f -> getDataHeader_r w src n i f h = Ret (inl ERR_NOT_ENOUGH_DATA) \/ getDataHeader_r w src n i f h = fh_getDataHeader w f i h.
Proof.
  intros S F. unfold getDataHeader_r, fh_getDataHeader. destruct (fault_src n f (fh_path h) S F) as (x & t & -> & -> & ->). rewrite sized_stream.
  destruct (sized_more (w_build w) (w_rnd w i) (lenN (x ++ t)) x t) as [-> | ->]; [left; reflexivity|right].
  destruct (decode_sized (w_build w) (w_rnd w i) (lenN (x ++ t)) x) as [[e|[d r]]|e|c|]; reflexivity.
Qed.
Lemma select_fault a (f : fs) p : read_errors src -> fs_ok f ->
  selectFile_r w src a f p = selectFile w a f p \/ exists c, read_failure (OSelect p) c /\ selectFile_r w src a f p = Ret (a, RErr FAIL c).
Proof.
  intros S F. unfold selectFile_r, selectFile. destruct (handler_fault 0 f p S F) as [-> | ->]; [right; exists ERR_FILEHANDLER_CREATION; split; [left; reflexivity|reflexivity]|].
  destruct (getFileHandler w f p) as [[e|h]|e|c|]; cbn [bind]; try (left; reflexivity). destruct (fh_empty h); [left; reflexivity|].
  destruct (header_fault 1 0 f h S F) as [-> | ->]; [right; exists ERR_NOT_ENOUGH_DATA; split; [right; reflexivity|reflexivity]|left; reflexivity].
Qed.
Lemma content_fault a (f : fs) : read_errors src -> fs_ok f ->
  getFileContent_r w src a f = getFileContent w a f \/ getFileContent_r w src a f = Ret (a, RErr FAIL ERR_FILE_READ).
Proof.
  intros S F. unfold getFileContent_r, getFileContent. destruct (a_file a) as [h|]; [|left; reflexivity]. cbn [ptr bind]. unfold getAllBytes_r, fh_getAllBytes.
  destruct (f (loc (fh_path h))) as [c|] eqn:E; [|left; reflexivity]. destruct (w_read w (fh_path h)); [|left; reflexivity]. destruct (S 0%nat c) as (k & ->). cbn [s_end s_gives pos_of].
  unfold newBytes. destruct (Z.ltb_spec (Z.of_N (lenN c)) 0) as [L|L]; [lia|]. cbn [bind bmax]. rewrite N2Z.id.
  destruct (readBytes_more (lenN c) (Z.of_N (lenN c)) (takeN k c) (dropN k c)) as [-> |(x & r & -> & E2)]; [right; reflexivity|left]. rewrite takeN_dropN in E2. rewrite E2. reflexivity.
Qed.
Lemma decrypt_fault a (f : fs) : read_errors src ->
  getDecryptedData_r w src a f = getDecryptedData w a f \/ getDecryptedData_r w src a f = Ret (a, RErr FAIL ERR).
Proof.
  intros S. unfold getDecryptedData_r, getDecryptedData.
  assert (decryptBody_r w src a f = decryptBody w a f \/ decryptBody_r w src a f = Throw RuntimeError) as [-> | ->]; [|left; reflexivity|right; reflexivity].
  unfold decryptBody_r, decryptBody. destruct (ptr (a_dh a)) as [d|e|c|]; cbn [bind]; try (left; reflexivity). destruct (getDataHeaderParts d) as [p|e|c|]; cbn [bind]; try (left; reflexivity).
  destruct (p_getHashMode p) as [hm|e|c|]; cbn [bind]; try (left; reflexivity). destruct (getHash (w_hashes w) hm) as [hf|e|c|]; cbn [bind]; try (left; reflexivity).
  destruct (p_getSalt p) as [sa|e|c|]; cbn [bind]; try (left; reflexivity). destruct (new_chain Dec hf (a_key a) sa) as [ch|e|c|]; cbn [bind]; try (left; reflexivity).
  destruct (a_file a) as [x|]; [|left; reflexivity]. cbn [ptr bind].
  assert (exists t, fh_dataStream w f x = dataStream_r w src 0 f x ++ t) as (t & ->).
  { unfold fh_dataStream, dataStream_r, open_src, stream_of. destruct (f (loc (fh_path x))) as [c|]; [|eexists; reflexivity]. destruct (w_read w (fh_path x)); [|eexists; reflexivity].
    destruct (S 0%nat c) as (k & ->). cbn [s_begin s_gives]. exists (dropN (fh_hsize x - lenN (takeN k c)) (dropN k c)).
    rewrite <- (takeN_dropN k c) at 1. destruct (N.le_ge_cases (fh_hsize x) (lenN (takeN k c))) as [L|L].
    - rewrite dropN_app_le by exact L. replace (fh_hsize x - lenN (takeN k c)) with 0 by lia. reflexivity.
    - rewrite dropN_app_ge by exact L. rewrite (dropN_all _ (takeN k c) L). reflexivity. }
  unfold addStream. destruct (addData_start ch (fh_dataSize x)) as [c1|e|c|]; cbn [bind]; try (left; reflexivity).
  destruct (addStream_more (w_fuel w) (dataStream_r w src 0 f x) t (fh_dataSize x) 0 c1) as [-> | ->]; [right; reflexivity|left; reflexivity].
Qed.
Lemma writeTo_fault a (f : fs) p : read_errors src -> fs_ok f ->
  writeToPath_r w src a f p = writeToPath w a f p \/ writeToPath_r w src a f p = (f, Ret (a, RErr FAIL ERR_FILEHANDLER_CREATION)).
Proof. intros S F. unfold writeToPath_r, writeToPath. destruct (handler_fault 0 f p S F) as [-> | ->]; [right; reflexivity|left; reflexivity]. Qed.
Lemma relevant_fault (f : fs) mode dir : read_errors src -> fs_ok f -> forall names i ret x, relevant_loop w f i mode dir names ret = Ret x -> relevant_r w src f i mode dir names ret = Ret x.
Proof.
  intros S F. induction names as [|n names IH0]; intros i ret x; [trivial|]. cbn [relevant_r relevant_loop].
  assert (forall r y, count_up i (relevant_loop w f (Datatypes.S i) mode dir names r) = Ret y -> count_up i (relevant_r w src f (Datatypes.S i) mode dir names r) = Ret y) as IH
    by (intros r0 y; unfold count_up; destruct (N.of_nat i =? INT_MAX); [trivial|apply IH0]).
  assert ((r <- getFileHandler w f (join dir n) ;; match r with inl _ => count_up i (relevant_loop w f (Datatypes.S i) mode dir names ret) | inr h =>
      take <- (if fh_empty h then Ret true else x0 <- fh_isDataHeader w f i mode h ;; Ret (match x0 with inr _ => true | inl _ => false end)) ;;
      count_up i (relevant_loop w f (Datatypes.S i) mode dir names ret) end) = Ret x -> count_up i (relevant_loop w f (Datatypes.S i) mode dir names ret) = Ret x) as K.
  { destruct (getFileHandler w f (join dir n)) as [[e|h]|e|c|]; cbn [bind]; try discriminate; [trivial|]. destruct (fh_empty h); cbn [bind]; [trivial|].
    destruct (fh_isDataHeader w f i mode h) as [y|e|c|]; cbn [bind]; try discriminate. trivial. }
  intros E. pose proof (IH _ _ (K E)) as E2. destruct (handler_fault (2 * i) f (join dir n) S F) as [-> | ->]; [exact E2|].
  destruct (getFileHandler w f (join dir n)) as [[e|h]|e|c|]; cbn [bind] in *; try discriminate; [exact E2|]. destruct (fh_empty h); cbn [bind] in *; [exact E2|].
  unfold isDataHeader_r, fh_isDataHeader in *. destruct (header_fault (2 * i + 1) i f h S F) as [-> | ->]; [exact E2|].
  destruct (noexcept _) as [y|e|c|]; cbn [bind] in *; try discriminate. exact E2.
Qed.
Lemma all_fault a f o : read_errors src -> fs_ok f -> (forall dir, o = OList dir -> exists x, snd (step w a f o) = Ret x) ->
  step_r w src a f o = step w a f o \/ exists c, read_failure o c /\ step_r w src a f o = (f, Ret (a, RErr FAIL c)).
Proof.
  intros S F L. unfold step_r. destruct o; try (left; reflexivity); destruct (a_state a) eqn:Es; try (left; reflexivity).
  - left. destruct (L dir eq_refl) as (x & E). cbn [step] in *. rewrite Es in *. f_equal. cbn [snd] in E. clear L.
    unfold getRelevantFileNames_r, getRelevantFileNames in *. destruct (getAllEncFileNames w dir) as [[e|names]|e|c|]; cbn [dbind] in *; try reflexivity.
    destruct (relevant_loop w f 0 (a_mode a) dir names []) as [y|e|c|] eqn:R; cbn in E; try discriminate. rewrite (relevant_fault f (a_mode a) dir S F _ _ _ _ R). reflexivity.
  - cbn [step]. rewrite Es. destruct (select_fault a f p S F) as [-> |(c & R & ->)]; [left; reflexivity|right; eauto].
  - cbn [step]. rewrite Es. destruct (content_fault a f S F) as [-> | ->]; [left; reflexivity|right; exists ERR_FILE_READ; split; reflexivity].
  - cbn [step]. rewrite Es. destruct (decrypt_fault a f S) as [-> | ->]; [left; reflexivity|right; exists ERR; split; reflexivity].
  - cbn [step]. rewrite Es. destruct (writeTo_fault a f p S F) as [-> | ->]; [left; reflexivity|right; exists ERR_FILEHANDLER_CREATION; split; reflexivity].
Qed.

(** ** what is not a regular file *)
Lemma valid_usable (f : fs) p c : usable_file w p -> enc_path p -> f (loc p) = Some c -> isValidPath w f p true = dret tt.
Proof. intros (U1 & U2 & U3) Ep Fl. unfold isValidPath, exists_. rewrite (enc_path_nonempty p Ep), (ext_true p Ep), U1, Fl, U2. reflexivity. Qed.
Lemma select_pipe a (f : fs) p c : a_state a = INIT -> usable_file w p -> enc_path p -> f (loc p) = Some c -> unseekable (src 0%nat c) ->
  exists a', step_r w src a f (OSelect p) = (f, Ret (a', ROk)) /\ a_state a' = EMPTY_FILE_SELECTED.
Proof.
  intros Es U Ep Fl [B E]. unfold step_r. rewrite Es. unfold selectFile_r, getFileHandler_r, newFileHandler_r, update_r. rewrite (valid_usable f p c U Ep Fl).
  destruct U as (_ & U2 & _). unfold open_src. rewrite Fl, U2. unfold measured, delivered. rewrite B, E. eexists. split; reflexivity.
Qed.
Lemma select_directory a (f : fs) p c : a_state a = INIT -> usable_file w p -> enc_path p -> f (loc p) = Some c -> like_directory (src 0%nat c) -> s_end (src 0%nat c) <> Some 0 ->
  step_r w src a f (OSelect p) = (f, Ret (a, RErr FAIL ERR_FILEHANDLER_CREATION)).
Proof.
  intros Es U Ep Fl (B & G & E) NZ. unfold step_r. rewrite Es. unfold selectFile_r, getFileHandler_r, newFileHandler_r, update_r. rewrite (valid_usable f p c U Ep Fl).
  destruct U as (_ & U2 & _). unfold open_src. rewrite Fl, U2. assert (delivered (src 0%nat c) = []) as -> by (unfold delivered; rewrite B, G; destruct (s_end _); reflexivity).
  assert (measured (src 0%nat c) =? 0 = false) as M.
  { apply N.eqb_neq. unfold measured. rewrite B. destruct (s_end (src 0%nat c)) as [n|]; cbn [pos_of].
    - change (2 ^ 63) with 9223372036854775808 in E. assert (n <> 0) by congruence. rewrite Z.mod_small by lia. lia.
    - vm_compute. discriminate. }
  cbn [dbind bind dret]. unfold dret. cbn [dbind bind]. unfold update_sized. change (readBytes 8 8 []) with (@None (bytes * bytes)). cbv iota. rewrite M. reflexivity.
Qed.
End Facts.
