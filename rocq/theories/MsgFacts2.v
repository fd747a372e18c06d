(** Lemmas for C100: refusals, paths, and the messages that do not depend on anything. *)
From Coq Require Import Strings.String.
From Verif Require Import Base BytesModel MiscModel CipherModel PwModel ChModel HeaderModel FileModel ApiModel ApiSpec TextModel BaseFacts BytesFacts MsgModel MsgSpec MsgFacts1.
Open Scope N_scope.
Open Scope list_scope.

(** ** What holds for the failure, and what for the result *)
Definition ok {A} (m : fres A) (P : failure -> Prop) (Q : A -> Prop) : Prop :=
  match m with Ret (inl x) => P x | Ret (inr a) => Q a | _ => True end.
Lemma ok_bind {A B} (m : fres A) (k : A -> fres B) P Q R : ok m P R -> (forall a, R a -> ok (k a) P Q) -> ok (fbind m k) P Q.
Proof. destruct m as [[x|x]|e|c|]; cbn; auto. Qed.
Lemma ok_lift {A} (m : outcome A) P : ok (flift m) P (fun a => m = Ret a).
Proof. destruct m; cbn; auto. Qed.
Lemma ok_need {A} c i w (o : option A) (P : failure -> Prop) : (o = None -> P (mkF c i w)) -> ok (fneed c i w o) P (fun a => o = Some a).
Proof. destruct o; cbn; auto. Qed.
Lemma ok_try {A} h (m : outcome A) (P : failure -> Prop) :
  (forall e c i, m = Throw e -> h e = Some (c, i) -> P (mkF c i (Thrown e))) -> ok (ftry h m) P (fun a => m = Ret a).
Proof. intros K. destruct m as [x|e|c|]; cbn; auto. destruct (h e) as [[c i]|] eqn:E; cbn; auto. Qed.
Lemma ok_noexcept {A} (m : fres A) P Q : ok m P Q -> ok (noexcept m) P Q.
Proof. destruct m as [[x|x]|e|c|]; cbn; auto. Qed.
Lemma ok_assert bd b P : ok (fassert bd b) P (fun _ => True).
Proof. destruct bd, b; cbn; exact Logic.I. Qed.
Lemma ok_weak {A} (m : fres A) P Q (P' : failure -> Prop) (Q' : A -> Prop) : ok m P Q -> (forall x, P x -> P' x) -> (forall a, Q a -> Q' a) -> ok m P' Q'.
Proof. destruct m as [[x|x]|e|c|]; cbn; auto. Qed.
Lemma ok_failed {A} (m : fres A) P Q x : ok m P Q -> failed_with m = Some x -> P x.
Proof. destruct m as [[y|y]|e|c|]; cbn; try discriminate. intros H E. injection E as <-. exact H. Qed.
Lemma ok_fail {A} c i w (P : failure -> Prop) (Q : A -> Prop) : P (mkF c i w) -> ok (ffail c i w) P Q.
Proof. intros H. exact H. Qed.
Lemma ok_path {A} p (r : dres A) (P : failure -> Prop) (Q : A -> Prop) : (forall c, r = dfail c -> P (mkF c (cstr p) noquote)) -> (forall a, r = dret a -> Q a) -> ok (with_path p r) P Q.
Proof. intros H K. destruct r as [[x|x]|e|c|]; cbn; auto. Qed.
Lemma ok_part {A} tx b (m : outcome A) (P : failure -> Prop) :
  (m = Throw LengthError -> P (mkF ERR_NOT_ENOUGH_DATA (t_short tx) (t_short_what tx))) ->
  (forall x, x_code x = ERR_CHAINHASH_DATAPART_INVALID \/ x_code x = ERR_CHAINHASH_DATABLOCK_ALREADY_COMPLETED \/ x_code x = ERR -> (forall t, x_what x <> Quote t) -> P x) -> ok (f_part tx b m) P (fun a => m = Ret a).
Proof. intros H K. destruct m as [x|e|c|]; cbn; auto. destruct e; cbn; auto; apply K; cbn; auto; intros t E; discriminate E. Qed.

(** ** Calls in the wrong state *)
Lemma proper_text o : proper o = match o with
  | OCreate _ => str "createFile is only available in the INIT state"
  | ODelete => str "deleteFile is only available in the FILE_SELECTED or EMPTY_FILE_SELECTED state"
  | OUnselect => str "unselectFile is only available in the FILE_SELECTED or EMPTY_FILE_SELECTED state"
  | OHeader _ _ _ => str "createDataHeader is only available in the EMPTY_FILE_SELECTED or DECRYPTED state"
  | OLogout | OLogoutMode _ => proper OLogout
  | _ => wrong_text o
  end.
Proof. destruct o; vm_compute; reflexivity. Qed.
Lemma refusal_text o : (forall p, o <> OLogoutMode p) -> o <> OLogout -> refusal o = wrong_text o.
Proof. intros A B. destruct o; try reflexivity; [now destruct B | now destruct (A mode)]. Qed.
Lemma wrong_state w a f o : offered (a_state a) o = false -> well_set o ->
  told w a f o = Some (mkF ERR_API_STATE_INVALID (refusal o) (Quote [])).
Proof.
  intros O W. rewrite refusal_text by (intros; intros ->; destruct (a_state a); discriminate O).
  destruct o; cbn in W; try (unfold told; rewrite W); cbn; destruct (a_state a); cbn in O; try discriminate O; reflexivity.
Qed.

(** ** Paths and fixed messages *)
Definition fine (a : api) (o : op) (x : failure) : Prop :=
  (about_path (x_code x) = true -> x_info x = cstr (path_of a o)) /\
  (about_path (x_code x) = false -> from_content o (x_code x) = false -> forall text, In (x_code x, message text x false) (fixed_messages o)) /\
  (forall t, x_what x = Quote t -> t = [] \/ (t = str "setHeaderBytes" /\ from_content o (x_code x) = true)) /\
  (x_code x = ERR_EMPTY_FILEPATH -> path_of a o = []).
Definition any {A} (_ : A) : Prop := True.
Lemma fine_path a o c : about_path c = true -> (c = ERR_EMPTY_FILEPATH -> path_of a o = []) -> fine a o (mkF c (cstr (path_of a o)) noquote).
Proof. intros H K. split; [reflexivity|]. cbn. split; [intros E; congruence|]. split; [|exact K]. intros t E. injection E as <-. auto. Qed.
Lemma fine_read a o e i : (i = cstr (path_of a o)) -> fine a o (mkF ERR_FILE_READ i (Thrown e)).
Proof. intros ->. split; [reflexivity|]. cbn. split; [intros E; discriminate E|]. split; [intros t E; discriminate E | intros E; discriminate E]. Qed.
Lemma fine_content a p x : about_path (x_code x) = false -> x_code x <> ERR_API_STATE_INVALID -> x_code x <> ERR_FILEHANDLER_CREATION ->
  (forall t, x_what x = Quote t -> t = [] \/ t = str "setHeaderBytes") -> fine a (OSelect p) x.
Proof.
  intros A B C W. assert (from_content (OSelect p) (x_code x) = true) as F. { unfold from_content. destruct (x_code x); try reflexivity; cbn in A; congruence. }
  split; [congruence|]. split; [congruence|]. split; [intros t E; destruct (W t E); auto|]. intros E. rewrite E in A. discriminate A.
Qed.
Ltac listed := intros _ _ ?; vm_compute; repeat first [left; reflexivity | right].
Ltac fixed_failure := split; [let E := fresh in intros E; discriminate E|]; split; [listed | split; [let E := fresh in intros ? E; first [discriminate E | injection E as <-; auto] | let E := fresh in intros E; discriminate E]].

Lemma valid_codes w f p b c : isValidPath w f p b = dfail c -> about_path c = true.
Proof.
  unfold isValidPath. destruct (lenN p =? 0); [intros E; now injection E as <-|]. destruct (negb _); [intros E; now injection E as <-|].
  destruct (exists_ w f p) as [ex|e|k|]; cbn; try discriminate. destruct b, ex; cbn; try discriminate; try (intros E; now injection E as <-).
  destruct (w_read w p); cbn; try discriminate; intros E; now injection E as <-.
Qed.
Lemma valid_empty w f p b c : isValidPath w f p b = dfail c -> c = ERR_EMPTY_FILEPATH <-> p = [].
Proof.
  unfold isValidPath. destruct p as [|y r].
  - cbn. intros E. injection E as <-. tauto.
  - rewrite lenN_cons. destruct (N.eqb_spec (1 + lenN r) 0); [lia|]. intros E. split; [|discriminate]. intros ->. exfalso. revert E.
    destruct (negb _); [discriminate|]. destruct (exists_ w f (y :: r)) as [ex|e|k|]; cbn; try discriminate. destruct b, ex; cbn; try discriminate.
    destruct (w_read w (y :: r)); discriminate.
Qed.
Lemma valid_fine w f p b o a : path_of a o = p -> ok (f_isValidPath w f p b) (fine a o) any.
Proof. intros <-. apply ok_path; [|intros; exact Logic.I]. intros c E. apply fine_path; [exact (valid_codes _ _ _ _ _ E) | apply (valid_empty _ _ _ _ _ E)]. Qed.
Lemma create_fine w f p a : ok (f_createFile w f p) (fine a (OCreate p)) any.
Proof.
  apply ok_path; [|intros; exact Logic.I]. intros c E. unfold fh_createFile in E.
  destruct (isValidPath w f p false) as [[x|x]|e|k|] eqn:V; cbn in E; try discriminate E.
  - injection E as <-. apply (fine_path a (OCreate p)); [exact (valid_codes _ _ _ _ _ V) | apply (valid_empty _ _ _ _ _ V)].
  - destruct (w_create w p); cbn in E; [discriminate E|]. injection E as <-. apply (fine_path a (OCreate p)); [reflexivity | discriminate].
Qed.
Lemma write_fine w f h a o : path_of a o = fh_path h -> ok (f_writeStream w f h) (fine a o) any.
Proof.
  intros P. apply ok_path; [|intros; exact Logic.I]. intros c E. unfold fh_getWriteStream in E.
  destruct (isValidPath w f (fh_path h) true) as [[x|x]|e|k|] eqn:V; cbn in E; try discriminate E.
  - injection E as <-. rewrite <- P in *. apply fine_path; [exact (valid_codes _ _ _ _ _ V) | apply (valid_empty _ _ _ _ _ V)].
  - destruct (w_write w (fh_path h)); cbn in E; [discriminate E|]. injection E as <-. rewrite <- P in *. apply fine_path; [reflexivity | discriminate].
Qed.
Lemma list_fine w f m p a : ok (f_getRelevantFileNames w f m p) (fine a (OList p)) any.
Proof.
  apply ok_path; [|intros; exact Logic.I]. intros c E. unfold getRelevantFileNames in E.
  assert (match getAllEncFileNames w p with Ret (inl c) => about_path c = true /\ (c = ERR_EMPTY_FILEPATH -> p = []) | _ => True end) as K.
  { unfold getAllEncFileNames. destruct (N.eqb_spec (lenN p) 0) as [L|L]; [cbn; destruct p; [auto | rewrite lenN_cons in L; lia]|]. destruct (w_stat w p), (w_dir w p); cbn; first [exact Logic.I | split; [reflexivity | discriminate]]. }
  destruct (getAllEncFileNames w p) as [[x|x]|e|k|]; cbn in E; try discriminate E.
  - injection E as <-. apply (fine_path a (OList p)); apply K.
  - destruct (relevant_loop w f 0 m p x []); cbn in E; discriminate E.
Qed.
(** the handler of a file has its path *)
Lemma update_path p c h : fh_update p c = Ret h -> fh_path h = p.
Proof.
  unfold fh_update. intros E.
  destruct (match readBytes 8 8 c with Some _ => _ | None => _ end) as [n|e|k|]; cbn in E; try discriminate E.
  destruct (lenN c <? n); [discriminate E|]. destruct (_ && _); [discriminate E|]. now injection E as <-.
Qed.
Lemma handler_fine w f p a o : path_of a o = p -> (forall x, x_code x = ERR_FILEHANDLER_CREATION -> x_info x = [] -> (forall t, x_what x <> Quote t) -> fine a o x) ->
  ok (f_getFileHandler w f p) (fine a o) (fun h => fh_path h = p).
Proof.
  intros P K. apply ok_noexcept. apply (ok_bind _ _ _ _ _ (valid_fine w f p true o a P)). intros _ _.
  apply (ok_weak _ (fine a o) (fun h => newFileHandler w f p = Ret h)).
  - apply ok_try. intros e c i _ H. apply K; cbn; try (destruct e; cbn in H; congruence).
  - auto.
  - intros h E. unfold newFileHandler in E. destruct (isValidPath w f p true) as [[?|?]| | |]; cbn in E; try discriminate E. exact (update_path _ _ _ E).
Qed.
Lemma creation_fine a p x : x_code x = ERR_FILEHANDLER_CREATION -> x_info x = [] -> (forall t, x_what x <> Quote t) -> fine a (OSelect p) x /\ fine a (OWriteTo p) x.
Proof.
  destruct x as [c i w]. cbn. intros -> -> W. split; (split; [intros E; discriminate E|]; split; [|split; [intros t E; now destruct (W t) | intros E; discriminate E]]); intros _ _ text; right; left; reflexivity.
Qed.
(** the decoder: codes and the [what] texts *)
Definition read_fail (x : failure) : Prop :=
  about_path (x_code x) = false /\ x_code x <> ERR_API_STATE_INVALID /\ x_code x <> ERR_FILEHANDLER_CREATION /\ (forall t, x_what x = Quote t -> t = [] \/ t = str "setHeaderBytes").
Ltac rf := split; [reflexivity|]; split; [discriminate|]; split; [discriminate|]; let E := fresh in intros ? E; first [discriminate E | injection E as <-; auto].
Lemma need_rf {A} i (o : option A) : ok (fneed ERR_NOT_ENOUGH_DATA i reading o) read_fail any.
Proof. destruct o; cbn; [exact Logic.I | rf]. Qed.
Lemma need_rf2 {A} tx (o : option A) : (t_short_what tx = reading \/ t_short_what tx = Thrown LengthError) -> ok (fneed ERR_NOT_ENOUGH_DATA (t_short tx) (t_short_what tx) o) read_fail any.
Proof. intros K. destruct o; cbn; [exact Logic.I | destruct K as [-> | ->]; rf]. Qed.
Lemma lift_rf {A} (m : outcome A) : ok (flift m) read_fail any.
Proof. destruct m; exact Logic.I. Qed.
Lemma try_rf {A} h (m : outcome A) : (forall e c i, h e = Some (c, i) -> read_fail (mkF c i (Thrown e))) -> ok (ftry h m) read_fail any.
Proof. intros K. destruct m as [x|e|c|]; cbn; try exact Logic.I. destruct (h e) as [[c i]|] eqn:E; cbn; [exact (K e c i E) | exact Logic.I]. Qed.
Lemma part_rf {A} tx b (m : outcome A) : (t_short_what tx = reading \/ t_short_what tx = Thrown LengthError) -> ok (f_part tx b m) read_fail any.
Proof.
  intros K. apply (ok_weak _ read_fail (fun a => m = Ret a)); [|auto|intros; exact Logic.I].
  apply ok_part.
  - intros _. destruct K as [-> | ->]; rf.
  - intros x C W. split; [destruct C as [-> | [-> | ->]]; reflexivity|]. split; [destruct C as [-> | [-> | ->]]; discriminate|]. split; [destruct C as [-> | [-> | ->]]; discriminate|].
    intros t E. now destruct (W t).
Qed.
Lemma assert_rf bd b : ok (fassert bd b) read_fail any.
Proof. apply (ok_weak _ _ _ _ _ (ok_assert bd b read_fail)); auto. Qed.
Lemma bind_rf {A B} (m : fres A) (k : A -> fres B) : ok m read_fail any -> (forall a, ok (k a) read_fail any) -> ok (fbind m k) read_fail any.
Proof. intros H K. apply (ok_bind _ _ _ _ _ H). intros a _. apply K. Qed.
Ltac rfs := repeat (cbv beta iota; match goal with
  | |- ok (noexcept _) _ _ => apply ok_noexcept
  | |- ok (fbind _ _) _ _ => apply bind_rf; [|intro]
  | |- ok (f_read1 _ _) _ _ => apply need_rf
  | |- ok (f_readBytes _ _ _ _) _ _ => apply need_rf
  | |- ok (flift _) _ _ => apply lift_rf
  | |- ok (fassert _ _) _ _ => apply assert_rf
  | |- ok (fret _) _ _ => exact Logic.I
  | |- ok (ftry _ _) _ _ => apply try_rf; let e := fresh in let H := fresh in intros e ? ? H; destruct e; cbn in H; try discriminate H; injection H as <- <-; rf
  | |- ok (ffail _ _ _) _ _ => apply ok_fail; rf
  | |- ok (let '(_, _) := ?x in _) _ _ => destruct x as [? ?]
  | |- ok (if ?b then _ else _) _ _ => destruct b
  | _ => assumption
  end).
Lemma read8_rf n s : ok (f_read8 n s) read_fail any.
Proof. unfold f_read8. rfs. Qed.
Lemma blocks_rf n : forall d s, ok (f_blocks n d s) read_fail any.
Proof. induction n as [|n IH]; intros d s; cbn [f_blocks]; rfs. apply IH. Qed.
Lemma encs_rf n : forall d s, ok (f_encs n d s) read_fail any.
Proof. induction n as [|n IH]; intros d s; cbn [f_encs]; rfs. apply IH. Qed.
Lemma parts_rf bd tx : (t_short_what tx = reading \/ t_short_what tx = Thrown LengthError) -> forall nls lb dl c s, ok (f_parts bd tx nls lb dl c s) read_fail any.
Proof.
  intros K. induction nls as [|[nm len] r IH]; intros lb dl c s; cbn [f_parts]; rfs; try (apply need_rf2; exact K); try (apply part_rf; exact K). apply IH.
Qed.
Lemma chain_rf bd tx code set d s : (t_short_what tx = reading \/ t_short_what tx = Thrown LengthError) -> code = ERR_CHAINHASH1_INVALID \/ code = ERR_CHAINHASH2_INVALID ->
  ok (f_chain bd tx code set d s) read_fail any.
Proof. intros K C. destruct C as [-> | ->]; unfold f_chain; rfs; match goal with |- ok (f_read8 _ _) _ _ => apply read8_rf | |- ok (f_parts _ _ _ _ _ _ _) _ _ => apply parts_rf; exact K end. Qed.
Lemma decode_rf bd rnd file : ok (f_decode bd rnd file) read_fail any.
Proof.
  unfold f_decode. rfs; match goal with
  | |- ok (f_read8 _ _) _ _ => apply read8_rf
  | |- ok (f_blocks _ _ _) _ _ => apply blocks_rf
  | |- ok (f_encs _ _ _) _ _ => apply encs_rf
  | |- ok (f_chain _ _ _ _ _ _) _ _ => apply chain_rf; cbn; auto
  end.
Qed.
Lemma select_fine w f p a : ok (f_selectFile w f p) (fine a (OSelect p)) any.
Proof.
  apply ok_noexcept. eapply ok_bind; [apply (handler_fine w f p a (OSelect p) eq_refl); intros x A B C; apply (creation_fine a p x A B C)|].
  intros h _. destruct (fh_empty h); [exact Logic.I|]. eapply ok_bind; [|intros; exact Logic.I].
  apply (ok_weak _ read_fail any); [|intros x (A & B & C & E); now apply fine_content|exact (fun _ H => H)].
  apply ok_noexcept, bind_rf; [apply decode_rf|]. intros [d s]. exact Logic.I.
Qed.
(** ** The other functions *)
Lemma bind_fine {A B} (m : fres A) (k : A -> fres B) a o : ok m (fine a o) any -> (forall x, ok (k x) (fine a o) any) -> ok (fbind m k) (fine a o) any.
Proof. intros H K. apply (ok_bind _ _ _ _ _ H). intros x _. apply K. Qed.
Lemma lift_fine {A} (m : outcome A) a o : ok (flift m) (fine a o) any.
Proof. destruct m; exact Logic.I. Qed.
Lemma try_fine {A} h (m : outcome A) a o : (forall e c i, h e = Some (c, i) -> fine a o (mkF c i (Thrown e))) -> ok (ftry h m) (fine a o) any.
Proof. intros K. destruct m as [x|e|c|]; cbn; try exact Logic.I. destruct (h e) as [[c i]|] eqn:E; cbn; [exact (K e c i E) | exact Logic.I]. Qed.
Ltac fns := repeat (cbv beta iota; match goal with
  | |- ok (noexcept _) _ _ => apply ok_noexcept
  | |- ok (fbind _ _) _ _ => apply bind_fine; [|intro]
  | |- ok (flift _) _ _ => apply lift_fine
  | |- ok (fret _) _ _ => exact Logic.I
  | |- ok (ftry _ _) _ _ => apply try_fine; let e := fresh in let H := fresh in intros e ? ? H; destruct e; cbn in H; try discriminate H; injection H as <- <-; fixed_failure
  | |- ok (ffail _ _ _) _ _ => apply ok_fail; fixed_failure
  | |- ok (let '(_, _) := ?x in _) _ _ => destruct x as [? ?]
  | |- ok (if ?b then _ else _) _ _ => destruct b
  | |- ok (match ?x with Done _ => _ | TimedOut => _ end) _ _ => destruct x
  | _ => assumption
  end).
Lemma set_parts_fine rnd p a o : (exists pw ds t, o = OHeader pw ds t) \/ o = OSalt -> ok (f_setHeaderParts rnd p) (fine a o) any.
Proof. intros [(pw & ds & t & ->) | ->]; unfold f_setHeaderParts; fns. Qed.
Lemma iters_fine w m pw ds t a : ok (f_createHeaderIters w m pw ds t) (fine a (OHeader pw ds t)) any.
Proof. unfold f_createHeaderIters. fns. apply set_parts_fine; eauto. Qed.

Lemma verify_fine w a pw t : ok (f_verifyPassword w a pw t) (fine a (OVerify pw t)) any.
Proof.
  unfold f_verifyPassword. apply ok_noexcept, bind_fine; [apply lift_fine|]. intros d.
  assert (ok (f_checkPassword w d pw t) (fine a (OVerify pw t)) any) as K by (unfold f_checkPassword; fns).
  destruct (f_checkPassword w d pw t) as [[x|x]|e|c|]; try exact K. destruct e; try exact Logic.I; cbn; fixed_failure.
Qed.
Lemma decrypt_fine w a f : ok (f_getDecryptedData w a f) (fine a ODecrypt) any.
Proof. unfold f_getDecryptedData. fns. Qed.
Lemma encrypt_fine w a x : ok (f_encryptData w a x) (fine a (OEncrypt x)) any.
Proof. unfold f_encryptData. apply ok_noexcept, bind_fine; [apply lift_fine|]. intros y. destruct (fd_mode y); fns. Qed.
Lemma salt_fine w a : ok (f_changeSalt w a) (fine a OSalt) any.
Proof. unfold f_changeSalt. fns. apply set_parts_fine. auto. Qed.
Lemma delete_fine w a f : ok (f_deleteFile w a f) (fine a ODelete) any.
Proof.
  unfold f_deleteFile. destruct (a_file a) as [h|] eqn:E; cbn; [|exact Logic.I]. destruct (w_remove w (fh_path h)); cbn; [|exact Logic.I].
  destruct (f (w_loc w (fh_path h))); cbn; [exact Logic.I|]. pose proof (fine_path a ODelete ERR_FILE_NOT_DELETED eq_refl ltac:(discriminate)) as K. cbn [path_of] in K. rewrite E in K. exact K.
Qed.
Lemma content_fine w a f : ok (f_getFileContent w a f) (fine a OContent) any.
Proof.
  unfold f_getFileContent. destruct (a_file a) as [h|] eqn:E; cbn; [|exact Logic.I].
  destruct (fh_getAllBytes w f h) as [x|e|c|]; cbn; try exact Logic.I. destruct e; cbn; try exact Logic.I; apply fine_read; cbn [path_of]; rewrite E; reflexivity.
Qed.
Lemma write_file_fine w a f : ok (f_writeToFile w a f) (fine a OWrite) any.
Proof.
  unfold f_writeToFile. destruct (a_file a) as [h|] eqn:E; cbn; [|exact Logic.I]. apply write_fine. cbn [path_of]. rewrite E. reflexivity.
Qed.
Lemma write_path_fine w f p a : ok (f_writeToPath w f p) (fine a (OWriteTo p)) any.
Proof.
  unfold f_writeToPath. eapply ok_bind; [apply (handler_fine w f p a (OWriteTo p) eq_refl); intros x A B C; apply (creation_fine a p x A B C)|].
  intros h P. unfold f_writeStreamIfEmpty. destruct (fh_empty h); [apply write_fine; cbn [path_of]; auto|]. cbn. rewrite P. apply (fine_path a (OWriteTo p)); [reflexivity | discriminate].
Qed.

Lemma told_fine w a f o x : told w a f o = Some x -> fine a o x.
Proof.
  intros T. destruct (offered (a_state a) o) eqn:O.
  2:{ assert (well_set o \/ x = mkF ERR_DATAHEADERSETTINGS_INCOMPLETE (x_info x) noquote /\ match o with OHeader _ _ _ | OHeaderTime _ _ => True | _ => False end) as [W | [-> W]].
      { destruct o; cbn; auto; cbn in T; destruct (set_isComplete ds); cbn in T; auto; injection T as <-; right; auto. }
      - rewrite (wrong_state w a f o O W) in T. injection T as <-. split; [intros E; discriminate E|]. split; [intros _ _ text; left; unfold message, getErrorMessage; cbn [x_code x_info x_what code_number]; rewrite app_nil_r; reflexivity|]. split; [intros t E; injection E as <-; auto | intros E; discriminate E].
      - destruct o; try destruct W; fixed_failure. }
  destruct o; cbn in T; try discriminate T.
  all: try (destruct (set_isComplete ds); cbn in T; [|injection T as <-; fixed_failure]).
  all: destruct (a_state a); cbn in O; try discriminate O; try discriminate T.
  all: try (destruct (a_fdata a); [discriminate T | injection T as <-; fixed_failure]).
  all: revert T; apply (fun m H => ok_failed m (fine a _) any x H).
  all: first [apply list_fine | apply create_fine | apply select_fine | apply delete_fine | apply content_fine | apply verify_fine | apply iters_fine | apply salt_fine | apply decrypt_fine | apply encrypt_fine | apply write_file_fine | apply write_path_fine].
Qed.

(** ** The messages about a path *)
Lemma cstr_id p : no_zero p -> cstr p = p.
Proof.
  induction p as [|x r IH]; intros H; [reflexivity|]. cbn [cstr]. destruct (Byte.eqb x x00) eqn:E.
  - apply Byte.byte_dec_bl in E. destruct H. left. exact E.
  - rewrite IH; [reflexivity|]. intros K. apply H. right. exact K.
Qed.
Lemma path_wording text x p : about_path (x_code x) = true -> x_info x = p -> (p = [] -> x_code x = ERR_EMPTY_FILEPATH \/ x_code x = ERR_FILE_READ \/ x_code x = ERR_FILEPATH_INVALID) ->
  (x_code x = ERR_EMPTY_FILEPATH -> p = []) -> message text x false = wording (x_code x) p.
Proof.
  destruct x as [c i w]. cbn [x_code x_info]. intros A -> E E2. unfold message, getErrorMessage. cbn [x_code x_info x_what].
  destruct c; cbn in A; try discriminate A; cbn [code_number wording]; rewrite ?app_nil_r; try reflexivity.
  all: try (rewrite (E2 eq_refl); reflexivity).
  all: destruct p; [|cbn [app]; rewrite ?app_nil_r; reflexivity].
  all: destruct (E eq_refl) as [K | [K | K]]; discriminate K.
Qed.
