(** Lemmas for C98: failures in the log. *)
From Coq Require Import Strings.String.
From Coq Require Import Lia.
From Verif Require Import Base BaseFacts BytesModel MiscModel CipherModel PwModel ChModel HeaderModel HeaderSpec FileModel ApiModel ApiSpec LogModel LogSpec LogFacts1 LogFacts6 LogFacts7 LogFacts9.
Open Scope N_scope.
Open Scope list_scope.
Import ListNotations.

Lemma told_r s xs ys : told s ys -> told s (xs ++ ys).
Proof. intros (l & I & A). exists l. split; [apply in_or_app; auto | exact A]. Qed.
Lemma told_l s xs ys : told s xs -> told s (xs ++ ys).
Proof. intros (l & I & A). exists l. split; [apply in_or_app; auto | exact A]. Qed.
Lemma told_cons s x xs : told s xs -> told s (x :: xs).
Proof. apply (told_r s [x]). Qed.
Lemma told_here s x xs : at_least s x = true -> told s (x :: xs).
Proof. intro A. exists x. split; [left; reflexivity | exact A]. Qed.
Ltac tell := repeat (first [apply told_here; reflexivity | apply told_cons]).
Lemma told_weak ls r : told SError ls -> told (due r) ls.
Proof.
  intros (l & I & A). exists l. split; [exact I | ]. unfold at_least in *. apply N.leb_le in A. apply N.leb_le. cbn [rank] in *.
  assert (rank (due r) <= 4) by (unfold due; destruct r as [| | | | | |s c]; cbn; try lia; destruct c; cbn; lia). lia.
Qed.
Definition telling (m : logm (api * reply)) : Prop := forall ls a r, m = (ls, Ret (a, r)) -> succeeded r = false -> told (due r) ls.
Lemma te_noexcept m : telling m -> telling (noexcept_l m).
Proof. intros T ls a r E. apply noexcept_l_inv in E. eapply T, E. Qed.
Lemma te_bind {A} (m : logm A) k : (forall ls x, m = (ls, Ret x) -> told SError ls \/ telling (k x)) -> telling (bindl m k).
Proof.
  intros T ls a r E S. apply bindl_inv in E as (l1 & x & l2 & E1 & E2 & ->). destruct (T _ _ E1) as [B|B]; [apply told_l, told_weak, B | apply told_r, (B _ _ _ E2 S)].
Qed.
Lemma te_skip {A} (m : logm A) k : (forall x, telling (k x)) -> telling (bindl m k).
Proof. intro T. apply te_bind. intros ls x _. right. apply T. Qed.
Lemma te_done ls a r : succeeded r = true -> telling (ls, Ret (a, r)).
Proof. intros S l b q E F. injection E as <- <- <-. congruence. Qed.
Lemma te_said ls a r : told SError ls -> telling (ls, Ret (a, r)).
Proof. intros S l b q E F. injection E as <- <- <-. apply told_weak, S. Qed.
Lemma onerr_tells {A} g (m : lres A) ls e : (forall e, told SError (g e)) -> onerr g m = (ls, Ret (inl e)) -> told SError ls.
Proof. intros G. destruct m as [l [[x|x]|x|x|]]; unfold onerr; cbn; intro E; try discriminate. injection E as <- <-. apply told_r, G. Qed.
Lemma try_tells {A} h c i (m : logm A) ls e : (forall e, told SError (h e)) -> try_l (handle_std h c i) m = (ls, Ret (inl e)) -> told SError ls.
Proof. intros G. destruct m as [l [x|x|x|]]; unfold try_l, handle_std; cbn; intro E; try discriminate. destruct x; try discriminate; injection E as <- _; apply told_r, G. Qed.
Lemma te_onerr {A} g (m : lres A) (k : lerr + A -> logm (api * reply)) : (forall e, told SError (g e)) -> (forall x, telling (k (inr x))) -> telling (bindl (onerr g m) k).
Proof. intros G K. apply te_bind. intros ls [e|x] E; [left; eapply onerr_tells; eassumption | right; apply K]. Qed.
Lemma te_try {A} h c i (m : logm A) (k : lerr + A -> logm (api * reply)) : (forall e, told SError (h e)) -> (forall x, telling (k (inr x))) -> telling (bindl (try_l (handle_std h c i) m) k).
Proof. intros G K. apply te_bind. intros ls [e|x] E; [left; eapply try_tells; eassumption | right; apply K]. Qed.

Lemma te_select w a f p : telling (selectFile_l w a f p).
Proof.
  apply te_noexcept, te_skip. intros _. apply te_onerr; [intro; tell | ]. intro h. destruct (fh_empty h); [apply te_done; reflexivity | ].
  apply te_onerr; [intro; tell | ]. intro d. apply te_done. reflexivity.
Qed.
Lemma te_headerEmpty a r : telling (headerEmpty_l a r).
Proof. apply te_onerr; [intro; tell | ]. intros [d k]. apply te_done. reflexivity. Qed.
Lemma te_headerDecrypted a r : telling (headerDecrypted_l a r).
Proof. apply te_onerr; [intro; tell | ]. intros [d k]. apply te_done. reflexivity. Qed.
Lemma te_decrypt w a f : telling (getDecryptedData_l w a f).
Proof. apply te_noexcept, te_skip. intros _. apply te_try; [intro; tell | ]. intro x. apply te_done. reflexivity. Qed.
Lemma te_encrypt w a x : telling (encryptData_l w a x).
Proof.
  apply te_noexcept, te_skip. intros _. apply te_skip. intro y. destruct (fd_mode y) as [m|]; [ | apply te_said; tell]. destruct (negb _); [apply te_said; tell | ].
  apply te_skip. intro data. apply te_skip. intro d. apply te_try; [intro; tell | ]. intro d1. destruct (calcHeaderBytes _ _ _ d1) as [d2 r]. apply te_try; [intro; tell | ]. intro res. apply te_done. reflexivity.
Qed.
Lemma te_salt w a : telling (changeSalt_l w a).
Proof. apply te_noexcept. do 7 (apply te_skip; intro). apply te_onerr; [intro; tell | ]. intro d. apply te_done. reflexivity. Qed.
Lemma te_content w a f : telling (getFileContent_l w a f).
Proof. apply te_noexcept, te_skip. intro h. apply te_try; [intro; tell | ]. intro b. apply te_done. reflexivity. Qed.
(** errors of a password check *)
Definition check_told (m : lres Bytes) : Prop := forall ls e, m = (ls, Ret (inl e)) -> told (due (failed (e_code e))) ls.
Lemma ct_bind {A} (m : lres A) k : (forall ls e, m = (ls, Ret (inl e)) -> False) -> (forall x, check_told (k x)) -> check_told (bindr m k).
Proof.
  intros M K ls e E. apply bindl_inv in E as (l1 & [z|x] & l2 & E1 & E2 & ->); [destruct (M _ _ E1) | ]. apply told_r, (K _ _ _ E2).
Qed.
Lemma lift_no {A} (m : logm A) ls e : lift_l m = (ls, Ret (inl e)) -> False.
Proof. destruct m as [l [x|x|x|]]; unfold lift_l; cbn; discriminate. Qed.
Lemma ct_err ls e : told (due (failed (e_code e))) ls -> check_told (err ls e).
Proof. intros T l x E. injection E as <- <-. exact T. Qed.
Lemma ct_done ls x : check_told (ls, Ret (inr x)).
Proof. intros l e E. discriminate. Qed.
Lemma ct_check w d pw t : check_told (checkPassword_l w d pw t).
Proof.
  unfold checkPassword_l. apply ct_bind; [intros ? ?; apply lift_no | intro p]. apply ct_bind; [intros ? ?; apply lift_no | intro hm]. apply ct_bind; [intros ? ?; apply lift_no | intro h].
  apply ct_bind; [intros ? ?; apply lift_no | intros [k|]]; [ | apply ct_err; tell]. cbv zeta. destruct (_ && _); [apply ct_err; tell | ].
  apply ct_bind; [intros ? ?; apply lift_no | intros [v|]]; [ | apply ct_err; tell]. apply ct_bind; [intros ? ?; apply lift_no | intro pv]. destruct (eqBytes v pv); [apply ct_done | apply ct_err; tell].
Qed.
Lemma te_verify w a pw t : telling (verifyPassword_l w a pw t).
Proof.
  apply te_noexcept, te_skip. intros _. apply te_skip. intro d. intros ls a' r E S. apply bindl_inv in E as (l1 & [e|x] & l2 & E1 & E2 & ->); [ | injection E2 as _ _ <-; discriminate].
  apply silent_inv in E2 as [E2 ->]. injection E2 as _ <-. apply told_l. revert E1. unfold catch_l. pose proof (ct_check w d pw t) as C. destruct (checkPassword_l w d pw t) as [l [[y|y]|y|y|]]; cbn; intro E1; try discriminate.
  - injection E1 as <- <-. exact (C _ _ eq_refl).
  - unfold handle_std in E1. destruct y; try discriminate; injection E1 as <- _; apply told_r, (told_weak _ (failed (e_code e))); tell.
Qed.
Theorem failure_told w a f o f' a' r : step w a f o = (f', Ret (a', r)) -> succeeded r = false -> r <> RErr FAIL ERR_API_STATE_INVALID -> told (due r) (lines_of w a f o).
Proof.
  intros E S Nv.
  assert (X : forall n (m : logm (api * reply)) y, telling m -> snd m = y -> y = Ret (a', r) -> told (due r) (n :: fst m)).
  { intros n m y T Q1 Q2. apply told_cons. destruct m as [ls z]. cbn in *. subst z. subst y. exact (T _ _ _ eq_refl S). }
  assert (Z : forall ls, (f, Ret (a, failed ERR_API_STATE_INVALID)) = (f', Ret (a', r)) -> told (due r) ls) by (intros ls Q; exfalso; apply Nv; injection Q as _ _ <-; reflexivity).
  destruct o; cbn [step lines_of] in *.
  - destruct (a_state a); try (apply Z, E). apply told_cons. injection E as _ E. rewrite <- names_erase in E. destruct (getRelevantFileNames_l w f (a_mode a) dir) as [ls x] eqn:L. cbn [fst]. unfold erase in E. cbn [snd] in E.
    destruct x as [[e|x]|x|x|]; cbn in E; try discriminate; [ | injection E as _ <-; discriminate]. apply told_weak.
    unfold getRelevantFileNames_l in L. apply noexcept_l_inv in L. apply bindl_inv in L as (l1 & [z|[]] & l2 & E1 & L & ->); [destruct (lift_no _ _ _ E1) | ]. apply told_r.
    apply bindl_inv in L as (l3 & [z|names] & l4 & E2 & L & ->); [apply told_l; eapply onerr_tells; [ | exact E2]; intro; tell | destruct (lift_no _ _ _ L)].
  - destruct (a_state a); try (apply Z, E). apply told_cons. unfold fh_createFile in E. unfold createFile_lines. apply told_cons. apply told_weak.
    pose proof (validPath_erase w f p false) as V. destruct (isValidPath_l w f p false) as [ls x]. unfold erase in V. cbn [fst snd] in *.
    destruct x as [[e|[]]|x|x|]; cbn in V; rewrite <- V in E; cbn in E; try discriminate; [apply told_r; tell | ].
    destruct (w_create w p); cbn in E; [injection E as _ _ <-; discriminate | ]. apply told_r; tell.
  - destruct (a_state a); try (apply Z, E). injection E as _ E. eapply X; [apply te_select | apply select_erase | exact E].
  - destruct (a_state a); try (apply Z, E); injection E as _ _ <-; discriminate.
  - destruct (a_state a); try (apply Z, E); injection E as _ _ <-; discriminate.
  - destruct (a_state a); try (apply Z, E); unfold deleteFile in E; unfold delete_lines; apply told_cons; apply told_weak;
      (destruct (a_file a) as [h|]; [ | discriminate]); (destruct (w_remove w (fh_path h)); cbn [negb]; [ | try discriminate]).
    all: try (destruct (f (w_loc w (fh_path h))); [injection E as _ _ <-; discriminate | tell]).
  - destruct (a_state a); try (apply Z, E); first [injection E as _ _ <-; discriminate | injection E as _ E; eapply X; [apply te_content | apply content_erase | exact E]].
  - destruct (a_state a); try (apply Z, E). injection E as _ E. eapply X; [apply te_verify | apply verify_erase | exact E].
  - destruct (negb _); [apply told_weak; tell | ]. destruct (a_state a); try (apply Z, E); injection E as _ E.
    + eapply X; [apply te_headerEmpty | apply (headerEmpty_erase a _ _ (createIters_erase w (a_mode a) pw ds timeout)) | ]. destruct (headerEmpty _ _); try discriminate; exact E.
    + apply told_cons. eapply X; [apply te_headerDecrypted | apply (headerDecrypted_erase a _ _ (createIters_erase w (a_mode a) pw ds timeout)) | ]. destruct (headerDecrypted _ _); try discriminate; exact E.
  - destruct (negb _); [apply told_weak; tell | ]. destruct (a_state a); try (apply Z, E); discriminate E.
  - destruct (a_state a); try (apply Z, E). injection E as _ E. eapply X; [apply te_salt | apply salt_erase | exact E].
  - destruct (a_state a); try (apply Z, E). injection E as _ E. eapply X; [apply te_decrypt | apply getDecrypted_erase | exact E].
  - destruct (a_state a); try (apply Z, E). unfold getFileData in E. unfold fileData_lines. destruct (a_fdata a); [injection E as _ _ <-; discriminate | ]. apply told_weak. tell.
  - destruct (a_state a); try (apply Z, E). injection E as _ E. eapply X; [apply te_encrypt | apply encrypt_erase | exact E].
  - destruct (a_state a); try (apply Z, E). apply told_cons. unfold writeToFile in E. unfold writeToFile_lines. destruct (a_file a) as [h|]; [ | discriminate]. apply told_cons, told_weak.
    pose proof (write_stream_erase w f h) as V. destruct (fh_getWriteStream w f h) as [[h' f1] y]. cbn [snd] in V. destruct (write_stream_l w f h) as [ls x]. unfold erase in V. cbn [fst snd] in *.
    destruct x as [[e|[]]|x|x|]; cbn in V; subst y; cbn in E; try discriminate; [apply told_r; tell | ].
    unfold finishWrite in E. destruct (fullData _) as [t|x|x|]; cbn in E; try discriminate. injection E as _ _ <-. discriminate.
  - destruct (a_state a); try (apply Z, E). apply told_cons. unfold writeToPath in E. unfold writeToPath_lines. apply told_cons, told_weak.
    pose proof (getFileHandler_erase w f p) as V. destruct (getFileHandler_l w f p) as [ls x]. unfold erase in V. cbn [fst snd] in *.
    destruct x as [[e|h]|x|x|]; cbn in V; rewrite <- V in E; cbn in E; try discriminate; apply told_r; [tell | ].
    pose proof (write_stream_empty_erase w f h) as V2. destruct (fh_getWriteStreamIfEmpty w f h) as [[h' f1] y]. cbn [snd] in V2. destruct (write_stream_empty_l w f h) as [ls2 x]. unfold erase in V2. cbn [fst snd] in *.
    destruct x as [[e|[]]|x|x|]; cbn in V2; subst y; cbn in E; try discriminate; [apply told_r; tell | ].
    unfold finishWrite in E. destruct (fullData _) as [t|x|x|]; cbn in E; try discriminate. injection E as _ _ <-. discriminate.
  - injection E as _ _ <-. discriminate.
  - injection E as _ _ <-. discriminate.
Qed.

(** a call in the wrong state leaves the line that every call leaves *)
Theorem wrong_state_log w a f o f' a' : offered (a_state a) o = false -> step w a f o = (f', Ret (a', RErr FAIL ERR_API_STATE_INVALID)) -> exists n fs, lines_of w a f o = [api_h n fs].
Proof.
  intros A E. destruct o; cbn [step lines_of] in *; try (destruct (negb _); [discriminate E | ]); destruct (a_state a); try discriminate A; try (eexists _, _; reflexivity).
Qed.

(** ** Calls that succeed *)
Ltac qu := repeat first [apply Forall_nil | apply Forall_cons; [first [left; reflexivity | right; split; [first [assumption | reflexivity] | reflexivity]] | ] | apply Forall_app; split].
Section Quiet.
  Variable H : hashes.
  Hypothesis HH : hashes_ok H.
  Variable bd : build.
  Lemma success_quiet mode tr a w f o f' a' r : history bd H mode tr a -> world_ok bd H w -> fs_ok f -> op_ok o -> step w a f o = (f', Ret (a', r)) -> succeeded r = true ->
    (forall dir, o <> OList dir) -> Forall (fun l => at_least SWarning l = false \/ (opens_empty w f o = true /\ empty_read l)) (lines_of w a f o).
  Proof.
    intros Hh W Hf Ho E S NL. destruct (success_logged H HH bd _ _ _ _ _ _ _ _ _ Hh W Hf Ho E S) as (h & _ & L). unfold logged in L. cbn [e_op e_world e_before e_reply] in L.
    destruct o; cbn [opens_empty].
    - destruct (NL dir eq_refl).
    - rewrite L. qu.
    - rewrite L. destruct (nothing _) eqn:Nt; [qu | unfold read_log, built_log; qu].
    - rewrite L. qu.
    - destruct (selected tr) as [[p c]|]; [ | contradiction]. rewrite L. qu.
    - destruct (selected tr) as [[p c]|]; [ | contradiction]. rewrite L. qu.
    - destruct (selected tr) as [[p c]|]; [ | contradiction]. rewrite L. destruct (nothing c); qu.
    - rewrite L. qu.
    - rewrite L. unfold built_log. destruct (a_state a); qu.
    - contradiction.
    - rewrite L. unfold built_log. qu.
    - destruct r as [| | | |[m [b|]]| |]; try contradiction. destruct L as (fs & _ & ->). qu.
    - rewrite L. qu.
    - destruct x as [[m [b|]]|]; try contradiction. destruct L as (fs & _ & ->). qu.
    - destruct (selected tr) as [[p c]|]; [ | contradiction]. rewrite L. qu.
    - assert (nothing (content f (w_loc w p)) = true).
      { cbn [step] in E. destruct (a_state a); try no_success. unfold writeToPath in E. pose proof (getFileHandler_erase w f p) as X. destruct (getFileHandler_l w f p) as [ls z] eqn:Q. unfold erase in X. cbn [fst snd] in *.
        destruct z as [[z|fh]|z|z|]; cbn [bind] in X; rewrite <- X in E; try (injection E; intros; subst; discriminate); try discriminate.
        apply handler_log in Q. destruct Q as (Fp & Fe & _). unfold fh_getWriteStreamIfEmpty in E. rewrite Fe in E. destruct (nothing _); [reflexivity | injection E; intros; subst; discriminate]. }
      rewrite L. qu.
    - rewrite L. qu.
    - rewrite L. qu.
  Qed.
End Quiet.
