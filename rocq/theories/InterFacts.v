(** Proofs for C88: calls with other processes acting during the call. *)
From Coq Require Import List Lia ZArith NArith Bool.
From Verif Require Import Base BaseFacts BytesModel MiscModel CipherModel PwModel ChModel HeaderModel FileModel ApiModel InterModel InterSpec StreamFacts.
Import ListNotations.
Open Scope N_scope.
Open Scope list_scope.

Section Facts.
Variable w : world.
Variable env : nat -> fs -> fs.
Notation loc := (w_loc w).

(** a part of a call that only looks: files the others leave alone are as before *)
Definition looks {A} (m : st -> st * A) : Prop := forall s l, left_alone env l -> snd (fst (m s)) l = snd s l.
Lemma look_looks : looks (look env).
Proof. intros s l Q. apply Q. Qed.
Lemma open_read_looks p : looks (open_read w env p).
Proof. intros s l Q. apply Q. Qed.
Lemma later_looks p c : looks (later w env p c).
Proof. intros s l Q. apply Q. Qed.
Lemma open_read_eq p (s : st) (f : fs) : left_alone env (loc p) -> snd s (loc p) = f (loc p) ->
  snd (open_read w env p s) = match f (loc p) with Some c => if w_read w p then Some c else None | None => None end.
Proof. intros Q E. unfold open_read, look, at_. cbn. rewrite Q, E. reflexivity. Qed.
Lemma later_eq p c (s : st) (f : fs) : left_alone env (loc p) -> snd s (loc p) = f (loc p) -> snd (later w env p c s) = match f (loc p) with Some c' => c' | None => c end.
Proof. intros Q E. unfold later, look, at_. cbn. rewrite Q, E. reflexivity. Qed.
Lemma validPath_looks p b : looks (isValidPath_i w env p b).
Proof.
  intros s l Q. unfold isValidPath_i, open_read, look. destruct (lenN p =? 0); [reflexivity|]. destruct (negb _); [reflexivity|].
  cbn. destruct (negb (w_stat w p)); [apply Q|]. destruct b; destruct (at_ w p _); cbn; rewrite ?Q; reflexivity.
Qed.
Lemma validPath_eq p b (s : st) (f : fs) : left_alone env (loc p) -> snd s (loc p) = f (loc p) -> snd (isValidPath_i w env p b s) = isValidPath w f p b.
Proof.
  intros Q E. unfold isValidPath_i, isValidPath, exists_, open_read, look, at_. destruct (lenN p =? 0); [reflexivity|]. destruct (negb _); [reflexivity|].
  cbn. destruct (w_stat w p); cbn; [|reflexivity]. rewrite Q, E. destruct b; destruct (f (loc p)) as [c|] eqn:F; cbn; try reflexivity; rewrite !Q, E; try reflexivity.
  destruct (w_read w p); reflexivity.
Qed.
Lemma update_eq p c : update_sized p (lenN c) c = fh_update p c.
Proof. reflexivity. Qed.
Lemma update_path p size c h : update_sized p size c = Ret h -> fh_path h = p.
Proof.
  unfold update_sized. match goal with |- bind ?m _ = _ -> _ => destruct m as [n|e|x|] end; cbn [bind]; try discriminate.
  destruct (size <? n); [discriminate|]. destruct (_ && _); [discriminate|]. intros E. injection E as <-. reflexivity.
Qed.
Lemma update_looks p : looks (update_i w env p).
Proof.
  intros s l Q. unfold update_i. pose proof (open_read_looks p s l Q) as E1. destruct (open_read w env p s) as [s1 [c|]]; [|exact E1].
  pose proof (later_looks p c s1 l Q) as E2. destruct (later w env p c s1) as [s2 x]. pose proof (later_looks p x s2 l Q) as E3.
  destruct (later w env p x s2) as [s3 y]. cbn in *. congruence.
Qed.
Lemma update_i_eq p (s : st) (f : fs) : left_alone env (loc p) -> snd s (loc p) = f (loc p) -> snd (update_i w env p s) = fh_update p (stream_of w f p).
Proof.
  intros Q E. unfold update_i, stream_of. pose proof (open_read_eq p s f Q E) as V1. pose proof (open_read_looks p s _ Q) as E1.
  destruct (open_read w env p s) as [s1 o]. cbn in V1, E1. subst o. destruct (f (loc p)) as [c|] eqn:F; [|reflexivity]. destruct (w_read w p); [|reflexivity].
  assert (snd s1 (loc p) = f (loc p)) as F1 by congruence.
  pose proof (later_eq p c s1 f Q F1) as V2. pose proof (later_looks p c s1 _ Q) as E2. destruct (later w env p c s1) as [s2 x]. cbn in V2, E2. rewrite F in V2. subst x.
  assert (snd s2 (loc p) = f (loc p)) as F2 by congruence.
  pose proof (later_eq p c s2 f Q F2) as V3. destruct (later w env p c s2) as [s3 y]. cbn in V3. rewrite F in V3. subst y. reflexivity.
Qed.
Lemma newFH_looks p : looks (newFileHandler_i w env p).
Proof.
  intros s l Q. unfold newFileHandler_i. pose proof (validPath_looks p true s l Q) as E1. destruct (isValidPath_i w env p true s) as [s1 [[e|u]|e|c|]]; try exact E1.
  cbn in E1. rewrite <- E1. apply update_looks, Q.
Qed.
Lemma newFH_eq p (s : st) (f : fs) : left_alone env (loc p) -> snd s (loc p) = f (loc p) -> snd (newFileHandler_i w env p s) = newFileHandler w f p.
Proof.
  intros Q E. unfold newFileHandler_i, newFileHandler. pose proof (validPath_eq p true s f Q E) as V1. pose proof (validPath_looks p true s _ Q) as E1.
  destruct (isValidPath_i w env p true s) as [s1 r]. cbn in V1, E1. subst r. destruct (isValidPath w f p true) as [[e|u]|e|c|]; cbn [bind]; try reflexivity.
  apply update_i_eq; [exact Q|]. congruence.
Qed.
Lemma handler_looks p : looks (getFileHandler_i w env p).
Proof.
  intros s l Q. unfold getFileHandler_i. pose proof (validPath_looks p true s l Q) as E1. destruct (isValidPath_i w env p true s) as [s1 [[e|u]|e|c|]]; try exact E1.
  pose proof (newFH_looks p s1 l Q) as E2. destruct (newFileHandler_i w env p s1) as [s2 r]. cbn in *. congruence.
Qed.
Lemma handler_eq p (s : st) (f : fs) : left_alone env (loc p) -> snd s (loc p) = f (loc p) -> snd (getFileHandler_i w env p s) = getFileHandler w f p.
Proof.
  intros Q E. unfold getFileHandler_i, getFileHandler. pose proof (validPath_eq p true s f Q E) as V1. pose proof (validPath_looks p true s _ Q) as E1.
  destruct (isValidPath_i w env p true s) as [s1 r]. cbn in V1, E1. subst r. destruct (isValidPath w f p true) as [[e|u]|e|c|] eqn:V; cbn [dbind]; try reflexivity.
  - pose proof (newFH_eq p s1 f Q ltac:(congruence)) as V2. destruct (newFileHandler_i w env p s1) as [s2 r]. cbn in V2. subst r. reflexivity.
Qed.
Lemma header_looks i h : looks (getDataHeader_i w env i h).
Proof.
  intros s l Q. unfold getDataHeader_i. pose proof (open_read_looks (fh_path h) s l Q) as E1. destruct (open_read w env (fh_path h) s) as [s1 [c|]]; [|exact E1].
  pose proof (later_looks (fh_path h) c s1 l Q) as E2. destruct (later w env (fh_path h) c s1) as [s2 x]. pose proof (later_looks (fh_path h) x s2 l Q) as E3.
  destruct (later w env (fh_path h) x s2) as [s3 y]. cbn in *. congruence.
Qed.
Lemma header_eq i h (s : st) (f : fs) : left_alone env (loc (fh_path h)) -> snd s (loc (fh_path h)) = f (loc (fh_path h)) ->
  snd (getDataHeader_i w env i h s) = fh_getDataHeader w f i h.
Proof.
  intros Q E. set (p := fh_path h) in *. unfold getDataHeader_i, fh_getDataHeader, stream_of. fold p. pose proof (open_read_eq p s f Q E) as V1. pose proof (open_read_looks p s _ Q) as E1.
  destruct (open_read w env p s) as [s1 o]. cbn in V1, E1. subst o. destruct (f (loc p)) as [c|] eqn:F; [|reflexivity]. destruct (w_read w p); [|reflexivity].
  assert (snd s1 (loc p) = f (loc p)) as F1 by congruence.
  pose proof (later_eq p c s1 f Q F1) as V2. pose proof (later_looks p c s1 _ Q) as E2. destruct (later w env p c s1) as [s2 x]. cbn in V2, E2. rewrite F in V2. subst x.
  assert (snd s2 (loc p) = f (loc p)) as F2 by congruence.
  pose proof (later_eq p c s2 f Q F2) as V3. destruct (later w env p c s2) as [s3 y]. cbn in V3. rewrite F in V3. subst y. reflexivity.
Qed.
Lemma isHeader_looks i m h : looks (isDataHeader_i w env i m h).
Proof. intros s l Q. unfold isDataHeader_i. pose proof (header_looks i h s l Q) as E. destruct (getDataHeader_i w env i h s). exact E. Qed.
Lemma isHeader_eq i m h (s : st) (f : fs) : left_alone env (loc (fh_path h)) -> snd s (loc (fh_path h)) = f (loc (fh_path h)) ->
  snd (isDataHeader_i w env i m h s) = fh_isDataHeader w f i m h.
Proof. intros Q E. unfold isDataHeader_i, fh_isDataHeader. pose proof (header_eq i h s f Q E) as V. destruct (getDataHeader_i w env i h s). cbn in *. subst. reflexivity. Qed.
Lemma allBytes_looks h : looks (getAllBytes_i w env h).
Proof.
  intros s l Q. unfold getAllBytes_i. pose proof (open_read_looks (fh_path h) s l Q) as E1. destruct (open_read w env (fh_path h) s) as [s1 [c|]]; [|exact E1].
  pose proof (later_looks (fh_path h) c s1 l Q) as E2. destruct (later w env (fh_path h) c s1) as [s2 x]. pose proof (later_looks (fh_path h) x s2 l Q) as E3.
  destruct (later w env (fh_path h) x s2) as [s3 y]. cbn in *. congruence.
Qed.
Lemma allBytes_eq h (s : st) (f : fs) : left_alone env (loc (fh_path h)) -> snd s (loc (fh_path h)) = f (loc (fh_path h)) -> snd (getAllBytes_i w env h s) = fh_getAllBytes w f h.
Proof.
  intros Q E. set (p := fh_path h) in *. unfold getAllBytes_i, fh_getAllBytes. fold p. pose proof (open_read_eq p s f Q E) as V1. pose proof (open_read_looks p s _ Q) as E1.
  destruct (open_read w env p s) as [s1 o]. cbn in V1, E1. subst o. destruct (f (loc p)) as [c|] eqn:F; [|reflexivity]. destruct (w_read w p); [|reflexivity].
  assert (snd s1 (loc p) = f (loc p)) as F1 by congruence.
  pose proof (later_eq p c s1 f Q F1) as V2. pose proof (later_looks p c s1 _ Q) as E2. destruct (later w env p c s1) as [s2 x]. cbn in V2, E2. rewrite F in V2. subst x.
  assert (snd s2 (loc p) = f (loc p)) as F2 by congruence.
  pose proof (later_eq p c s2 f Q F2) as V3. destruct (later w env p c s2) as [s3 y]. cbn in V3. rewrite F in V3. subst y. reflexivity.
Qed.
Lemma handler_path f p h : getFileHandler w f p = Ret (inr h) -> fh_path h = p.
Proof.
  unfold getFileHandler. destruct (isValidPath w f p true) as [[e|u]|e|c|] eqn:V; cbn [dbind noexcept]; try discriminate.
  unfold newFileHandler. rewrite V. cbn [bind]. rewrite <- update_eq. destruct (update_sized _ _ _) as [h0|e|c|] eqn:U; cbn; try discriminate.
  - intros E. injection E as <-. exact (update_path _ _ _ _ U).
  - destruct e; discriminate.
Qed.

Lemma select_looks a p : looks (selectFile_i w env a p).
Proof.
  intros s l Q. unfold selectFile_i. pose proof (handler_looks p s l Q) as E1. destruct (getFileHandler_i w env p s) as [s1 [[e|h]|e|c|]]; try exact E1.
  destruct (fh_empty h); [exact E1|]. pose proof (header_looks 0 h s1 l Q) as E2. destruct (getDataHeader_i w env 0 h s1) as [s2 [[e|d]|e|c|]]; cbn in *; congruence.
Qed.
Lemma select_eq a p (s : st) (f : fs) : left_alone env (loc p) -> snd s (loc p) = f (loc p) -> snd (selectFile_i w env a p s) = selectFile w a f p.
Proof.
  intros Q E. unfold selectFile_i, selectFile. pose proof (handler_eq p s f Q E) as V1. pose proof (handler_looks p s _ Q) as E1.
  destruct (getFileHandler_i w env p s) as [s1 r]. cbn in V1, E1. subst r. destruct (getFileHandler w f p) as [[e|h]|e|c|] eqn:G; cbn [bind noexcept]; try reflexivity.
  destruct (fh_empty h); [reflexivity|]. apply handler_path in G. subst p.
  pose proof (header_eq 0 h s1 f Q ltac:(congruence)) as V2. destruct (getDataHeader_i w env 0 h s1) as [s2 r]. cbn in V2. subst r.
  destruct (fh_getDataHeader w f 0 h) as [[e|d]|e|c|]; reflexivity.
Qed.
Lemma relevant_looks mode dir names : forall i ret, looks (relevant_i w env i mode dir names ret).
Proof.
  induction names as [|n rest IH0]; intros i ret s l Q; cbn [relevant_i]; [reflexivity|].
  assert (forall i r, looks (count_up_i i (relevant_i w env (S i) mode dir rest r))) as IH by (intros i0 r0 s0 l0 Q0; unfold count_up_i; destruct (N.of_nat i0 =? INT_MAX); [reflexivity|apply IH0, Q0]).
  pose proof (handler_looks (join dir n) s l Q) as E1. destruct (getFileHandler_i w env (join dir n) s) as [s1 [[e|h]|e|c|]]; try exact E1.
  - cbn in E1. rewrite <- E1. apply IH, Q.
  - cbn in E1. destruct (fh_empty h); [rewrite <- E1; apply IH, Q|].
    pose proof (isHeader_looks i mode h s1 l Q) as E2. destruct (isDataHeader_i w env i mode h s1) as [s2 [r|e|c|]]; cbn in *; try congruence.
    rewrite <- E1, <- E2. apply IH, Q.
Qed.
Lemma relevant_eq mode dir names (f : fs) : (forall n, In n names -> left_alone env (loc (join dir n))) ->
  forall i ret (s : st), (forall n, In n names -> snd s (loc (join dir n)) = f (loc (join dir n))) ->
  snd (relevant_i w env i mode dir names ret s) = relevant_loop w f i mode dir names ret.
Proof.
  induction names as [|n rest IH0]; intros Q i ret s E; cbn [relevant_i relevant_loop]; [reflexivity|].
  assert (forall i r s, (forall n, In n rest -> left_alone env (loc (join dir n))) -> (forall n, In n rest -> snd s (loc (join dir n)) = f (loc (join dir n))) ->
    snd (count_up_i i (relevant_i w env (S i) mode dir rest r) s) = count_up i (relevant_loop w f (S i) mode dir rest r)) as IH
    by (intros i0 r0 s0 Q0 E0; unfold count_up_i, count_up; destruct (N.of_nat i0 =? INT_MAX); [reflexivity|apply IH0; assumption]).
  pose proof (handler_eq (join dir n) s f (Q n (or_introl eq_refl)) (E n (or_introl eq_refl))) as V1.
  assert (forall m, In m (n :: rest) -> snd (fst (getFileHandler_i w env (join dir n) s)) (loc (join dir m)) = f (loc (join dir m))) as E1.
  { intros m M. rewrite handler_looks by (apply Q, M). apply E, M. }
  destruct (getFileHandler_i w env (join dir n) s) as [s1 r]. cbn in V1, E1. subst r. destruct (getFileHandler w f (join dir n)) as [[e|h]|e|c|] eqn:G; cbn [bind]; try reflexivity.
  - apply IH; intros m M; [apply Q|apply E1]; right; exact M.
  - destruct (fh_empty h); cbn [bind]; [apply IH; intros m M; [apply Q|apply E1]; right; exact M|].
    pose proof (handler_path f (join dir n) h G) as Ph.
    pose proof (isHeader_eq i mode h s1 f ltac:(rewrite Ph; apply Q; left; reflexivity) ltac:(rewrite Ph; apply E1; left; reflexivity)) as V2.
    assert (forall m, In m (n :: rest) -> snd (fst (isDataHeader_i w env i mode h s1)) (loc (join dir m)) = f (loc (join dir m))) as E2.
    { intros m M. rewrite isHeader_looks by (apply Q, M). apply E1, M. }
    destruct (isDataHeader_i w env i mode h s1) as [s2 r]. cbn in V2, E2. subst r. destruct (fh_isDataHeader w f i mode h) as [r|e|c|]; cbn [bind]; try reflexivity.
    apply IH; intros m M; [apply Q|apply E2]; right; exact M.
Qed.
Lemma list_looks mode dir : looks (getRelevantFileNames_i w env mode dir).
Proof.
  intros s l Q. unfold getRelevantFileNames_i. destruct (getAllEncFileNames w dir) as [[e|names]|e|c|]; try reflexivity.
  pose proof (relevant_looks mode dir names 0 [] s l Q) as E. destruct (relevant_i w env 0 mode dir names [] s). exact E.
Qed.
Lemma list_eq mode dir (s : st) (f : fs) :
  (forall names n, getAllEncFileNames w dir = Ret (inr names) -> In n names -> left_alone env (loc (join dir n)) /\ snd s (loc (join dir n)) = f (loc (join dir n))) ->
  snd (getRelevantFileNames_i w env mode dir s) = getRelevantFileNames w f mode dir.
Proof.
  intros Q. unfold getRelevantFileNames_i, getRelevantFileNames. destruct (getAllEncFileNames w dir) as [[e|names]|e|c|]; try reflexivity.
  pose proof (relevant_eq mode dir names f (fun n M => proj1 (Q names n eq_refl M)) 0 [] s (fun n M => proj2 (Q names n eq_refl M))) as E.
  destruct (relevant_i w env 0 mode dir names [] s). cbn in E. subst. reflexivity.
Qed.

(** parts of a call that change at most the file [l0] *)
Definition touches {A} (l0 : N) (m : st -> st * A) : Prop := forall s l, l <> l0 -> left_alone env l -> snd (fst (m s)) l = snd s l.
Lemma upd_other f l v k : k <> l -> upd f l v k = f k.
Proof. intros H. unfold upd. apply N.eqb_neq in H. rewrite H. reflexivity. Qed.
Lemma upd_same f l v : upd f l v l = v.
Proof. unfold upd. rewrite N.eqb_refl. reflexivity. Qed.
Lemma open_write_touches p : touches (loc p) (open_write w env p).
Proof. intros s l H Q. unfold open_write. cbn. match goal with |- (if ?b then _ else _) _ = _ => destruct b end; [rewrite upd_other by exact H|]; apply Q. Qed.
Lemma open_write_eq p (s : st) (f : fs) : left_alone env (loc p) -> snd s (loc p) = f (loc p) ->
  let ok := match f (loc p) with Some _ => w_write w p | None => w_create w p end in
  snd (open_write w env p s) = ok /\ snd (fst (open_write w env p s)) (loc p) = if ok then Some [] else f (loc p).
Proof.
  intros Q E. cbv zeta. unfold open_write, at_. cbn. rewrite Q, E. split; [reflexivity|]. match goal with |- (if ?b then _ else _) _ = _ => destruct b end; [apply upd_same|]. rewrite Q. exact E.
Qed.
Lemma create_touches p : touches (loc p) (createFile_i w env p).
Proof.
  intros s l H Q. unfold createFile_i. pose proof (validPath_looks p false s l Q) as E1. destruct (isValidPath_i w env p false s) as [s1 [[e|u]|e|c|]]; try exact E1.
  pose proof (open_write_touches p s1 l H Q) as E2. destruct (open_write w env p s1) as [s2 ok]. cbn in *. congruence.
Qed.
Lemma create_eq p (s : st) (f : fs) : left_alone env (loc p) -> snd s (loc p) = f (loc p) ->
  snd (createFile_i w env p s) = snd (fh_createFile w f p) /\ snd (fst (createFile_i w env p s)) (loc p) = fst (fh_createFile w f p) (loc p).
Proof.
  intros Q E. unfold createFile_i, fh_createFile. pose proof (validPath_eq p false s f Q E) as V1. pose proof (validPath_looks p false s _ Q) as E1.
  destruct (isValidPath_i w env p false s) as [s1 r]. cbn in V1, E1. subst r. destruct (isValidPath w f p false) as [[e|u]|e|c|] eqn:V; cbn [fst snd]; try (split; congruence).
  assert (f (loc p) = None) as F.
  { revert V. unfold isValidPath, exists_. destruct (lenN p =? 0); [discriminate|]. destruct (negb _); [discriminate|]. destruct (w_stat w p); cbn; [|discriminate].
    destruct (f (loc p)); [discriminate|reflexivity]. }
  destruct (open_write_eq p s1 f Q ltac:(congruence)) as (V2 & V3). destruct (open_write w env p s1) as [s2 ok]. cbn in V2, V3. rewrite F in V2, V3. subst ok. cbn [fst snd]. split; [destruct (w_create w p); reflexivity|].
  etransitivity; [exact V3|]. destruct (w_create w p); cbn; [rewrite upd_same; reflexivity|congruence].
Qed.
Lemma delete_touches a h : a_file a = Some h -> touches (loc (fh_path h)) (deleteFile_i w env a).
Proof.
  intros Ha s l H Q. unfold deleteFile_i. rewrite Ha. destruct (negb _); [reflexivity|]. destruct (at_ w (fh_path h) _); cbn; [rewrite upd_other by exact H|]; apply Q.
Qed.
Lemma delete_eq a h (s : st) (f : fs) : a_file a = Some h -> left_alone env (loc (fh_path h)) -> snd s (loc (fh_path h)) = f (loc (fh_path h)) ->
  snd (deleteFile_i w env a s) = snd (deleteFile w a f) /\ snd (fst (deleteFile_i w env a s)) (loc (fh_path h)) = fst (deleteFile w a f) (loc (fh_path h)).
Proof.
  intros Ha Q E. unfold deleteFile_i, deleteFile, at_. rewrite Ha. destruct (negb _); [auto|]. rewrite Q, E.
  destruct (f (loc (fh_path h))) eqn:F; cbn; [rewrite !upd_same; auto|]. rewrite Q. rewrite F. auto.
Qed.

(** writing in pieces *)
Lemma overwrite_end x c : overwrite (lenN c) x c = c ++ x.
Proof. unfold overwrite. rewrite takeN_all by lia. rewrite N.sub_diag. cbn. rewrite dropN_all by lia. rewrite app_nil_r. reflexivity. Qed.
Lemma pieces_touches p cuts : forall off data (s : st) l, l <> loc p -> left_alone env l -> snd (write_pieces w env cuts p off data s) l = snd s l.
Proof.
  assert (forall off x (s : st) l, l <> loc p -> left_alone env l -> snd (change env (write_at w p off x) s) l = snd s l) as K.
  { intros off x s l H Q. unfold change, write_at. cbn. destruct (at_ w p _); [rewrite upd_other by exact H|]; apply Q. }
  induction cuts as [|k r IH]; intros off data s l H Q; cbn [write_pieces]; [apply K; assumption|]. rewrite IH by assumption. apply K; assumption.
Qed.
Lemma pieces_eq p cuts : left_alone env (loc p) -> forall data c (s : st), snd s (loc p) = Some c ->
  snd (write_pieces w env cuts p (lenN c) data s) (loc p) = Some (c ++ data).
Proof.
  intros Q. assert (forall x c (s : st), snd s (loc p) = Some c -> snd (change env (write_at w p (lenN c) x) s) (loc p) = Some (c ++ x)) as K.
  { intros x c s E. unfold change, write_at, at_. cbn. rewrite Q, E, upd_same, overwrite_end. reflexivity. }
  induction cuts as [|k r IH]; intros data c s E; cbn [write_pieces]; [apply K; assumption|].
  replace (lenN c + lenN (takeN k data)) with (lenN (c ++ takeN k data)) by apply lenN_app. rewrite (IH (dropN k data) (c ++ takeN k data)) by (apply K; exact E).
  rewrite <- app_assoc, takeN_dropN. reflexivity.
Qed.
Lemma finish_touches cuts a p : touches (loc p) (finishWrite_i w env cuts a p).
Proof. intros s l H Q. unfold finishWrite_i. destruct (noexcept (fullData a)); try reflexivity. apply pieces_touches; assumption. Qed.
Lemma finish_eq cuts a p (s : st) (f : fs) : left_alone env (loc p) -> snd s (loc p) = Some [] -> f (loc p) = Some [] ->
  snd (finishWrite_i w env cuts a p s) = snd (finishWrite w a f p) /\ snd (fst (finishWrite_i w env cuts a p s)) (loc p) = fst (finishWrite w a f p) (loc p).
Proof.
  intros Q E F. unfold finishWrite_i, finishWrite. destruct (noexcept (fullData a)) as [t|e|c|]; cbn; try (rewrite E, F; auto).
  split; [reflexivity|]. change 0 with (lenN (@nil byte)). rewrite (pieces_eq p cuts Q (takeN (w_room w) (bdata t)) [] s E). unfold write_stream. rewrite upd_same. reflexivity.
Qed.
Lemma writeStream_touches h s l : l <> loc (fh_path h) -> left_alone env l -> snd (snd (fst (getWriteStream_i w env h s))) l = snd s l.
Proof.
  intros H Q. unfold getWriteStream_i. pose proof (validPath_looks (fh_path h) true s l Q) as E1. destruct (isValidPath_i w env (fh_path h) true s) as [s1 [[e|u]|e|c|]]; try exact E1.
  pose proof (open_write_touches (fh_path h) s1 l H Q) as E2. destruct (open_write w env (fh_path h) s1) as [s2 ok]. cbn in *. congruence.
Qed.
Lemma validPath_exists f p u : isValidPath w f p true = Ret (inr u) -> exists c, f (loc p) = Some c.
Proof.
  unfold isValidPath, exists_. destruct (lenN p =? 0); [discriminate|]. destruct (negb _); [discriminate|]. destruct (w_stat w p); cbn; [|discriminate].
  destruct (f (loc p)) as [c|]; [eauto|discriminate].
Qed.
Lemma writeStream_eq h (s : st) (f : fs) : left_alone env (loc (fh_path h)) -> snd s (loc (fh_path h)) = f (loc (fh_path h)) ->
  exists s', getWriteStream_i w env h s = (fst (fst (fh_getWriteStream w f h)), s', snd (fh_getWriteStream w f h)) /\
  snd s' (loc (fh_path h)) = snd (fst (fh_getWriteStream w f h)) (loc (fh_path h)) /\
  (forall u, snd (fh_getWriteStream w f h) = Ret (inr u) -> snd s' (loc (fh_path h)) = Some []).
Proof.
  intros Q E. unfold getWriteStream_i, fh_getWriteStream. pose proof (validPath_eq (fh_path h) true s f Q E) as V1. pose proof (validPath_looks (fh_path h) true s _ Q) as E1.
  destruct (isValidPath_i w env (fh_path h) true s) as [s1 r]. cbn in V1, E1. subst r.
  destruct (isValidPath w f (fh_path h) true) as [[e|u]|e|c|] eqn:V; try (eexists; split; [reflexivity|]; cbn; split; [congruence|intros ? X; discriminate X]).
  apply validPath_exists in V. destruct V as [c F].
  destruct (open_write_eq (fh_path h) s1 f Q ltac:(congruence)) as (V2 & V3). destruct (open_write w env (fh_path h) s1) as [s2 ok]. cbn in V2, V3. rewrite F in V2, V3. subst ok.
  destruct (w_write w (fh_path h)); (eexists; split; [reflexivity|]); cbn.
  - rewrite upd_same. auto.
  - split; [congruence|]. intros ? X; discriminate X.
Qed.
Lemma update_i_path p s s' h : update_i w env p s = (s', Ret h) -> fh_path h = p.
Proof.
  unfold update_i. destruct (open_read w env p s) as [s1 [c|]].
  - destruct (later w env p c s1) as [s2 x]. destruct (later w env p x s2) as [s3 y]. intros E. injection E as _ E. exact (update_path _ _ _ _ E).
  - intros E. injection E as _ E. subst h. reflexivity.
Qed.
Lemma handler_i_path p s s' h : getFileHandler_i w env p s = (s', Ret (inr h)) -> fh_path h = p.
Proof.
  unfold getFileHandler_i. destruct (isValidPath_i w env p true s) as [s0 [[e|u]|e|c|]]; try discriminate.
  unfold newFileHandler_i. destruct (isValidPath_i w env p true s0) as [s2 [[e|u']|e|c|]]; try discriminate.
  - destruct (update_i w env p s2) as [s3 r] eqn:U. destruct r as [h0|e|c|]; cbn; try discriminate; [|destruct e; discriminate].
    intros E. injection E as _ <-. exact (update_i_path _ _ _ _ U).
  - destruct e; discriminate.
Qed.
Lemma writeTo_touches cuts a p : touches (loc p) (writeToPath_i w env cuts a p).
Proof.
  intros s l H Q. unfold writeToPath_i. pose proof (handler_looks p s l Q) as E1. destruct (getFileHandler_i w env p s) as [s1 [[e|h]|e|c|]] eqn:G; try exact E1.
  pose proof (handler_i_path p s s1 h G) as Ph.
  unfold getWriteStreamIfEmpty_i. destruct (fh_empty h); [|exact E1].
  pose proof (writeStream_touches h s1 l ltac:(rewrite Ph; exact H) Q) as E2. destruct (getWriteStream_i w env h s1) as [[h' s2] [[e|u]|e|c|]]; cbn in *; try congruence.
  rewrite finish_touches by assumption. congruence.
Qed.
Lemma write_touches cuts a h : a_file a = Some h -> touches (loc (fh_path h)) (writeToFile_i w env cuts a).
Proof.
  intros Ha s l H Q. unfold writeToFile_i. rewrite Ha. pose proof (writeStream_touches h s l H Q) as E2.
  destruct (getWriteStream_i w env h s) as [[h' s2] [[e|u]|e|c|]]; cbn in *; try congruence. rewrite finish_touches by assumption. congruence.
Qed.
Lemma writeTo_eq cuts a p (s : st) (f : fs) : left_alone env (loc p) -> snd s (loc p) = f (loc p) ->
  snd (writeToPath_i w env cuts a p s) = snd (writeToPath w a f p) /\ snd (fst (writeToPath_i w env cuts a p s)) (loc p) = fst (writeToPath w a f p) (loc p).
Proof.
  intros Q E. unfold writeToPath_i, writeToPath. pose proof (handler_eq p s f Q E) as V1. pose proof (handler_looks p s _ Q) as E1.
  destruct (getFileHandler_i w env p s) as [s1 r]. cbn in V1, E1. subst r. destruct (getFileHandler w f p) as [[e|h]|e|c|] eqn:G; cbn [fst snd]; try (split; congruence).
  apply handler_path in G. unfold getWriteStreamIfEmpty_i, fh_getWriteStreamIfEmpty. destruct (fh_empty h); [|cbn; split; congruence]. subst p.
  destruct (writeStream_eq h s1 f Q ltac:(congruence)) as (s2 & W1 & W2 & W3). rewrite W1. destruct (fh_getWriteStream w f h) as [[h' f'] r]. cbn in *.
  destruct r as [[e|u]|e|c|]; cbn; try (split; congruence). specialize (W3 u eq_refl). apply finish_eq; [exact Q|exact W3|congruence].
Qed.
Lemma write_eq cuts a h (s : st) (f : fs) : a_file a = Some h -> left_alone env (loc (fh_path h)) -> snd s (loc (fh_path h)) = f (loc (fh_path h)) ->
  snd (writeToFile_i w env cuts a s) = snd (writeToFile w a f) /\ snd (fst (writeToFile_i w env cuts a s)) (loc (fh_path h)) = fst (writeToFile w a f) (loc (fh_path h)).
Proof.
  intros Ha Q E. unfold writeToFile_i, writeToFile. rewrite Ha. destruct (writeStream_eq h s f Q E) as (s2 & W1 & W2 & W3). rewrite W1.
  destruct (fh_getWriteStream w f h) as [[h' f'] r]. cbn in *. destruct r as [[e|u]|e|c|]; cbn; try (split; congruence).
  specialize (W3 u eq_refl). apply finish_eq; [exact Q|exact W3|congruence].
Qed.
End Facts.
