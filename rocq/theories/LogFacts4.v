(** Lemmas for C97: every call of the API object. *)
From Coq Require Import Strings.String.
From Coq Require Import Lia.
From Verif Require Import Base BytesModel MiscModel CipherModel PwModel ChModel HeaderModel HeaderSpec FileModel ApiModel ApiSpec LogModel LogSpec LogFacts1 LogFacts2 LogFacts3.
Open Scope N_scope.
Open Scope list_scope.

(** ** verifyPassword *)
Definition differ {A} (x y : outcome (lerr + A)) : Prop := exists k e, x = Ret (inr k) /\ y = Ret (inl e) /\ e_code e = ERR_PASSWORD_INVALID.
Definition vrel {A} (R : A -> A -> Prop) (m m' : lres A) : Prop := lrel (rrel R) m m' \/ differ (snd m) (snd m') \/ differ (snd m') (snd m).
Lemma vrel_bind {A B} (R : A -> A -> Prop) (S : B -> B -> Prop) (m m' : lres A) k k' :
  lrel (rrel R) m m' -> (forall x y, R x y -> vrel S (k x) (k' y)) -> vrel S (bindr m k) (bindr m' k').
Proof.
  intros M K. destruct m as [l [[e|x]|e|c|]], m' as [l' [[e'|x']|e'|c'|]]; destruct M as [ML MO]; cbn in ML, MO; try tauto.
  - left. subst e'. unfold bindr, bindl; cbn. split; cbn; [rewrite !map_app; congruence | reflexivity].
  - destruct (K _ _ MO) as [[L O]|D].
    + left. unfold bindr, bindl; cbn. split; cbn; [rewrite !map_app; congruence | exact O].
    + right. unfold bindr, bindl; cbn. exact D.
  - left. unfold bindr, bindl; cbn. split; cbn; auto.
  - left. unfold bindr, bindl; cbn. split; cbn; auto.
  - left. unfold bindr, bindl; cbn. split; cbn; auto.
Qed.
Lemma vrel_bind_eq {A B} (S : B -> B -> Prop) (m : lres A) k k' : (forall x, vrel S (k x) (k' x)) -> vrel S (bindr m k) (bindr m k').
Proof. intro K. eapply vrel_bind; [apply rrel_eq | ]. intros x ? <-. apply K. Qed.
Lemma check_like w d e pw pw' t : hashes_ok (w_hashes w) -> header_like d e -> vrel sized (checkPassword_l w d pw t) (checkPassword_l w e pw' t).
Proof.
  intros HO L. unfold checkPassword_l. eapply vrel_bind; [apply lrel_lift, parts_l_like, L | intros p q P].
  rewrite (hashMode_like _ _ P). apply vrel_bind_eq; intro hm.
  eapply vrel_bind with (R := fun x y => x = y /\ hlen x).
  { apply lrel_lift. split; [reflexivity | ]. cbn [snd getHash_l]. pose proof (getHash_hlen (w_hashes w) hm) as G. destruct (getHash (w_hashes w) hm); cbn; eauto. }
  intros h ? [<- HL]. pose proof P as [_ [_ [_ [_ [_ [_ [G H]]]]]]]. rewrite G, H.
  eapply vrel_bind; [apply lrel_lift, perform_sl_like, HL | intros r r' R]. destruct r as [k|], r' as [k'|]; cbn in R; try tauto; [ | left; split; reflexivity].
  cbv zeta. destruct (_ && _); [left; split; reflexivity | ].
  eapply vrel_bind; [apply lrel_lift, perform_bl_like; eassumption | intros s s' S]. destruct s as [v|], s' as [v'|]; cbn in S; try tauto; [ | left; split; reflexivity].
  eapply vrel_bind; [apply lrel_lift, lrel_trouble, valid_like, P | intros pv pv' PV].
  destruct (eqBytes v pv), (eqBytes v' pv').
  - left. split; [reflexivity | exact R].
  - right. left. unfold differ; cbn. eauto.
  - right. right. unfold differ; cbn. eauto.
  - left. split; reflexivity.
Qed.
Lemma catch_differ {A} h (m m' : lres A) : differ (snd m) (snd m') -> differ (snd (catch_l h m)) (snd (catch_l h m')).
Proof. intros (k & e & A1 & A2 & A3). unfold catch_l. rewrite A1, A2. cbn. exists k, e. auto. Qed.
Lemma vrel_catch {A} (R : A -> A -> Prop) h (m m' : lres A) : vrel R m m' -> vrel R (catch_l h m) (catch_l h m').
Proof. intros [L|[D|D]]; [left; apply lrel_catch, L | right; left | right; right]; apply catch_differ, D. Qed.
Lemma bindl_ret {A B} l (x : A) (k : A -> logm B) : bindl (l, Ret x) k = (l ++ fst (k x), snd (k x)).
Proof. reflexivity. Qed.
Lemma verify_like w a b pw pw' t a1 r1 b1 r2 : hashes_ok (w_hashes w) -> api_like a b ->
  snd (verifyPassword_l w a pw t) = Ret (a1, r1) -> snd (verifyPassword_l w b pw' t) = Ret (b1, r2) -> r1 = r2 ->
  lrel done_like (verifyPassword_l w a pw t) (verifyPassword_l w b pw' t).
Proof.
  intros HO L. unfold verifyPassword_l. intros E1 E2 <-. apply lrel_noexcept. rewrite noexcept_bind_l, snd_say in E1, E2.
  apply lrel_bind_eq; intro u. pose proof L as [A [B [C [E [F [G H]]]]]].
  destruct (a_dh a) as [d|], (a_dh b) as [d'|]; cbn in G; try tauto; [ | split; reflexivity]. unfold silent at 1, ptr at 1 in E1. unfold silent at 1, ptr at 1 in E2.
  rewrite bindl_ret in E1, E2. cbn [fst snd app] in E1, E2. eapply lrel_bind with (R := fun x y => x = d /\ y = d'); [split; cbn; auto | intros ? ? [-> ->]].
  destruct (vrel_catch sized (handle_std (fun e => [api_line SError 489 [What e]]) ERR []) _ _ (check_like w d d' pw pw' t HO G)) as [V|D].
  - eapply (lrel_after (A := Bytes) sized _ _ (fun r => match r with inl e => silent (Ret (a, failed (e_code e))) | inr k => _ end) (fun r => match r with inl e => silent (Ret (b, failed (e_code e))) | inr k => _ end)); [exact V | intro; apply lrel_failed, L | ].
    intros x y XY. apply lrel_done. split; cbn; [ | reflexivity]. unfold api_like; cbn. auto 10.
  - exfalso. rewrite snd_bindl in E1, E2.
    destruct D as [(k & e & D1 & D2 & D3)|(k & e & D1 & D2 & D3)]; rewrite D1 in *; rewrite D2 in *; cbn in E1, E2; rewrite D3 in *; unfold failed in *; congruence.
Qed.

Lemma lines_cons l ls ls' : map hide ls = map hide ls' -> map hide (l :: ls) = map hide (l :: ls').
Proof. intro E. cbn [map]. rewrite E. reflexivity. Qed.
(** ** The files *)
Lemma files_refl f : files_like f f.
Proof. intro l. reflexivity. Qed.
Lemma finish_like w a b f p : api_like a b ->
  ends_like (snd (finishWrite w a f p)) (snd (finishWrite w b f p)) /\ finish_lines a = finish_lines b /\ files_like (fst (finishWrite w a f p)) (fst (finishWrite w b f p)).
Proof.
  intro L. pose proof (fullData_like _ _ L) as FD. unfold finishWrite, finish_lines.
  destruct (fullData a) as [x|x|x|], (fullData b) as [y|y|y|]; cbn in FD; try tauto; cbn [noexcept fst snd low_lines].
  - destruct L as [A [B [C [E [F [G H]]]]]]. split; [split; [unfold api_like; cbn; auto 10 | reflexivity] | split; [reflexivity | ]].
    intro l. unfold write_stream, upd. destruct (_ =? _); [ | reflexivity]. cbn. f_equal. unfold takeN, lenN. rewrite !firstn_length. destruct FD as [FD _]. unfold lenN in FD. lia.
  - subst y. repeat split.
  - subst y. repeat split.
  - repeat split.
Qed.

Lemma op_like_refl o : op_like o o.
Proof. destruct o; cbn; auto. apply opt_refl, data_refl. Qed.
Lemma lrel_step {w a b f o o'} (m m' : logm (api * reply)) ls : lrel done_like m m' -> lines_of w a f o = ls ++ fst m -> lines_of w b f o' = ls ++ fst m' ->
  step w a f o = (f, snd m) -> step w b f o' = (f, snd m') ->
  map hide (lines_of w a f o) = map hide (lines_of w b f o') /\ ends_like (snd (step w a f o)) (snd (step w b f o')) /\ files_like (fst (step w a f o)) (fst (step w b f o')) /\
  (is_write o = false -> fst (step w a f o) = fst (step w b f o')).
Proof.
  intros [L O] -> -> -> ->. cbn [fst snd]. repeat split; auto.
  - rewrite !map_app. congruence.
  - apply ends_orel, O.
Qed.
Lemma plain_step {w a b f o o'} f' x y : api_like a b -> lines_of w a f o = lines_of w b f o' -> step w a f o = (f', x) -> step w b f o' = (f', y) -> ends_like x y ->
  map hide (lines_of w a f o) = map hide (lines_of w b f o') /\ ends_like (snd (step w a f o)) (snd (step w b f o')) /\ files_like (fst (step w a f o)) (fst (step w b f o')) /\
  (is_write o = false -> fst (step w a f o) = fst (step w b f o')).
Proof. intros L -> -> -> E. cbn [fst snd]. repeat split; auto. Qed.
Ltac like := repeat match goal with |- _ /\ _ => split | |- _ => first [reflexivity | assumption | apply data_refl | apply sized_refl | exact I ] end.
Ltac invs := cbv zeta; cbn [fst snd]; match goal with
  | inv : ends_like (Ret (?a, failed ERR_API_STATE_INVALID)) _ |- _ /\ ends_like (Ret (?a, failed ERR_API_STATE_INVALID)) _ /\ _ =>
    split; [reflexivity | split; [exact inv | split; [apply files_refl | first [discriminate | reflexivity]]]] | |- _ => idtac end.
Theorem step_hides w a b f o o' : hashes_ok (w_hashes w) -> api_like a b -> op_like o o' -> is_verify o = false ->
  map hide (lines_of w a f o) = map hide (lines_of w b f o') /\ ends_like (snd (step w a f o)) (snd (step w b f o')) /\
  files_like (fst (step w a f o)) (fst (step w b f o')) /\ (is_write o = false -> fst (step w a f o) = fst (step w b f o')).
Proof.
  intros HO L OL NV. pose proof L as [A [B [C [E [F [G H]]]]]].
  assert (inv : ends_like (Ret (a, failed ERR_API_STATE_INVALID)) (Ret (b, failed ERR_API_STATE_INVALID))) by (split; [exact L | reflexivity]).
  destruct o, o'; cbn in OL, NV; try discriminate; try (injection OL as ->); try (cbn [op_like] in OL).
  (* list *)
  - unfold lines_of, step; rewrite A, ?B. destruct (a_state b); cbn [fst snd]; invs.
    split; [reflexivity | split; [ | split; [apply files_refl | reflexivity]]].
    destruct (getRelevantFileNames w f (a_mode b) dir0) as [x|x|x|]; cbn; auto. split; auto. destruct x; reflexivity.
  - unfold lines_of, step; rewrite A. destruct (a_state b); cbn [fst snd]; invs.
    destruct (fh_createFile w f p0) as [f' r]. cbn [fst snd]. split; [reflexivity | split; [ | split; [apply files_refl | reflexivity]]].
    destruct r as [x|x|x|]; cbn; auto. split; auto. destruct x; reflexivity.
  - unfold lines_of, step; rewrite A. destruct (a_state b); cbn [fst snd]; invs.
    rewrite <- !select_erase.
    assert (S : lrel done_like (selectFile_l w a f p0) (selectFile_l w b f p0)).
    { unfold selectFile_l. apply lrel_noexcept. apply lrel_bind_eq; intro u.
      eapply (lrel_after (A := handler) eq); [apply lrel_onerr, rrel_eq | intro e; apply lrel_failed, L | intros h ? <-].
      cbv beta iota. destruct (fh_empty h); [apply lrel_done; split; cbn; [ | reflexivity]; unfold api_like; cbn; auto 10 | ].
      eapply (lrel_after (A := dheader) eq); [apply lrel_onerr, rrel_eq | intro e; apply lrel_failed, L | intros d ? <-].
      apply lrel_done; split; cbn; [ | reflexivity]. unfold api_like; cbn. auto 10 using header_refl. }
    destruct S as [S1 S2]. split; [apply lines_cons; exact S1 | split; [apply ends_orel, S2 | split; [apply files_refl | reflexivity]]].
  - unfold lines_of, step; rewrite A. destruct (a_state b); (split; [reflexivity | split; [ | split; [apply files_refl | reflexivity]]]); cbn [snd]; first [exact inv | split; [exact L | reflexivity]].
  - unfold lines_of, step; rewrite A. unfold unselect_lines. rewrite H.
    destruct (a_state b); (split; [reflexivity | split; [ | split; [apply files_refl | reflexivity]]]); cbn [snd]; try exact inv; (split; [unfold api_like; cbn; auto 10 | reflexivity]).
  - unfold lines_of, step; rewrite A. unfold delete_lines, unselect_lines, deleteFile. rewrite H.
    assert (U : ends_like (Ret (unselectFile a, ROk)) (Ret (unselectFile b, ROk))) by (split; [unfold api_like; cbn; auto 10 | reflexivity]).
    assert (V : ends_like (Ret (a, failed ERR_FILE_NOT_DELETED)) (Ret (b, failed ERR_FILE_NOT_DELETED))) by (split; [exact L | reflexivity]).
    destruct (a_state b); cbn [fst snd]; invs;
      (destruct (a_file b) as [h|]; [destruct (negb _); [ | destruct (f (w_loc w (fh_path h)))] | ]); cbn [fst snd];
      (split; [reflexivity | split; [ | split; [apply files_refl | reflexivity]]]); first [exact U | exact V | reflexivity].
  - unfold lines_of, step; rewrite A. destruct (a_state b); cbn [fst snd]; try (split; [reflexivity | split; [first [exact inv | split; [exact L | reflexivity]] | split; [apply files_refl | reflexivity]]]).
    rewrite <- !content_erase.
    assert (S : lrel done_like (getFileContent_l w a f) (getFileContent_l w b f)).
    { unfold getFileContent_l. apply lrel_noexcept. rewrite H. apply lrel_bind_eq; intro h. apply lrel_bind_eq; intro r. apply lrel_silent. cbn. split; cbn; [exact L | ]. destruct r; reflexivity. }
    destruct S as [S1 S2]. split; [apply lines_cons; exact S1 | split; [apply ends_orel, S2 | split; [apply files_refl | reflexivity]]].
  - destruct OL as [-> ->]. unfold lines_of, step; rewrite A. destruct (negb (set_isComplete ds0)); [split; [reflexivity | split; [split; [exact L | reflexivity] | split; [apply files_refl | reflexivity]]] | ].
    destruct (a_state b); cbn [fst snd]; invs.
    + pose proof (lrel_noexcept _ _ _ (headerEmpty_like a b _ _ L (create_like w (a_mode a) pw pw0 ds0 timeout0 HO))) as [S1 S2].
      rewrite noexcept_bind_l in S2. cbn [snd noexcept_l] in S2. rewrite (headerEmpty_erase a _ _ (createIters_erase _ _ _ _ _)), (headerEmpty_erase b _ _ (createIters_erase _ _ _ _ _)) in S2. rewrite B in S1, S2 |- *.
      split; [apply lines_cons; exact S1 | split; [apply ends_orel, S2 | split; [apply files_refl | reflexivity]]].
    + pose proof (lrel_noexcept _ _ _ (headerDecrypted_like a b _ _ L (create_like w (a_mode a) pw pw0 ds0 timeout0 HO))) as [S1 S2].
      rewrite noexcept_bind_l in S2. cbn [snd noexcept_l] in S2. rewrite (headerDecrypted_erase a _ _ (createIters_erase _ _ _ _ _)), (headerDecrypted_erase b _ _ (createIters_erase _ _ _ _ _)) in S2. rewrite B in S1, S2 |- *.
      split; [do 2 apply lines_cons; exact S1 | split; [apply ends_orel, S2 | split; [apply files_refl | reflexivity]]].
  - subst ds0. unfold lines_of, step; rewrite A. destruct (negb (set_isComplete ds)); [split; [reflexivity | split; [split; [exact L | reflexivity] | split; [apply files_refl | reflexivity]]] | ].
    destruct (a_state b); cbn [fst snd]; invs; (split; [reflexivity | split; [reflexivity | split; [apply files_refl | reflexivity]]]).
  - unfold lines_of, step; rewrite A. destruct (a_state b); cbn [fst snd]; invs.
    rewrite <- !salt_erase. destruct (salt_call_like w a b L) as [S1 S2].
    split; [apply lines_cons; exact S1 | split; [apply ends_orel, S2 | split; [apply files_refl | reflexivity]]].
  - unfold lines_of, step; rewrite A. destruct (a_state b); cbn [fst snd]; invs.
    rewrite <- !getDecrypted_erase. destruct (getDecrypted_like w a b f HO L) as [S1 S2].
    split; [apply lines_cons; exact S1 | split; [apply ends_orel, S2 | split; [apply files_refl | reflexivity]]].
  - unfold lines_of, step; rewrite A. unfold fileData_lines, getFileData. destruct (a_state b); cbn [fst snd]; invs.
    destruct (a_fdata a) as [x|], (a_fdata b) as [y|]; cbn in C; try tauto; (split; [reflexivity | split; [ | split; [apply files_refl | reflexivity]]]); (split; [unfold api_like; cbn; auto 10 | first [exact C | reflexivity]]).
  - unfold lines_of, step; rewrite A. destruct (a_state b); cbn [fst snd]; invs.
    rewrite <- !encrypt_erase. destruct (encrypt_like w a b x x0 HO L OL) as [S1 S2].
    split; [apply lines_cons; exact S1 | split; [apply ends_orel, S2 | split; [apply files_refl | reflexivity]]].
  - unfold lines_of, step; rewrite A. destruct (a_state b); cbn [fst snd]; invs.
    unfold writeToFile_lines, writeToFile. rewrite H. destruct (a_file b) as [h|]; [ | split; [reflexivity | split; [reflexivity | split; [apply files_refl | discriminate]]]].
    pose proof (write_stream_erase w f h) as W. unfold erase in W. destruct (fh_getWriteStream w f h) as [[h' f'] r]. cbn [snd] in W.
    assert (L' : api_like (mkApi (a_state a) (a_mode a) (a_fdata a) (a_key a) (a_enc a) (a_dh a) (Some h')) (mkApi (a_state b) (a_mode b) (a_fdata b) (a_key b) (a_enc b) (a_dh b) (Some h'))) by (destruct L as [LA [LB [LC [LE [LF [LG LH]]]]]]; unfold api_like; cbn [a_state a_mode a_fdata a_key a_enc a_dh a_file]; auto 10).
    destruct (finish_like w _ _ f' (fh_path h) L') as [F1 [F2 F3]].
    assert (F4 : finish_lines a = finish_lines b) by (exact (proj1 (proj2 (finish_like w _ _ f' (fh_path h) L)))).
    cbn [map]. rewrite F4. split; [reflexivity | ].
    destruct (snd (write_stream_l w f h)) as [[e|u]|e|c|]; cbn [bind] in W; subst r; cbn [fst snd]; cbv zeta beta iota.
    + split; [split; [exact L' | reflexivity] | split; [apply files_refl | discriminate]].
    + split; [exact F1 | split; [exact F3 | discriminate]].
    + split; [reflexivity | split; [apply files_refl | discriminate]].
    + split; [reflexivity | split; [apply files_refl | discriminate]].
    + split; [exact I | split; [apply files_refl | discriminate]].
  - unfold lines_of, step; rewrite A. destruct (a_state b); cbn [fst snd]; invs.
    unfold writeToPath_lines, writeToPath. pose proof (getFileHandler_erase w f p0) as W. unfold erase in W. cbv zeta.
    destruct (snd (getFileHandler_l w f p0)) as [[e|h]|e|c|]; cbn [bind] in W; rewrite <- W.
    + split; [reflexivity | split; [split; [exact L | reflexivity] | split; [apply files_refl | discriminate]]].
    + assert (F4 : finish_lines a = finish_lines b) by (exact (proj1 (proj2 (finish_like w _ _ f p0 L)))). rewrite F4. split; [reflexivity | ].
      destruct (fh_getWriteStreamIfEmpty w f h) as [[h' f'] r]. destruct (finish_like w _ _ f' p0 L) as [F1 [F2 F3]].
      destruct r as [[e|u]|e|c|]; cbn [fst snd].
      * split; [split; [exact L | reflexivity] | split; [apply files_refl | discriminate]].
      * split; [exact F1 | split; [exact F3 | discriminate]].
      * split; [reflexivity | split; [apply files_refl | discriminate]].
      * split; [reflexivity | split; [apply files_refl | discriminate]].
      * split; [exact I | split; [apply files_refl | discriminate]].
    + split; [reflexivity | split; [reflexivity | split; [apply files_refl | discriminate]]].
    + split; [reflexivity | split; [reflexivity | split; [apply files_refl | discriminate]]].
    + split; [reflexivity | split; [exact I | split; [apply files_refl | discriminate]]].
  - unfold lines_of, step; cbn [fst snd]; rewrite B; (split; [reflexivity | split; [split; [apply api_refl | reflexivity] | split; [apply files_refl | reflexivity]]]).
  - unfold lines_of, step; cbn [fst snd]; rewrite B; (split; [reflexivity | split; [split; [apply api_refl | reflexivity] | split; [apply files_refl | reflexivity]]]).
Qed.

(** ** Sessions *)
Lemma is_verify_like o o' : op_like o o' -> is_verify o = is_verify o'.
Proof. destruct o, o'; cbn; intro H; try reflexivity; try discriminate. Qed.
Lemma reply_like_eq r r' : reply_like r r' -> (exists x y, r = RData x /\ r' = RData y) \/ r = r'.
Proof. destruct r, r'; cbn; intro H; eauto. Qed.
Lemma verify_no_data w a pw t b x : snd (verifyPassword_l w a pw t) = Ret (b, RData x) -> False.
Proof.
  rewrite verify_erase. unfold verifyPassword. destruct (noexcept _) eqn:E; [ | discriminate.. ].
  intro Q. injection Q as ->. destruct (ptr (a_dh a)); [ | discriminate.. ]. cbn [bind] in E.
  destruct (catch_std _ _) as [[?|?]|?|?|]; cbn in E; discriminate.
Qed.
Theorem call_hides w a b f o o' a1 r1 b1 r2 : hashes_ok (w_hashes w) -> api_like a b -> op_like o o' ->
  snd (step w a f o) = Ret (a1, r1) -> snd (step w b f o') = Ret (b1, r2) -> reply_like r1 r2 ->
  map hide (lines_of w a f o) = map hide (lines_of w b f o') /\ api_like a1 b1.
Proof.
  intros HO L OL S1 S2 R. destruct (is_verify o) eqn:V.
  - destruct o, o'; cbn in OL, V; try discriminate. subst timeout0. unfold lines_of, step in *. pose proof L as [A _]. rewrite A in *.
    assert (X : forall s t, Ret (a, failed s) = Ret (a1, t) -> Ret (b, failed s) = Ret (b1, r2) -> api_like a1 b1) by (intros s t E1 E2; injection E1 as <- <-; injection E2 as <- <-; exact L).
    destruct (a_state b); cbn [fst snd] in S1, S2; try (split; [reflexivity | eapply X; eassumption]).
    rewrite <- verify_erase in S1, S2.
    destruct (reply_like_eq _ _ R) as [(x & y & -> & ->)|E]; [destruct (verify_no_data _ _ _ _ _ _ S1) | ].
    destruct (verify_like w a b pw pw0 timeout a1 r1 b1 r2 HO L S1 S2 E) as [P Q].
    rewrite S1, S2 in Q. split; [apply lines_cons; exact P | exact (proj1 Q)].
  - destruct (step_hides w a b f o o' HO L OL V) as [P [Q _]]. rewrite S1, S2 in Q. split; [exact P | exact (proj1 Q)].
Qed.
Theorem session_hides calls calls' a b ls rs a1 ls' rs' b1 : Forall2 calls_like calls calls' -> api_like a b ->
  Forall (fun c => hashes_ok (w_hashes (fst (fst c)))) calls ->
  session calls a = Some (ls, rs, a1) -> session calls' b = Some (ls', rs', b1) -> Forall2 reply_like rs rs' ->
  map hide ls = map hide ls' /\ api_like a1 b1.
Proof.
  intro F. revert a b ls rs ls' rs'. induction F as [|[[w f] o] [[w' f'] o'] r r' [E OL] F IH]; intros a b ls rs ls' rs' L HO S1 S2 R; cbn [session] in S1, S2.
  - injection S1 as <- <- <-. injection S2 as <- <- <-. auto.
  - cbn in E, OL. injection E as <- <-. inversion HO as [|? ? HO1 HO2]; subst. cbn in HO1.
    destruct (snd (step w a f o)) as [[a2 x]| | |] eqn:Q1; try discriminate. destruct (session r a2) as [[[l2 x2] c2]|] eqn:Q2; try discriminate. injection S1 as <- <- <-.
    destruct (snd (step w b f o')) as [[b2 y]| | |] eqn:Q3; try discriminate. destruct (session r' b2) as [[[l3 x3] c3]|] eqn:Q4; try discriminate. injection S2 as <- <- <-.
    inversion R as [|? ? ? ? R1 R2]; subst. destruct (call_hides w a b f o o' a2 x b2 y HO1 L OL Q1 Q3 R1) as [P L2].
    destruct (IH a2 b2 _ _ _ _ L2 HO2 Q2 Q4 R2) as [P2 L3]. split; [ | exact L3]. rewrite !map_app. congruence.
Qed.

(** ** From Info up nothing has to be hidden *)
Definition safe (l : line) : Prop := shows_check l = true -> rank (l_sev l) < rank SInfo.
Lemma hide_id l : shows_check l = false -> hide l = l.
Proof. intro S. destruct l as [s src n fs]. unfold hide, shows_check in *. cbn [l_src l_no l_sev l_fields] in *. f_equal. destruct src; try reflexivity; (destruct n as [|p]; [reflexivity | ]); do 8 (try (destruct p; try reflexivity; try discriminate)). Qed.
Lemma hide_sev l : l_sev (hide l) = l_sev l.
Proof. reflexivity. Qed.
Lemma visible_hide ls : Forall safe ls -> filter (at_least SInfo) (map hide ls) = filter (at_least SInfo) ls.
Proof.
  induction 1 as [|l ls S F IH]; [reflexivity | ]. cbn [map filter]. change (at_least SInfo (hide l)) with (at_least SInfo l). destruct (at_least SInfo l) eqn:E; [ | exact IH].
  rewrite IH. f_equal. apply hide_id. destruct (shows_check l) eqn:Q; [ | reflexivity]. specialize (S Q). unfold at_least in E; apply N.leb_le in E. lia.
Qed.
