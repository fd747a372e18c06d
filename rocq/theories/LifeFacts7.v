From Verif Require Import Base BytesModel MiscModel HeaderModel FileModel ApiModel ApiSpec LifeModel LifeSpec LifeFacts1 LifeFacts2 LifeFacts3 LifeFacts4 LifeFacts5 LifeFacts6.
From Coq Require Import Lia.
Open Scope list_scope.

(** ** The object that was moved from works again after the other one has selected a file *)
Definition tidy (a : api) : Prop :=
  match a_state a with
  | INIT => a = fresh (a_mode a)
  | FILE_SELECTED | EMPTY_FILE_SELECTED => a_fdata a = None /\ a_enc a = None /\ a_key a = mkBytes [] 0
  | _ => True
  end.
Lemma step_tidy w a f o f' a' r : tidy a -> step w a f o = (f', Ret (a', r)) -> tidy a'.
Proof.
  intros K E. destruct (incomplete o) eqn:I; [rewrite step_incomplete in E by exact I; inversion E; subst; auto|].
  destruct (implemented (a_state a) o) eqn:M; [|rewrite step_invalid in E by assumption; inversion E; subst; auto].
  destruct (match o with OLogout | OLogoutMode _ => true | _ => false end) eqn:L.
  { destruct o; try discriminate L; cbn in E; inversion E; subst; reflexivity. }
  destruct o; try discriminate L; clear L; cbn [step] in E; cbn [incomplete] in I; rewrite ?I in E; cbn [implemented] in M;
    destruct (a_state a) eqn:Es; try discriminate M.
  - destruct (getRelevantFileNames w f (a_mode a) dir); inversion E; subst; auto.
  - destruct (fh_createFile w f p) as [f1 x]. destruct x; inversion E; subst; auto.
  - injection E as _ E. unfold selectFile in E. apply noexcept_ret in E. assert (a_fdata a = None /\ a_enc a = None /\ a_key a = mkBytes [] 0) as Ka.
    { unfold tidy in K. rewrite Es in K. rewrite K. auto. }
    destruct (getFileHandler w f p) as [[c|h]| | |]; cbn in E; try discriminate E; [inversion E; subst; auto|].
    destruct (fh_empty h); [inversion E; subst; exact Ka|].
    destruct (fh_getDataHeader w f 0 h) as [[c|d]| | |]; cbn in E; inversion E; subst; auto; exact Ka.
  - inversion E; subst; auto.
  - inversion E; subst; auto.
  - inversion E; subst. unfold tidy in *. rewrite Es in K. destruct K as (K1 & K2 & K3). cbn. unfold unselectFile, fresh. rewrite K1, K2, K3. reflexivity.
  - inversion E; subst. unfold tidy in *. rewrite Es in K. destruct K as (K1 & K2 & K3). cbn. unfold unselectFile, fresh. rewrite K1, K2, K3. reflexivity.
  - unfold deleteFile in E. destruct (a_file a); [|discriminate E]. destruct (negb _); [discriminate E|].
    destruct (f _); inversion E; subst; auto. unfold tidy in *. rewrite Es in K. destruct K as (K1 & K2 & K3). cbn. unfold unselectFile, fresh. rewrite K1, K2, K3. reflexivity.
  - unfold deleteFile in E. destruct (a_file a); [|discriminate E]. destruct (negb _); [discriminate E|].
    destruct (f _); inversion E; subst; auto. unfold tidy in *. rewrite Es in K. destruct K as (K1 & K2 & K3). cbn. unfold unselectFile, fresh. rewrite K1, K2, K3. reflexivity.
  - injection E as _ E. unfold getFileContent in E. apply noexcept_ret in E.
    destruct (ptr (a_file a)); cbn in E; try discriminate E.
    destruct (try_ _ _); inversion E; subst; auto.
  - inversion E; subst; auto.
  - injection E as _ E. unfold verifyPassword in E. apply noexcept_ret in E.
    destruct (ptr (a_dh a)); cbn in E; try discriminate E.
    destruct (catch_std _ _) as [[c|k]| | |]; cbn in E; inversion E; subst; auto. exact Logic.I.
  - injection E as _ E. apply noexcept_ret in E. unfold headerEmpty in E.
    destruct (createHeaderIters _ _ _ _ _) as [[c|[d k]]| | |]; cbn in E; inversion E; subst; auto. exact Logic.I.
  - injection E as _ E. apply noexcept_ret in E. unfold headerDecrypted in E.
    destruct (createHeaderIters _ _ _ _ _) as [[c|[d k]]| | |]; cbn in E; inversion E; subst; auto. unfold tidy. cbn. rewrite Es. exact Logic.I.
  - injection E as _ E. discriminate E.
  - injection E as _ E. discriminate E.
  - injection E as _ E. unfold changeSalt in E. apply noexcept_ret in E.
    repeat (match type of E with context[bind ?t _] => destruct t; cbn [bind] in E; try discriminate E end).
    match type of E with match ?t with _ => _ end = _ => destruct t end; inversion E; subst; auto. unfold tidy. cbn. rewrite Es. exact Logic.I.
  - injection E as _ E. unfold getDecryptedData in E. apply noexcept_ret in E.
    destruct (try_ _ _) as [[c|k]| | |]; cbn in E; inversion E; subst; auto. exact Logic.I.
  - injection E as _ E. unfold getFileData in E. destruct (a_fdata a); inversion E; subst; auto. unfold tidy. cbn. rewrite Es. exact Logic.I.
  - injection E as _ E. unfold encryptData in E. apply noexcept_ret in E.
    destruct (ptr x); cbn in E; try discriminate E. destruct (fd_mode a0); [|inversion E; subst; auto].
    destruct (negb _); [inversion E; subst; auto|].
    destruct (ptr (fd_data a0)); cbn in E; try discriminate E. destruct (ptr (a_dh a)); cbn in E; try discriminate E.
    destruct (try_ _ (setDataSize _ _)) as [[c|d1]| | |]; cbn in E; try discriminate E; [inversion E; subst; auto|].
    destruct (calcHeaderBytes _ _ _ _) as [d2 r2]. destruct (try_ _ _) as [[c|k]| | |]; cbn in E; inversion E; subst; auto; unfold tidy; cbn; rewrite ?Es; exact Logic.I.
  - unfold writeToFile in E. destruct (a_file a) as [h|]; [|discriminate E].
    destruct (fh_getWriteStream w f h) as [[h' f1] x]. destruct x as [[c|u]| | |]; try discriminate E.
    + inversion E; subst. unfold tidy. cbn. rewrite Es. exact Logic.I.
    + apply finish_shape in E as [-> ->]. exact Logic.I.
  - unfold writeToPath in E. destruct (getFileHandler w f p) as [[c|h]| | |]; try discriminate E; [inversion E; subst; auto|].
    destruct (fh_getWriteStreamIfEmpty w f h) as [[h' f1] x]. destruct x as [[c|u]| | |]; try discriminate E.
    + inversion E; subst; auto.
    + apply finish_shape in E as [-> ->]. exact Logic.I.
Qed.
Lemma alone_tidy ls : forall d f f1 rs d', (forall x a, d x = Some a -> tidy a) -> alone d f ls = (f1, rs, Some d') -> forall x a, d' x = Some a -> tidy a.
Proof.
  induction ls as [|l ls IH]; intros d f f1 rs d' H E; cbn [alone] in E; [injection E as _ _ <-; exact H|].
  destruct (alone_step d f l) as [f' r] eqn:S. destruct r as [[d1 rep]|e|c|]; try discriminate E.
  - destruct (alone d1 f' ls) as [[f2 rs2] e2] eqn:A. injection E as _ _ ->. eapply IH; [|exact A].
    destruct l as [x mode|x y|x y|x|x w o|g]; cbn [alone_step] in S; try discriminate S.
    + destruct (d x); [discriminate S|]. unfold newAPI in S. destruct (file_mode_valid mode); cbn in S; [|discriminate S]. injection S as _ <- _.
      intros z b Hz. unfold with_object in Hz. destruct (z =? x); [injection Hz as <-; reflexivity|eauto].
    + destruct (d x); [|discriminate S]. injection S as _ <- _. intros z b Hz. unfold with_object in Hz. destruct (z =? x); [discriminate|eauto].
    + destruct (d x) as [a0|] eqn:Ex; [|discriminate S]. destruct (step w a0 f o) as [f3 r3] eqn:T. destruct r3 as [[a3 rep3]| | |]; cbn in S; try discriminate S. injection S as _ <- _.
      intros z b Hz. unfold with_object in Hz. destruct (z =? x); [injection Hz as <-; eapply step_tidy; [exact (H x a0 Ex)|exact T]|eauto].
    + injection S as _ <- _. exact H.
  - destruct (alone d f' ls) as [[f2 rs2] e2] eqn:A. injection E as _ _ ->. eapply IH; eassumption.
Qed.

(** one object that is whole, and nobody else is used *)
Lemma run_at lg y own cs : forall d m f f2 rs e a s k, calls_of [y] cs -> d y = Some a -> bound m -> is_at m y a s k own -> file_ok a ->
  alone d f cs = (f2, rs, e) -> lrun lg m f cs = (f2, rs).
Proof.
  induction cs as [|l cs IH]; intros d m f f2 rs e a s k Hc Ed B I F A; cbn [alone] in A; [injection A as <- <- _; reflexivity|].
  assert (calls_of [y] cs) as Hc' by (intros z Hz; apply Hc; right; exact Hz). pose proof (Hc l (or_introl eq_refl)) as Hl. cbn [lrun].
  destruct l as [x mode|x z|x z|x|x w o|g]; try contradiction.
  - destruct Hl as [<-|[]]. cbn [alone_step lstep] in A |- *. rewrite Ed in A. destruct (step w a f o) as [f1 r1] eqn:St.
    pose proof (call_at lg w m f y o a s k own f1 r1 B I F St) as C. destruct r1 as [[a' rep]|e'|c|]; cbn [bind] in A.
    + destruct C as (m' & s' & k' & -> & I' & B' & _). destruct (alone (with_object d y (Some a')) f1 cs) as [[f3 rs3] e3] eqn:A3. injection A as <- <- <-.
      rewrite (IH _ m' f1 f3 rs3 e3 a' s' k' Hc' (with_eq d y _) B' I' (proj2 (proj2 (step_effect _ _ _ _ _ _ _ F St))) A3). reflexivity.
    + exfalso. exact (step_no_throw _ _ _ _ _ _ St e' eq_refl).
    + rewrite C. injection A as <- <- _. reflexivity.
    + rewrite C. injection A as <- <- _. reflexivity.
  - cbn [alone_step lstep] in A |- *. destruct (alone d g cs) as [[f3 rs3] e3] eqn:A3. injection A as <- <- <-. rewrite (IH d m g f3 rs3 e3 a s k Hc' Ed B I F A3). reflexivity.
Qed.

Lemma alone_app d ls rest : forall f f1 rs d1, alone d f ls = (f1, rs, Some d1) ->
  alone d f (ls ++ rest) = (let '(f2, rs2, e) := alone d1 f1 rest in (f2, rs ++ rs2, e)).
Proof.
  revert d. induction ls as [|l ls IH]; intros d f f1 rs d1 E; cbn [alone app] in *.
  - injection E as <- <- <-. destruct (alone d f rest) as [[? ?] ?]. reflexivity.
  - destruct (alone_step d f l) as [f' r]. destruct r as [[d' rep]|e|c|]; try discriminate E.
    + destruct (alone d' f' ls) as [[f2 rs2] e2] eqn:A. injection E as <- <- ->. rewrite (IH _ _ _ _ _ A). destruct (alone d1 f2 rest) as [[? ?] ?]. reflexivity.
    + destruct (alone d f' ls) as [[f2 rs2] e2] eqn:A. injection E as <- <- ->. rewrite (IH _ _ _ _ _ A). destruct (alone d1 f2 rest) as [[? ?] ?]. reflexivity.
Qed.

Lemma revived lg f ls f1 rs d x y a l w p cs f2 rs2 e : no_moves ls -> alone no_objects f ls = (f1, rs, Some d) -> d y = Some a -> transfer d x y l ->
  a_state a = INIT -> calls_of [y] cs ->
  alone no_objects f (ls ++ LCall y w (OSelect p) :: cs) = (f2, rs ++ Ret ROk :: rs2, e) ->
  lrun lg mem0 f (ls ++ l :: LCall x w (OSelect p) :: cs) = (f2, rs ++ Ret RVoid :: Ret ROk :: rs2).
Proof.
  intros V A Ey T Es Hc A2. assert (tidy a) as Ti by (eapply alone_tidy; [|exact A|exact Ey]; intros ? ? H; discriminate H).
  unfold tidy in Ti. rewrite Es in Ti.
  rewrite (alone_app _ _ _ _ _ _ _ A) in A2. cbn [alone alone_step] in A2. rewrite Ey in A2.
  destruct (step w a f1 (OSelect p)) as [f3 r3] eqn:St. pose proof (step_no_throw _ _ _ _ _ _ St) as Nt.
  destruct (run_transfer lg f ls f1 rs d x y a l V A Ey T) as (m & s & kx & ky & oy & M & _ & R). rewrite R.
  destruct M as (M1 & M2 & M3 & M4 & M5 & N0 & B). cbn [lrun lstep]. unfold call. rewrite M1. cbn [incomplete l_state ptr bind]. rewrite M3, Es. cbn [ptr implemented uses_object negb].
  rewrite M2. cbn [logs_path uses_key l_key]. rewrite andb_false_r. cbn [andb]. rewrite M5.
  assert (view INIT (a_key a) (mkL None (a_mode a) None ky oy None None None) = a) as Va by (rewrite Ti; reflexivity). rewrite Va. rewrite St.
  destruct r3 as [[a' rep]|e3|c|]; cbn [bind] in A2 |- *.
  - destruct (alone (with_object d y (Some a')) f3 cs) as [[f4 rs4] e4] eqn:A4. injection A2 as <- E2 <-. apply app_inv_head in E2. injection E2 as -> ->.
    assert (a_state a' <> INIT /\ file_ok a' /\ a_key a' = a_key a) as (Ns & Fa & Ka).
    { assert (file_ok a) as F by (unfold file_ok; rewrite Es; exact Logic.I). pose proof (step_effect _ _ _ _ _ _ _ F St) as (E1 & _ & E3). split; [|split; [exact E3|apply E1; reflexivity]].
      cbn [step] in St. rewrite Es in St. injection St as _ St. unfold selectFile in St. apply noexcept_ret in St.
      destruct (getFileHandler w f1 p) as [[c|h]| | |]; cbn in St; try discriminate St. destruct (fh_empty h); [injection St as <-; discriminate|].
      destruct (fh_getDataHeader w f1 0 h) as [[c|dd]| | |]; cbn in St; try discriminate St. injection St as <-. discriminate. }
    unfold store_back. cbn [assigns_key bind]. unfold assigns_state. destruct (same_state (a_state a') INIT) eqn:Ss; [apply same_state_spec in Ss; contradiction|]. cbn [negb].
    set (m1 := put_obj y _ m).
    destruct (assign_state_ret y (mkState INIT y) (a_state a') m1 (members (mkL None (a_mode a) None ky oy None None None) a')) as (m3 & E3 & B3 & N3 & K3 & O3 & S3 & _ & _);
      [apply set_at_eq|exact B|exact Logic.I|]. rewrite E3. cbn [bind].
    assert (is_at m3 y a' (m_next m1) ky oy) as I3.
    { split; [rewrite O3, set_at_eq; reflexivity|]. split; [exact S3|]. rewrite K3, Ka. exact M5. }
    rewrite (run_at lg y oy cs (with_object d y (Some a')) m3 f3 f4 rs2 e4 a' (m_next m1) ky Hc (with_eq _ _ _) B3 I3 Fa A4). reflexivity.
  - exfalso. exact (Nt e3 eq_refl).
  - injection A2 as _ E2 _. apply app_inv_head in E2. discriminate E2.
  - injection A2 as _ E2 _. apply app_inv_head in E2. discriminate E2.
Qed.
