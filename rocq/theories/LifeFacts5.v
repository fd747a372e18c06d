From Verif Require Import Base BytesModel MiscModel HeaderModel FileModel ApiModel ApiSpec LifeModel LifeSpec LifeFacts1 LifeFacts2 LifeFacts3 LifeFacts4.
From Coq Require Import Lia.
Open Scope list_scope.

(** a run that does not crash leads to a memory with the invariant *)
Lemma run_inv lg (I D : mem -> Prop) (P : lop -> Prop) :
  (forall m f l f' r, P l -> I m -> lstep lg m f l = (f', r) -> forall e, r <> Throw e) ->
  (forall m f l f' m' rep, P l -> I m -> lstep lg m f l = (f', Ret (m', rep)) -> I m' /\ ((D m \/ stores_key l (Ret rep)) -> D m')) ->
  forall cs m f f2 rs, (forall l, In l cs -> P l) -> I m -> lrun lg m f cs = (f2, rs) -> no_crash rs ->
  exists m2, I m2 /\ ((D m \/ exists l r, In (l, r) (combine cs rs) /\ stores_key l r) -> D m2) /\
    forall rest, lrun lg m f (cs ++ rest) = (let '(f3, rs') := lrun lg m2 f2 rest in (f3, rs ++ rs')).
Proof.
  intros Ht Hs. induction cs as [|l cs IH]; intros m f f2 rs Hp Hi E C.
  - cbn in E. injection E as <- <-. exists m. split; [exact Hi|]. split; [intros [Hd|(l & r & [] & _)]; exact Hd|].
    intros rest. cbn. destruct (lrun lg m f rest); reflexivity.
  - cbn [lrun] in E. destruct (lstep lg m f l) as [f' r] eqn:L. assert (P l) as Pl by (apply Hp; left; reflexivity).
    destruct r as [[m' rep]|e|c|].
    + destruct (lrun lg m' f' cs) as [f3 rs3] eqn:R. injection E as <- <-. destruct (Hs m f l f' m' rep Pl Hi L) as [Hi' Hd'].
      destruct (IH m' f' f3 rs3) as (m2 & I2 & D2 & R2); [intros z Hz; apply Hp; right; exact Hz|exact Hi'|exact R|intros z Hz; apply C; right; exact Hz|].
      exists m2. split; [exact I2|]. split.
      * intros [Hd|(l0 & r0 & In0 & S0)]; [apply D2; left; apply Hd'; left; exact Hd|]. cbn in In0. destruct In0 as [In0|In0].
        { injection In0 as <- <-. apply D2. left. apply Hd'. right. exact S0. }
        { apply D2. right. eauto. }
      * intros rest. cbn [lrun app]. rewrite L, R2. destruct (lrun lg m2 f3 rest); reflexivity.
    + exfalso. exact (Ht m f l f' (Throw e) Pl Hi L e eq_refl).
    + injection E as <- <-. specialize (C (Crash c) (or_introl eq_refl)). contradiction.
    + injection E as <- <-. specialize (C OutOfFuel (or_introl eq_refl)). contradiction.
Qed.

(** ** Calls that act on [y] only *)
(** [x] refers to [y] by its state object [s] of kind [c]; state objects of [y] refer to [y] *)
Definition remote (m : mem) (x y s kx : N) (c : state) (ox : lobj) : Prop :=
  m_objs m x = Some ox /\ l_state ox = Some s /\ l_key ox = kx /\ m_states m s = Some (mkState c y) /\ x <> y /\ bound m /\ kx < m_next m /\
  (exists oy, m_objs m y = Some oy /\ forall t, l_state oy = Some t -> t <> s /\ exists c', m_states m t = Some (mkState c' y)).
Definition gone (m : mem) (kx : N) : Prop := m_keys m kx = None.
(** while the array of [x] is there, it is the array of [y] *)
Definition shared (m : mem) (y kx : N) : Prop := gone m kx \/ exists oy, m_objs m y = Some oy /\ l_key oy = kx.

Lemma remote_put m x y s kx c ox oy o : remote m x y s kx c ox -> m_objs m y = Some oy -> l_state o = l_state oy ->
  remote (put_obj y (Some o) m) x y s kx c ox.
Proof.
  intros (R1 & R2 & R3 & R4 & R5 & R6 & R7 & (oy' & R8 & R9)) E S. rewrite E in R8. injection R8 as <-.
  split; [cbn; rewrite set_at_ne by exact R5; exact R1|]. repeat (split; [assumption|]).
  exists o. split; [cbn; apply set_at_eq|]. intros t Ht. apply R9. congruence.
Qed.
Lemma assign_key_remote m x y s kx c ox b m' : remote m x y s kx c ox -> assign_key y b m = Ret m' ->
  remote m' x y s kx c ox /\ (shared m y kx -> gone m' kx) /\ (gone m kx -> gone m' kx).
Proof.
  intros R E. pose proof R as (R1 & R2 & R3 & R4 & R5 & R6 & R7 & (oy & R8 & R9)).
  destruct (m_keys m (l_key oy)) as [b0|] eqn:K.
  2:{ unfold assign_key in E. rewrite R8 in E. cbn [ptr bind] in E. unfold del_key in E. rewrite K in E. discriminate E. }
  destruct (assign_key_ret y b m oy b0 R8 R6 K) as (m2 & E2 & B2 & N2 & S2 & O2 & K2 & D2 & F2). rewrite E in E2. injection E2 as <-.
  split; [|split].
  - split; [rewrite O2, set_at_ne by exact R5; exact R1|]. split; [exact R2|]. split; [exact R3|]. split; [rewrite S2; exact R4|]. split; [exact R5|]. split; [exact B2|]. split; [lia|].
    eexists. rewrite O2, set_at_eq. split; [reflexivity|]. cbn. intros t Ht. rewrite S2. apply R9. exact Ht.
  - intros [G|(oy' & G1 & G2)].
    + unfold gone in *. rewrite F2; [exact G|lia|congruence].
    + rewrite R8 in G1. injection G1 as <-. unfold gone. rewrite <- G2. exact D2.
  - unfold gone. intros G. rewrite F2; [exact G|lia|congruence].
Qed.
Lemma assign_state_remote m x y s kx c ox k m' : remote m x y s kx c ox -> assign_state y k m = Ret m' ->
  remote m' x y s kx c ox /\ (shared m y kx -> shared m' y kx) /\ (gone m kx -> gone m' kx).
Proof.
  intros R E. pose proof R as (R1 & R2 & R3 & R4 & R5 & R6 & R7 & (oy & R8 & R9)).
  assert (exists c', match l_state oy with Some t => m_states m t = Some (mkState c' y) | None => True end) as (c' & S).
  { destruct (l_state oy) as [t|]; [destruct (R9 t eq_refl) as (_ & c' & H); eauto|exists INIT; exact Logic.I]. }
  destruct (assign_state_ret y (mkState c' y) k m oy R8 R6 S) as (m2 & E2 & B2 & N2 & K2 & O2 & S2 & D2 & F2). rewrite E in E2. injection E2 as <-.
  assert (s < m_next m) as Ls by (apply (proj1 R6); congruence).
  split; [|split].
  - split; [rewrite O2, set_at_ne by exact R5; exact R1|]. split; [exact R2|]. split; [exact R3|].
    split; [rewrite F2; [exact R4|lia|intros H; apply R9 in H as [H _]; congruence]|]. split; [exact R5|]. split; [exact B2|]. split; [lia|].
    eexists. rewrite O2, set_at_eq. split; [reflexivity|]. cbn. intros t Ht. injection Ht as <-. split; [lia|]. eauto.
  - intros [G|(oy' & G1 & G2)]; [left; unfold gone; rewrite K2; exact G|right]. rewrite R8 in G1. injection G1 as <-. eexists. rewrite O2, set_at_eq. split; [reflexivity|]. exact G2.
  - unfold gone. rewrite K2. auto.
Qed.
Lemma put_shared m y kx oy o : m_objs m y = Some oy -> l_key o = l_key oy -> shared m y kx -> shared (put_obj y (Some o) m) y kx.
Proof. intros E K [G|(o' & G1 & G2)]; [left; exact G|right]. rewrite E in G1. injection G1 as <-. exists o. split; [cbn; apply set_at_eq|congruence]. Qed.

Lemma store_back_remote m x y s kx c ox oy k o a r m' : remote m x y s kx c ox -> m_objs m y = Some oy -> store_back y k o oy a r m = Ret m' ->
  remote m' x y s kx c ox /\ (shared m y kx -> shared m' y kx) /\ (gone m kx -> gone m' kx) /\ (shared m y kx -> assigns_key o r = true -> gone m' kx).
Proof.
  intros R E S. unfold store_back in S.
  assert (remote (put_obj y (Some (members oy a)) m) x y s kx c ox) as R1 by (eapply remote_put; [exact R|exact E|reflexivity]).
  assert (shared m y kx -> shared (put_obj y (Some (members oy a)) m) y kx) as S1 by (intros; eapply put_shared; [exact E|reflexivity|assumption]).
  set (m1 := put_obj y (Some (members oy a)) m) in *.
  assert (gone m kx -> gone m1 kx) as G1 by (intros G; exact G).
  destruct (assigns_key o r).
  - destruct (assign_key y (a_key a) m1) as [m2| | |] eqn:K; cbn [bind] in S; try discriminate S.
    destruct (assign_key_remote m1 x y s kx c ox _ m2 R1 K) as (R2 & S2 & G2). destruct (assigns_state o k a).
    + destruct (assign_state_remote m2 x y s kx c ox _ m' R2 S) as (R3 & S3 & G3). split; [exact R3|]. split; [intros H; left; auto|]. split; [auto|]. auto.
    + injection S as <-. split; [exact R2|]. split; [intros H; left; auto|]. split; [auto|]. auto.
  - cbn [bind] in S. destruct (assigns_state o k a).
    + destruct (assign_state_remote m1 x y s kx c ox _ m' R1 S) as (R3 & S3 & G3). split; [exact R3|]. split; [auto|]. split; [auto|]. discriminate.
    + injection S as <-. split; [exact R1|]. split; [auto|]. split; [auto|]. discriminate.
Qed.
Lemma unselect_remote lg m x y s kx c ox m' r : remote m x y s kx c ox -> unselect_at lg y m = Ret (m', r) ->
  remote m' x y s kx c ox /\ (shared m y kx -> shared m' y kx) /\ (gone m kx -> gone m' kx).
Proof.
  intros R E. pose proof R as (R1 & R2 & R3 & R4 & R5 & R6 & R7 & (oy & R8 & R9)). unfold unselect_at in E. rewrite R8 in E. cbn [ptr bind] in E.
  destruct (l_state oy) as [t|] eqn:Et; [|discriminate E]. cbn [ptr bind] in E. destruct (R9 t eq_refl) as (Nt & c' & Ht). rewrite Ht in E. cbn [ptr bind s_kind s_parent] in E.
  assert (forall m1, (if lg && negb (isSome (l_file oy)) then Crash Undefined
     else m <- assign_state y INIT (put_obj y (Some (mkL (Some t) (l_mode oy) (l_fdata oy) (l_key oy) (l_own oy) (l_enc oy) None None)) m) ;; Ret (m, ROk)) = Ret (m1, r) ->
     remote m1 x y s kx c ox /\ (shared m y kx -> shared m1 y kx) /\ (gone m kx -> gone m1 kx)) as A.
  { intros m1 F. destruct (lg && negb (isSome (l_file oy))); [discriminate F|].
    match type of F with context[assign_state y INIT ?mm] => destruct (assign_state y INIT mm) as [m2| | |] eqn:K; cbn [bind] in F; try discriminate F;
      destruct (assign_state_remote mm x y s kx c ox INIT m2) as (R3' & S3 & G3); [eapply remote_put; [exact R|exact R8|rewrite Et; reflexivity]|exact K|] end.
    injection F as <- <-. split; [exact R3'|]. split; [intros H; apply S3; eapply put_shared; [exact R8|reflexivity|exact H]|exact G3]. }
  rewrite R8 in E. cbn [ptr bind] in E. rewrite ?Et in E. destruct c'; try (injection E as <- <-; auto); apply A; exact E.
Qed.

Lemma step_no_throw w a f o f' r : step w a f o = (f', r) -> forall e, r <> Throw e.
Proof.
  assert (forall A (m : outcome A) e, noexcept m <> Throw e) as Nx by (intros A m e; destruct m; discriminate).
  intros E e. destruct (incomplete o) eqn:I; [rewrite step_incomplete in E by exact I; injection E as <- <-; discriminate|].
  destruct (implemented (a_state a) o) eqn:M; [|rewrite step_invalid in E by assumption; injection E as <- <-; discriminate].
  assert (forall f a p, snd (finishWrite w a f p) <> Throw e) as Fw.
  { intros f0 a0 p0. unfold finishWrite. pose proof (Nx _ (fullData a0) e). destruct (noexcept (fullData a0)); cbn; try discriminate. congruence. }
  destruct o; cbn [step incomplete implemented] in *; rewrite ?I in E; destruct (a_state a); try discriminate M.
  all: try (injection E as <- <-; first [discriminate | apply Nx]).
  - injection E as <- <-. unfold getRelevantFileNames. match goal with |- context[noexcept ?m] => pose proof (Nx _ m e); destruct (noexcept m); cbn; try discriminate; congruence end.
  - destruct (fh_createFile w f p) as [f1 r1] eqn:F. injection E as <- <-. unfold fh_createFile in F.
    assert (forall e, r1 <> Throw e) as H.
    { intros e0. assert (isValidPath w f p false <> Throw e0) as V by (unfold isValidPath; apply Nx).
      destruct (isValidPath w f p false) as [[c|u]| | |]; try (injection F as <- <-; first [discriminate | exact V]).
      destruct (w_create w p); injection F as <- <-; discriminate. }
    destruct r1; cbn; try discriminate. exfalso. eapply H. reflexivity.
  - unfold deleteFile in E. destruct (a_file a); [|injection E as <- <-; discriminate]. destruct (negb _); [injection E as <- <-; discriminate|]. destruct (f _); injection E as <- <-; discriminate.
  - unfold deleteFile in E. destruct (a_file a); [|injection E as <- <-; discriminate]. destruct (negb _); [injection E as <- <-; discriminate|]. destruct (f _); injection E as <- <-; discriminate.
  - unfold writeToFile in E. destruct (a_file a) as [h|]; [|injection E as <- <-; discriminate]. destruct (fh_getWriteStream w f h) as [[h' f1] x].
    destruct x as [[c|u]| | |]; try (injection E as <- <-; discriminate). apply (f_equal snd) in E. cbn in E. rewrite <- E. apply Fw.
  - unfold writeToPath in E. destruct (getFileHandler w f p) as [[c|h]| | |]; try (injection E as <- <-; discriminate).
    destruct (fh_getWriteStreamIfEmpty w f h) as [[h' f1] x]. destruct x as [[c|u]| | |]; try (injection E as <- <-; discriminate). apply (f_equal snd) in E. cbn in E. rewrite <- E. apply Fw.
Qed.
