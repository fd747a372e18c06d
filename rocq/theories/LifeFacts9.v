(** Arrays of password hashes that were given back: include/api.h 125-141, src/api.cpp 476-693, src/bytes.cpp 96-115. *)
From Verif Require Import Base BytesModel MiscModel HeaderModel FileModel ApiModel ApiSpec LifeModel LifeSpec LifeFacts1 LifeFacts2 LifeFacts3.
From Coq Require Import Lia.
Open Scope list_scope.

(** an array that is in memory keeps what it contains, or is given back with it *)
Definition kbound (m : mem) : Prop := forall k, m_keys m k <> None -> k < m_next m.
Definition keeps (m m' : mem) : Prop :=
  kbound m -> kbound m' /\ incl (m_left m) (m_left m') /\ (forall p b, m_keys m p = Some b -> m_keys m' p = Some b \/ In b (m_left m')).

Lemma keeps_refl m : keeps m m.
Proof. intros B. split; [exact B|]. split; [apply incl_refl|]. intros p b H. left. exact H. Qed.
Lemma keeps_trans m1 m2 m3 : keeps m1 m2 -> keeps m2 m3 -> keeps m1 m3.
Proof.
  intros A C B. destruct (A B) as (B2 & I2 & K2). destruct (C B2) as (B3 & I3 & K3). split; [exact B3|].
  split; [eapply incl_tran; eassumption|]. intros p b H. destruct (K2 p b H) as [H2|H2]; [apply K3; exact H2|right; apply I3; exact H2].
Qed.
Lemma keeps_put x o m : keeps m (put_obj x o m).
Proof. intros B. split; [exact B|]. split; [apply incl_refl|]. intros p b H. left. exact H. Qed.
Lemma keeps_new_state k p m m' s : new_state k p m = (m', s) -> keeps m m'.
Proof.
  intros E B. injection E as <- <-. split; [intros q H; specialize (B q H); cbn; lia|]. split; [apply incl_refl|]. intros q b H. left. exact H.
Qed.
Lemma keeps_new_key b m m' p : new_key b m = (m', p) -> keeps m m'.
Proof.
  intros E B. injection E as <- <-. split; [|split; [apply incl_refl|]].
  - intros q. cbn. look; intros H; try lia. specialize (B q H). lia.
  - intros q c H. left. cbn. assert (q < m_next m) by (apply B; congruence). look.
Qed.
Lemma keeps_del_state s m m' : del_state s m = Ret m' -> keeps m m'.
Proof.
  unfold del_state. destruct s as [s|]; [|intros E; injection E as <-; apply keeps_refl].
  destruct (m_states m s); [|discriminate]. intros E B. injection E as <-. split; [exact B|]. split; [apply incl_refl|]. intros p b H. left. exact H.
Qed.
Lemma keeps_del_key p m m' : del_key p m = Ret m' -> keeps m m'.
Proof.
  unfold del_key. destruct (m_keys m p) as [b|] eqn:K; [|discriminate]. intros E B. injection E as <-. split; [|split].
  - intros q. cbn. look; intros H; try congruence; try (apply B; exact H).
  - cbn. apply incl_tl, incl_refl.
  - intros q c H. cbn. unfold set_at. destruct (N.eqb_spec q p) as [->|D]; [right; left; congruence|left; exact H].
Qed.

Ltac obind H E v := match type of H with bind ?m _ = _ => destruct m as [v| | |] eqn:E; cbn [bind] in H; try discriminate H end.

Lemma keeps_assign_state x k m m' : assign_state x k m = Ret m' -> keeps m m'.
Proof.
  unfold assign_state. intros H. obind H E v. destruct (new_state k x m) as [m1 s] eqn:E1. obind H E2 v2. injection H as <-.
  eapply keeps_trans; [eapply keeps_new_state; exact E1|]. eapply keeps_trans; [eapply keeps_del_state; exact E2|apply keeps_put].
Qed.
Lemma keeps_assign_key x b m m' : assign_key x b m = Ret m' -> keeps m m'.
Proof.
  unfold assign_key. intros H. obind H E v. obind H E2 v2. destruct (new_key b _) as [m1 s] eqn:E1. injection H as <-.
  eapply keeps_trans; [eapply keeps_del_key; exact E2|]. eapply keeps_trans; [eapply keeps_new_key; exact E1|apply keeps_put].
Qed.
Lemma keeps_store p k o y a r m m' : store_back p k o y a r m = Ret m' -> keeps m m'.
Proof.
  unfold store_back. intros H. obind H E v. eapply keeps_trans; [apply keeps_put|]. eapply keeps_trans with (m2 := v).
  - destruct (assigns_key o r); [eapply keeps_assign_key; exact E|injection E as <-; apply keeps_refl].
  - destruct (assigns_state o k a); [eapply keeps_assign_state; exact H|injection H as <-; apply keeps_refl].
Qed.
Lemma keeps_unselect lg p m m' r : unselect_at lg p m = Ret (m', r) -> keeps m m'.
Proof.
  unfold unselect_at. intros H. obind H E1 v1. obind H E2 v2. obind H E3 v3.
  destruct (s_kind v3); try (injection H as <- <-; apply keeps_refl); obind H E4 v4; (destruct (lg && _); [discriminate|]); obind H E5 v5;
    injection H as <- <-; (eapply keeps_trans; [apply keeps_put|eapply keeps_assign_state; exact E5]).
Qed.
Lemma keeps_call lg w m f x o f' m' r : call lg w m f x o = (f', Ret (m', r)) -> keeps m m'.
Proof.
  unfold call. destruct (m_objs m x) as [me|]; [|discriminate]. destruct (incomplete o); [intros H; injection H as _ <- _; apply keeps_refl|].
  destruct (s <- ptr (l_state me) ;; ptr (m_states m s)) as [[k p]| | |]; try discriminate.
  destruct (negb (implemented k o)); [intros H; injection H as _ <- _; apply keeps_refl|].
  destruct (negb (uses_object w k o)).
  { destruct (step w (bare k) f o) as [f1 [[a rep]| | |]]; cbn [bind]; try discriminate. intros H; injection H as _ <- _; apply keeps_refl. }
  destruct (m_objs m p) as [y|]; [|discriminate]. destruct (lg && logs_path o && _); [discriminate|]. destruct (uses_key o && _); [discriminate|].
  destruct (step w _ f o) as [f1 [[a rep]| | |]]; cbn [bind]; try discriminate. intros H. injection H as _ H.
  assert ((m2 <- store_back p k o y a rep m ;; Ret (m2, rep)) = Ret (m', r) -> keeps m m') as G.
  { intros G. obind G E v. injection G as <- <-. eapply keeps_store; exact E. }
  destruct o; try exact (G H). destruct rep; try exact (G H). eapply keeps_unselect; exact H.
Qed.
Lemma keeps_lstep lg m f l f' m' r : lstep lg m f l = (f', Ret (m', r)) -> keeps m m'.
Proof.
  destruct l; cbn [lstep]; intros H.
  - injection H as <- H. obind H E v. destruct (file_mode_valid mode); [|discriminate]. injection H as <- <-.
    eapply keeps_trans; [apply (keeps_new_state INIT x m _ _ eq_refl)|]. eapply keeps_trans; [apply (keeps_new_key (mkBytes [] 0) _ _ _ eq_refl)|apply keeps_put].
  - injection H as <- H. obind H E v. obind H E1 v1. injection H as <- <-. eapply keeps_trans; apply keeps_put.
  - injection H as <- H. obind H E v. obind H E1 v1. destruct (x =? y); [injection H as <- <-; apply keeps_refl|].
    obind H E2 v2. obind H E3 v3. obind H E4 v4. injection H as <- <-.
    eapply keeps_trans; [eapply keeps_del_state; exact E2|]. eapply keeps_trans; [eapply keeps_del_key; exact E3|].
    eapply keeps_trans; [apply (keeps_new_key v4 v3 _ _ eq_refl)|]. eapply keeps_trans; apply keeps_put.
  - injection H as <- H. obind H E v. obind H E1 v1. obind H E2 v2. injection H as <- <-. eapply keeps_trans with (m2 := v1).
    + destruct (l_own v); [eapply keeps_del_key; exact E1|injection E1 as <-; apply keeps_refl].
    + eapply keeps_trans; [eapply keeps_del_state; exact E2|apply keeps_put].
  - eapply keeps_call; exact H.
  - injection H as _ <- _. apply keeps_refl.
Qed.
Lemma keeps_lend lg ls : forall m f m', lend lg m f ls = Some m' -> keeps m m'.
Proof.
  induction ls as [|l ls IH]; intros m f m' H; cbn [lend] in H; [injection H as <-; apply keeps_refl|].
  destruct (lstep lg m f l) as [f1 [[m1 r]| | |]] eqn:E; try discriminate.
  - eapply keeps_trans; [eapply keeps_lstep; exact E|eapply IH; exact H].
  - eapply IH; exact H.
Qed.

Lemma lend_alone lg ls : forall d m f f2 rs d', whole d m -> no_moves ls -> alone d f ls = (f2, rs, Some d') ->
  exists m', whole d' m' /\ forall rest, lend lg m f (ls ++ rest) = lend lg m' f2 rest.
Proof.
  induction ls as [|l ls IH]; intros d m f f2 rs d' W V T; cbn [alone] in T.
  - injection T as <- <- <-. exists m. split; [exact W|reflexivity].
  - destruct (alone_step d f l) as [f' r] eqn:A. pose proof (lstep_alone lg d m f l f' r W (V l (or_introl eq_refl)) A) as L.
    assert (no_moves ls) as V' by (intros z Hz; apply V; right; exact Hz). cbn [lend app].
    destruct r as [[d1 rep]|x|c|]; try discriminate T.
    + destruct L as (m' & -> & W'). destruct (alone d1 f' ls) as [[f3 rs3] e3] eqn:A3. injection T as <- <- ->. eapply IH; eassumption.
    + rewrite L. destruct (alone d f' ls) as [[f3 rs3] e3] eqn:A3. injection T as <- <- ->. eapply IH; eassumption.
Qed.

Lemma stores_assigns x w o rep : stores_key (LCall x w o) (Ret rep) -> assigns_key o rep = true.
Proof. cbn. destruct o, rep; try contradiction; reflexivity. Qed.

Lemma drop_key lg d m f x a l f' m' r : whole d m -> d x = Some a -> lstep lg m f l = (f', Ret (m', r)) ->
  (l = LDestroy x \/ exists w o, l = LCall x w o /\ stores_key l (Ret r)) -> In (a_key a) (m_left m').
Proof.
  intros (B & P & Q & D) E H C. destruct (P x a E) as (F & s & k & I). pose proof I as (I1 & I2 & I3). destruct C as [->|(w & o & -> & K)].
  - cbn [lstep] in H. injection H as _ H. rewrite I1 in H. cbn [ptr bind l_own l_key l_state] in H. obind H E1 v1. unfold del_key in E1. rewrite I3 in E1.
    injection E1 as <-. obind H E2 v2. injection H as <- <-. cbn [del_state m_states] in E2. rewrite I2 in E2. injection E2 as <-. left. reflexivity.
  - cbn [lstep] in H. destruct (step w a f o) as [f1 r1] eqn:St. pose proof (call_at lg w m f x o a s k true f1 r1 B I F St) as G.
    destruct r1 as [[a' rep]| | |]; [|rewrite G in H; discriminate..].
    destruct G as (m1 & s' & k' & G & _ & _ & _ & Z). rewrite G in H. injection H as -> -> ->. rewrite (stores_assigns _ _ _ _ K) in Z. destruct Z as [_ Z].
    destruct (keeps_call _ _ _ _ _ _ _ _ _ G (proj2 B)) as (_ & _ & T). destruct (T k _ I3) as [T1|T1]; [congruence|exact T1].
Qed.

(** the password hash of an object, after the object has dropped it *)
Lemma key_left lg f ls f1 rs d x a l rest m f2 r e : no_moves ls -> alone no_objects f ls = (f1, rs, Some d) -> d x = Some a ->
  alone no_objects f (ls ++ [l]) = (f2, rs ++ [Ret r], e) -> (l = LDestroy x \/ exists w o, l = LCall x w o /\ stores_key l (Ret r)) ->
  lend lg mem0 f (ls ++ l :: rest) = Some m -> In (a_key a) (m_left m).
Proof.
  intros V A E A2 C L. destruct (lend_alone lg ls _ _ _ _ _ _ whole_mem0 V A) as (m1 & W & T). rewrite T in L. cbn [lend] in L.
  assert (moves l = false) as Vl by (destruct C as [->|(w & o & -> & _)]; reflexivity).
  assert (exists d' f3, alone_step d f1 l = (f3, Ret (d', r))) as (d' & f3 & A3).
  { clear - A A2. revert A A2. generalize no_objects as d0. revert f rs. induction ls as [|l0 ls IH]; intros f rs d0 A A2; cbn [alone app] in A, A2.
    - injection A as <- <- <-. cbn in A2. destruct (alone_step d0 f l) as [f3 [[d' rep]| | |]]; injection A2; intros; try discriminate. subst. eauto.
    - destruct (alone_step d0 f l0) as [f' [[d1 rep]|z| |]]; try discriminate.
      + destruct (alone d1 f' ls) as [[f4 rs4] e4] eqn:A4. destruct (alone d1 f' (ls ++ [l])) as [[f5 rs5] e5] eqn:A5. injection A as -> <- ->. injection A2 as -> E5 ->.
        subst rs5. eapply IH; [exact A4|exact A5].
      + destruct (alone d0 f' ls) as [[f4 rs4] e4] eqn:A4. destruct (alone d0 f' (ls ++ [l])) as [[f5 rs5] e5] eqn:A5. injection A as -> <- ->. injection A2 as -> E5 ->.
        subst rs5. eapply IH; [exact A4|exact A5]. }
  pose proof (lstep_alone lg d m1 f1 l _ _ W Vl A3) as (m2 & S & W2). rewrite S in L.
  pose proof (drop_key lg d m1 f1 x a l _ _ _ W E S C) as In2.
  destruct (keeps_lend _ _ _ _ _ L (proj2 (proj1 W2))) as (_ & I & _). apply I. exact In2.
Qed.

(** with moves, too: nothing is overwritten *)
Lemma nothing_wiped lg f ls1 ls2 m1 m2 p b : lend lg mem0 f ls1 = Some m1 -> lend lg mem0 f (ls1 ++ ls2) = Some m2 ->
  m_keys m1 p = Some b \/ In b (m_left m1) -> m_keys m2 p = Some b \/ In b (m_left m2).
Proof.
  assert (forall ls m f m', lend lg m f ls = Some m' -> exists f', forall rest, lend lg m f (ls ++ rest) = lend lg m' f' rest) as A.
  { induction ls as [|l ls IH]; intros m g m' H; cbn [lend app] in *; [injection H as <-; exists g; reflexivity|].
    destruct (lstep lg m g l) as [f1 [[m3 r]| | |]]; try discriminate; destruct (IH _ _ _ H) as [f' K]; exists f'; exact K. }
  intros H1 H2 H. destruct (A _ _ _ _ H1) as [f' K]. rewrite K in H2.
  assert (kbound mem0) as B0 by (intros k Hk; cbn in Hk; congruence).
  destruct (keeps_lend _ _ _ _ _ H1 B0) as (B1 & _ & _). destruct (keeps_lend _ _ _ _ _ H2 B1) as (_ & I & T).
  destruct H as [H|H]; [apply T; exact H|right; apply I; exact H].
Qed.
