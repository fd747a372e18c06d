From Verif Require Import Base BytesModel MiscModel HeaderModel FileModel ApiModel ApiSpec LifeModel LifeSpec LifeFacts1 LifeFacts2 LifeFacts3 LifeFacts4 LifeFacts5.
From Coq Require Import Lia.
Open Scope list_scope.

Lemma call_remote lg w m f x y s kx c ox z o f' r : remote m x y s kx c ox -> z = x \/ z = y -> call lg w m f z o = (f', r) ->
  match r with
  | Ret (m', rep) => remote m' x y s kx c ox /\ (shared m y kx -> shared m' y kx) /\ (gone m kx -> gone m' kx) /\
      (shared m y kx -> assigns_key o rep = true -> gone m' kx)
  | Throw _ => False
  | _ => True
  end.
Proof.
  intros R Z E. pose proof R as (R1 & R2 & R3 & R4 & R5 & R6 & R7 & (oy & R8 & R9)).
  assert (exists me, m_objs m z = Some me /\ forall t, l_state me = Some t -> exists c', m_states m t = Some (mkState c' y)) as (me & Em & Hs).
  { destruct Z as [-> | ->]; [exists ox|exists oy]; split; auto; intros t Ht; [rewrite R2 in Ht; injection Ht as <-; eauto|destruct (R9 t Ht); auto]. }
  unfold call in E. rewrite Em in E. destruct (incomplete o) eqn:I.
  { injection E as <- <-. repeat (split; [auto|]). intros _ H. destruct o; try discriminate I; discriminate H. }
  destruct (l_state me) as [t|] eqn:Et; [|injection E as <- <-; exact Logic.I]. destruct (Hs t eq_refl) as (c' & Ht). cbn [ptr bind] in E. rewrite Ht in E. cbn [ptr] in E.
  destruct (implemented c' o) eqn:M; cbn [negb] in E.
  2:{ injection E as <- <-. repeat (split; [auto|]). intros _ H. destruct o; try discriminate M; discriminate H. }
  destruct (uses_object w c' o) eqn:U; cbn [negb] in E.
  2:{ destruct (step w (bare c') f o) as [f1 r1] eqn:St. injection E as <- <-. destruct r1 as [[a1 rep]|e| |]; cbn [bind]; try exact Logic.I.
      - repeat (split; [auto|]). intros _ H. destruct o; try discriminate U; discriminate H.
      - exact (step_no_throw _ _ _ _ _ _ St e eq_refl). }
  rewrite R8 in E. destruct (lg && logs_path o && negb (isSome (l_file oy))); [injection E as <- <-; exact Logic.I|].
  destruct (uses_key o && negb (isSome (m_keys m (l_key oy)))); [injection E as <- <-; exact Logic.I|].
  match type of E with context[step w ?a f o] => destruct (step w a f o) as [f1 r1] eqn:St end. injection E as <- <-.
  destruct r1 as [[a1 rep]|e| |]; cbn [bind]; try exact Logic.I; [|exact (step_no_throw _ _ _ _ _ _ St e eq_refl)].
  assert (forall m1 r1, (m2 <- store_back y c' o oy a1 rep m ;; Ret (m2, rep)) = Ret (m1, r1) ->
    r1 = rep /\ remote m1 x y s kx c ox /\ (shared m y kx -> shared m1 y kx) /\ (gone m kx -> gone m1 kx) /\ (shared m y kx -> assigns_key o rep = true -> gone m1 kx)) as A.
  { intros m1 r1 H. destruct (store_back y c' o oy a1 rep m) as [m2| | |] eqn:S; cbn [bind] in H; try discriminate H. injection H as <- <-.
    split; [reflexivity|]. eapply store_back_remote; eassumption. }
  assert (forall m1 k2 e, assign_state y k2 m1 <> Throw e) as Na.
  { intros m1 k2 e. unfold assign_state. destruct (m_objs m1 y) as [l|]; cbn; [|discriminate]. destruct (l_state l); cbn; [destruct (set_at _ _ _ _)|]; cbn; discriminate. }
  assert (forall m1 b e, assign_key y b m1 <> Throw e) as Nk.
  { intros m1 b e. unfold assign_key, del_key. destruct (m_objs m1 y) as [l|]; cbn; [|discriminate]. destruct (m_keys m1 (l_key l)); cbn; discriminate. }
  assert (forall e, (m2 <- store_back y c' o oy a1 rep m ;; Ret (m2, rep)) <> Throw e) as Nt.
  { intros e H. unfold store_back in H. destruct (assigns_key o rep).
    - match type of H with context[assign_key y ?b ?m1] => specialize (Nk m1 b); destruct (assign_key y b m1) as [m2|e2| |]; cbn [bind] in H; try discriminate H; [|exact (Nk e2 eq_refl)] end.
      destruct (assigns_state o c' a1); [|discriminate H]. specialize (Na m2 (a_state a1)). destruct (assign_state y (a_state a1) m2) as [m3|e3| |]; cbn [bind] in H; try discriminate H. exact (Na e3 eq_refl).
    - cbn [bind] in H. destruct (assigns_state o c' a1); [|discriminate H].
      match type of H with context[assign_state y ?b ?m1] => specialize (Na m1 b); destruct (assign_state y b m1) as [m3|e3| |]; cbn [bind] in H; try discriminate H; exact (Na e3 eq_refl) end. }
  destruct (match o, rep with ODelete, ROk => true | _, _ => false end) eqn:Dl.
  - destruct o; try discriminate Dl. destruct rep; try discriminate Dl. destruct (unselect_at lg y m) as [[m1 r1]|e| |] eqn:Un; try exact Logic.I.
    + destruct (unselect_remote lg m x y s kx c ox m1 r1 R Un) as (H1 & H2 & H3). split; [exact H1|]. split; [exact H2|]. split; [exact H3|]. discriminate.
    + unfold unselect_at in Un. rewrite R8 in Un. cbn [ptr bind] in Un. destruct (l_state oy) as [t2|] eqn:E2; [|discriminate Un]. cbn [ptr bind] in Un. destruct (R9 t2 eq_refl) as (_ & c2 & Hc). rewrite Hc in Un. cbn [ptr bind s_kind s_parent] in Un.
      rewrite R8 in Un. cbn [ptr bind] in Un.
      destruct c2; try discriminate Un; (destruct (lg && negb (isSome (l_file oy))); [discriminate Un|]);
        match type of Un with context[assign_state y ?b ?m1] => specialize (Na m1 b); destruct (assign_state y b m1) as [m3|e3| |]; cbn [bind] in Un; try discriminate Un; exact (Na e3 eq_refl) end.
  - assert (match o, rep with ODelete, ROk => unselect_at lg y m | _, _ => m0 <- store_back y c' o oy a1 rep m;; Ret (m0, rep) end = (m0 <- store_back y c' o oy a1 rep m;; Ret (m0, rep))) as ->
      by (destruct o, rep; try discriminate Dl; reflexivity).
    destruct (m0 <- store_back y c' o oy a1 rep m;; Ret (m0, rep)) as [[m1 r1]|e| |] eqn:Q; try exact Logic.I; [|exact (Nt e eq_refl)].
    destruct (A m1 r1 eq_refl) as (-> & H). exact H.
Qed.

Lemma stores_assigns z w o r : stores_key (LCall z w o) (Ret r) -> assigns_key o r = true.
Proof. destruct o; cbn; try contradiction; auto; destruct r; cbn; auto; contradiction. Qed.
(** calls through both *)
Lemma run_remote lg x y s kx c ox cs m f f2 rs : calls_of [x; y] cs -> remote m x y s kx c ox -> shared m y kx ->
  lrun lg m f cs = (f2, rs) -> no_crash rs ->
  exists m2, remote m2 x y s kx c ox /\ ((exists l r, In (l, r) (combine cs rs) /\ stores_key l r) -> gone m2 kx) /\
    forall rest, lrun lg m f (cs ++ rest) = (let '(f3, rs') := lrun lg m2 f2 rest in (f3, rs ++ rs')).
Proof.
  intros Hc R Sh E C.
  destruct (run_inv lg (fun m => remote m x y s kx c ox /\ shared m y kx) (fun m => gone m kx)
      (fun l => match l with LCall z _ _ => z = x \/ z = y | LFiles _ => True | _ => False end)) with (cs := cs) (m := m) (f := f) (f2 := f2) (rs := rs) as (m2 & I2 & D2 & R2); auto.
  - intros m0 f0 l f0' r Pl [I0 _] L e ->. destruct l; try contradiction; cbn [lstep] in L; [|discriminate L]. exact (call_remote _ _ _ _ _ _ _ _ _ _ _ _ _ _ I0 Pl L).
  - intros m0 f0 l f0' m' rep Pl [I0 S0] L. destruct l as [ | | | |z w o|g]; try contradiction; cbn [lstep] in L.
    + pose proof (call_remote _ _ _ _ _ _ _ _ _ _ _ _ _ _ I0 Pl L) as (H1 & H2 & H3 & H4). split; [auto|]. intros [D|S]; [auto|]. apply H4; [exact S0|]. apply stores_assigns in S. exact S.
    + injection L as <- <- <-. split; [auto|]. intros [D|[]]. exact D.
  - intros l Hl. specialize (Hc l Hl). destruct l; try contradiction; auto. cbn in Hc. intuition.
  - exists m2. destruct I2. auto.
Qed.

Lemma moved_remote m x y a s kx ky oy : moved m x y a s kx ky oy -> exists ox, remote m x y s kx (a_state a) ox /\ l_own ox = true /\ (kx = ky -> shared m y kx).
Proof.
  intros (M1 & M2 & M3 & M4 & M5 & N0 & B). eexists. split.
  - split; [exact M1|]. split; [reflexivity|]. split; [reflexivity|]. split; [exact M3|]. split; [exact N0|]. split; [exact B|]. split; [apply (proj2 B); congruence|].
    eexists. split; [exact M2|]. cbn. discriminate.
  - split; [reflexivity|]. intros ->. right. eexists. split; [exact M2|reflexivity].
Qed.
Lemma run_remote_any lg x y s kx c ox cs m f f2 rs : calls_of [x; y] cs -> remote m x y s kx c ox ->
  lrun lg m f cs = (f2, rs) -> no_crash rs ->
  exists m2, remote m2 x y s kx c ox /\ forall rest, lrun lg m f (cs ++ rest) = (let '(f3, rs') := lrun lg m2 f2 rest in (f3, rs ++ rs')).
Proof.
  intros Hc R E C. destruct (run_inv lg (fun m => remote m x y s kx c ox) (fun m => True)
      (fun l => match l with LCall z _ _ => z = x \/ z = y | LFiles _ => True | _ => False end)) with (cs := cs) (m := m) (f := f) (f2 := f2) (rs := rs) as (m2 & I2 & D2 & R2); auto.
  - intros m0 f0 l f0' r Pl I0 L e ->. destruct l; try contradiction; cbn [lstep] in L; [|discriminate L]. exact (call_remote _ _ _ _ _ _ _ _ _ _ _ _ _ _ I0 Pl L).
  - intros m0 f0 l f0' m' rep Pl I0 L. destruct l as [ | | | |z w o|g]; try contradiction; cbn [lstep] in L.
    + pose proof (call_remote _ _ _ _ _ _ _ _ _ _ _ _ _ _ I0 Pl L) as (H1 & _). auto.
    + injection L as <- <- <-. auto.
  - intros l Hl. specialize (Hc l Hl). destruct l; try contradiction; auto. cbn in Hc. intuition.
  - exists m2. auto.
Qed.

(** ** The object that was moved to keeps its state for good *)
Lemma stuck lg f ls f1 rs d x y a l cs f2 rs2 w o : no_moves ls -> alone no_objects f ls = (f1, rs, Some d) -> d y = Some a -> transfer d x y l ->
  calls_of [x; y] cs -> lrun lg mem0 f (ls ++ l :: cs) = (f2, rs ++ Ret RVoid :: rs2) -> no_crash rs2 ->
  offered (a_state a) o = false -> ~ lacks_settings o ->
  lrun lg mem0 f (ls ++ l :: cs ++ [LCall x w o]) = (f2, rs ++ Ret RVoid :: rs2 ++ [Ret (RErr FAIL ERR_API_STATE_INVALID)]).
Proof.
  intros V A Ey T Hc E C Of S. destruct (run_transfer lg f ls f1 rs d x y a l V A Ey T) as (m & s & kx & ky & oy & M & _ & R).
  rewrite R in E |- *. destruct (lrun lg m f1 cs) as [f3 rs3] eqn:L. injection E as <- E. apply app_inv_head in E. injection E as ->.
  destruct (moved_remote _ _ _ _ _ _ _ _ M) as (ox & Rm & _ & _).
  destruct (run_remote_any lg x y s kx _ ox cs m f1 f3 rs2 Hc Rm L C) as (m2 & (R1 & R2 & _ & R4 & _) & R9). rewrite R9. cbn [lrun lstep].
  unfold call. rewrite R1. rewrite lacks_incomplete in S. destruct (incomplete o); [contradiction S; reflexivity|]. rewrite R2. cbn [ptr bind]. rewrite R4. cbn [ptr].
  rewrite offered_implemented in Of. rewrite Of. reflexivity.
Qed.
(** ** The array of the password hash is deleted twice *)
Lemma double_free lg f ls f1 rs d x y a cs f2 rs2 : no_moves ls -> alone no_objects f ls = (f1, rs, Some d) -> d y = Some a -> d x = None ->
  calls_of [x; y] cs -> lrun lg mem0 f (ls ++ LMove x y :: cs) = (f2, rs ++ Ret RVoid :: rs2) -> no_crash rs2 ->
  (exists l r, In (l, r) (combine cs rs2) /\ stores_key l r) ->
  lrun lg mem0 f (ls ++ LMove x y :: cs ++ [LDestroy x]) = (f2, rs ++ Ret RVoid :: rs2 ++ [Crash Undefined]).
Proof.
  intros V A Ey Ex Hc E C St. destruct (run_transfer lg f ls f1 rs d x y a (LMove x y) V A Ey (or_introl (conj eq_refl Ex))) as (m & s & kx & ky & oy & M & K & R).
  rewrite R in E |- *. destruct (lrun lg m f1 cs) as [f3 rs3] eqn:L. injection E as <- E. apply app_inv_head in E. injection E as ->.
  destruct (moved_remote _ _ _ _ _ _ _ _ M) as (ox & Rm & Ow & Sh). specialize (Sh (K eq_refl)).
  destruct (run_remote lg x y s kx _ ox cs m f1 f3 rs2 Hc Rm Sh L C) as (m2 & (R1 & R2 & R3 & R4 & _) & G & R9). rewrite R9. cbn [lrun lstep].
  rewrite R1. cbn [ptr bind]. rewrite Ow, R3. unfold del_key. rewrite (G St). reflexivity.
Qed.
