From Verif Require Import Base BytesModel MiscModel HeaderModel FileModel ApiModel ApiSpec LifeModel LifeSpec LifeFacts1 LifeFacts2 LifeFacts3 LifeFacts4 LifeFacts5 LifeFacts6 LifeFacts7.
From Coq Require Import Lia.
Open Scope list_scope.

(** ** The first call of the new object *)
Lemma file_ok_fresh mode : file_ok (fresh mode).
Proof. exact Logic.I. Qed.

Lemma lost_first lg f ls f1 rs d x y a l w o : no_moves ls -> alone no_objects f ls = (f1, rs, Some d) -> d y = Some a -> transfer d x y l ->
  lost_members (a_state a) o = true ->
  lrun lg mem0 f (ls ++ [l; LCall x w o]) = (f1, rs ++ [Ret RVoid; Crash Undefined]).
Proof.
  intros V A Ey T L. destruct (run_transfer lg f ls f1 rs d x y a l V A Ey T) as (m & s & kx & ky & oy & M & _ & R). rewrite R.
  destruct M as (M1 & M2 & M3 & M4 & M5 & N0 & B). cbn [lrun lstep]. unfold call. rewrite M1. cbn [l_state ptr bind]. rewrite M3. cbn [ptr].
  destruct (a_state a); cbn [lost_members] in L; try discriminate L; destruct o; try discriminate L; cbn [incomplete implemented uses_object negb]; rewrite M2;
    cbn [logs_path uses_key l_key l_file isSome negb]; destruct lg; cbn [andb]; rewrite ?M5; try reflexivity.
Qed.

Lemma unselect_logged f ls f1 rs d x y a l w : no_moves ls -> alone no_objects f ls = (f1, rs, Some d) -> d y = Some a -> transfer d x y l ->
  a_state a = FILE_SELECTED \/ a_state a = EMPTY_FILE_SELECTED ->
  lrun true mem0 f (ls ++ [l; LCall x w OUnselect]) = (f1, rs ++ [Ret RVoid; Crash Undefined]).
Proof.
  intros V A Ey T L. destruct (run_transfer true f ls f1 rs d x y a l V A Ey T) as (m & s & kx & ky & oy & M & _ & R). rewrite R.
  destruct M as (M1 & M2 & M3 & M4 & M5 & N0 & B). cbn [lrun lstep]. unfold call. rewrite M1. cbn [l_state ptr bind incomplete]. rewrite M3. cbn [ptr].
  destruct L as [-> | ->]; cbn [implemented uses_object negb]; rewrite M2; reflexivity.
Qed.

(** the old object after the new one was used to go back to the start *)
Lemma reset_at m y a ky oy o k rep : m_objs m y = Some (mkL None (a_mode a) None ky oy None None None) -> m_keys m ky = Some (a_key a) -> bound m ->
  assigns_state o k (fresh (a_mode a)) = true -> (assigns_key o rep = false -> a_key a = mkBytes [] 0) ->
  exists m' s' k', store_back y k o (mkL None (a_mode a) None ky oy None None None) (fresh (a_mode a)) rep m = Ret m' /\ is_at m' y (fresh (a_mode a)) s' k' oy /\ bound m'.
Proof.
  intros M2 M5 B As Ak. unfold store_back. rewrite As. set (yo := mkL _ _ _ _ _ _ _ _). set (m1 := put_obj y _ m).
  assert (bound m1) as B1 by exact B. assert (m_objs m1 y = Some (members yo (fresh (a_mode a)))) as E1 by apply set_at_eq.
  destruct (assigns_key o rep).
  - destruct (assign_key_ret y (a_key (fresh (a_mode a))) m1 _ (a_key a) E1 B1 M5) as (m2 & -> & B2 & N2 & S2 & O2 & K2 & _). cbn [bind].
    destruct (assign_state_ret y (mkState INIT y) (a_state (fresh (a_mode a))) m2 (mkL None (a_mode a) None (m_next m1) oy None None None)) as (m3 & -> & B3 & N3 & K3 & O3 & S3 & _);
      [rewrite O2, set_at_eq; reflexivity|exact B2|exact Logic.I|].
    exists m3, (m_next m2), (m_next m1). split; [reflexivity|]. split; [|exact B3].
    split; [rewrite O3, set_at_eq; reflexivity|]. split; [exact S3|rewrite K3; exact K2].
  - cbn [bind]. destruct (assign_state_ret y (mkState INIT y) (a_state (fresh (a_mode a))) m1 _ E1 B1 Logic.I) as (m3 & -> & B3 & N3 & K3 & O3 & S3 & _).
    exists m3, (m_next m1), ky. split; [reflexivity|]. split; [|exact B3].
    split; [rewrite O3, set_at_eq; reflexivity|]. split; [exact S3|]. rewrite K3. cbn. rewrite M5, Ak by reflexivity. reflexivity.
Qed.

Lemma back_to_start lg f ls f1 rs d x y a l w o cs f2 rs2 e r : no_moves ls -> alone no_objects f ls = (f1, rs, Some d) -> d y = Some a -> transfer d x y l ->
  goes_back lg (a_state a) o = true -> calls_of [y] cs ->
  alone no_objects f (ls ++ LCall y w o :: cs) = (f2, rs ++ r :: rs2, e) ->
  lrun lg mem0 f (ls ++ l :: LCall x w o :: cs) = (f2, rs ++ Ret RVoid :: r :: rs2).
Proof.
  intros V A Ey T G Hc A2. assert (tidy a) as Ti by (eapply alone_tidy; [|exact A|exact Ey]; intros ? ? H; discriminate H).
  rewrite (alone_app _ _ _ _ _ _ _ A) in A2. cbn [alone alone_step] in A2. rewrite Ey in A2.
  assert (exists rep, step w a f1 o = (f1, Ret (fresh (a_mode a), rep)) /\ incomplete o = false /\ implemented (a_state a) o = true /\ uses_object w (a_state a) o = true /\
    lg && logs_path o = false /\ uses_key o = false /\ (o <> ODelete) /\ assigns_state o (a_state a) (fresh (a_mode a)) = true /\
    (assigns_key o rep = false -> a_key a = mkBytes [] 0) /\
    forall ky oy, step w (view (a_state a) (a_key a) (mkL None (a_mode a) None ky oy None None None)) f1 o = (f1, Ret (fresh (a_mode a), rep)))
    as (rep & St & I & Im & U & Lp & Uk & Nd & As & Ak & St2).
  { unfold tidy in Ti. destruct (match o with OLogout | OLogoutMode _ => true | _ => false end) eqn:L.
    - destruct o; try discriminate L; exists RVoid; cbn; rewrite ?andb_false_r; repeat (split; [reflexivity || discriminate|]); auto; try discriminate.
    - destruct o; try discriminate L; try (destruct (a_state a); discriminate G).
      unfold goes_back in G. exists ROk. cbn [step view a_state]. destruct (a_state a) eqn:Es; try discriminate G; destruct lg; try discriminate G; destruct Ti as (T1 & T2 & T3);
        unfold unselectFile, fresh; cbn [a_mode a_fdata a_key a_enc l_mode l_fdata l_enc view]; rewrite ?T1, ?T2, ?T3; cbn; repeat (split; [reflexivity || discriminate|]); auto. }
  rewrite St in A2. cbn [bind] in A2.
  destruct (alone (with_object d y (Some (fresh (a_mode a)))) f1 cs) as [[f4 rs4] e4] eqn:A4. injection A2 as <- E2 <-. apply app_inv_head in E2. injection E2 as <- <-.
  destruct (run_transfer lg f ls f1 rs d x y a l V A Ey T) as (m & s & kx & ky & oy & M & _ & R). rewrite R.
  destruct M as (M1 & M2 & M3 & M4 & M5 & N0 & B). cbn [lrun lstep]. unfold call. rewrite M1. cbn [l_state ptr bind]. rewrite I, M3. cbn [ptr]. rewrite Im, U. cbn [negb].
  rewrite M2. cbn [l_key]. rewrite Lp, Uk. cbn [andb]. rewrite M5, St2. cbn [bind].
  destruct (reset_at m y a ky oy o (a_state a) rep M2 M5 B As Ak) as (m' & s' & k' & Eb & I' & B').
  replace (match o, rep with ODelete, ROk => unselect_at lg y m | _, _ => m0 <- store_back y (a_state a) o (mkL None (a_mode a) None ky oy None None None) (fresh (a_mode a)) rep m ;; Ret (m0, rep) end)
    with (Ret (m', rep) : outcome (mem * reply)) by (rewrite Eb; destruct o; try reflexivity; contradiction Nd; reflexivity).
  rewrite (run_at lg y oy cs (with_object d y (Some (fresh (a_mode a)))) m' f1 f4 rs4 e4 _ s' k' Hc (with_eq _ _ _) B' I' (file_ok_fresh _) A4). reflexivity.
Qed.

(** calls that do not need the members are answered *)
Lemma spares w s o : needs_members s o = false -> incomplete o = false -> implemented s o = true ->
  (s = INIT -> forall dir n ns, o = OList dir -> getAllEncFileNames w dir <> Ret (inr (n :: ns))) -> uses_object w s o = false.
Proof.
  intros Nm I M L. destruct o; try reflexivity; destruct s; cbn in Nm, M |- *; try discriminate Nm; try discriminate M; try reflexivity.
  - specialize (L eq_refl dir). destruct (getAllEncFileNames w dir) as [[c|[|n ns]]| | |]; try reflexivity. contradiction (L n ns eq_refl eq_refl).
  - destruct x as [d|]; [|reflexivity]. unfold fd_isComplete. destruct (fd_mode d); [discriminate Nm|reflexivity].
Qed.
Lemma orphan_run lg f ls f1 rs d x y a l w o : no_moves ls -> alone no_objects f ls = (f1, rs, Some d) -> d y = Some a -> transfer d x y l ->
  exists m, lrun lg mem0 f (ls ++ [l; LDestroy y; LCall x w o]) = (let '(f2, r) := lrun lg m f1 [LCall x w o] in (f2, rs ++ Ret RVoid :: Ret RVoid :: r)) /\
    exists me s, m_objs m x = Some me /\ m_objs m y = None /\ l_state me = Some s /\ m_states m s = Some (mkState (a_state a) y).
Proof.
  intros V A Ey T. destruct (run_transfer lg f ls f1 rs d x y a l V A Ey T) as (m & s & kx & ky & oy & M & _ & R). rewrite R.
  destruct M as (M1 & M2 & M3 & M4 & M5 & N0 & _).
  assert (exists m', (if oy then del_key ky m else Ret m) = Ret m' /\ m_objs m' = m_objs m /\ m_states m' = m_states m) as (m' & Ek & Eo & Es).
  { destruct oy; [unfold del_key; rewrite M5; eexists; split; [reflexivity|split; reflexivity]|eauto]. }
  exists (put_obj y None m'). split.
  - change (lrun lg m f1 [LDestroy y; LCall x w o]) with (match lstep lg m f1 (LDestroy y) with
      | (f', Ret (m1, rep)) => let '(f2, r) := lrun lg m1 f' [LCall x w o] in (f2, Ret rep :: r)
      | (f', Throw e) => let '(f2, r) := lrun lg m f' [LCall x w o] in (f2, Throw e :: r)
      | (f', Crash c) => (f', [Crash c]) | (f', OutOfFuel) => (f', [OutOfFuel]) end).
    unfold lstep at 1. rewrite M2. cbn [ptr bind l_own l_key l_state]. rewrite Ek. cbn [bind del_state].
    destruct (lrun lg (put_obj y None m') f1 [LCall x w o]) as [f2 r]. reflexivity.
  - eexists _, s. cbn [put_obj m_objs m_states]. rewrite set_at_ne by exact N0. rewrite Eo, Es. split; [exact M1|]. split; [apply set_at_eq|]. split; [reflexivity|exact M3].
Qed.
Lemma orphan_answers lg f ls f1 rs d x y a l w o f2 r e : no_moves ls -> alone no_objects f ls = (f1, rs, Some d) -> d y = Some a -> transfer d x y l ->
  needs_members (a_state a) o = false -> (a_state a = INIT -> forall dir n ns, o = OList dir -> getAllEncFileNames w dir <> Ret (inr (n :: ns))) ->
  alone no_objects f (ls ++ [LCall y w o]) = (f2, rs ++ [r], e) ->
  lrun lg mem0 f (ls ++ [l; LDestroy y; LCall x w o]) = (f2, rs ++ [Ret RVoid; Ret RVoid; r]).
Proof.
  intros V A Ey T Nm L B. destruct (orphan_run lg f ls f1 rs d x y a l w o V A Ey T) as (m & -> & me & s & E1 & E2 & E3 & E4).
  assert (alone no_objects f (ls ++ [LCall y w o]) = (let '(f2, rs2, e) := alone d f1 [LCall y w o] in (f2, rs ++ rs2, e))) as Q by (apply alone_app; exact A).
  rewrite B in Q. clear B. cbn [alone alone_step lrun lstep] in *. rewrite Ey in Q. unfold call. rewrite E1, E3. cbn [ptr bind]. rewrite E4. cbn [ptr].
  destruct (incomplete o) eqn:I.
  - rewrite (step_incomplete w a f1 o I) in Q. cbn in Q. injection Q as -> Q _. apply app_inv_head in Q. injection Q as ->. reflexivity.
  - destruct (implemented (a_state a) o) eqn:M.
    + rewrite (spares w (a_state a) o Nm I M L). cbn [negb]. rewrite (step_bare w a f1 o I M (spares w (a_state a) o Nm I M L)) in Q.
      destruct (step w (bare (a_state a)) f1 o) as [f3 [[b rep]|t|c|]]; cbn [bind] in Q |- *; injection Q as -> Q _; apply app_inv_head in Q; injection Q as ->; reflexivity.
    + rewrite (step_invalid w a f1 o I M) in Q. cbn in Q. injection Q as -> Q _. apply app_inv_head in Q. injection Q as ->. reflexivity.
Qed.
Lemma orphan_list lg f ls f1 rs d x y a l w dir n ns : no_moves ls -> alone no_objects f ls = (f1, rs, Some d) -> d y = Some a -> transfer d x y l ->
  a_state a = INIT -> getAllEncFileNames w dir = Ret (inr (n :: ns)) ->
  lrun lg mem0 f (ls ++ [l; LDestroy y; LCall x w (OList dir)]) = (f1, rs ++ [Ret RVoid; Ret RVoid; Crash Undefined]).
Proof.
  intros V A Ey T Es En. destruct (orphan_run lg f ls f1 rs d x y a l w (OList dir) V A Ey T) as (m & -> & me & s & E1 & E2 & E3 & E4).
  cbn [lrun lstep]. unfold call. rewrite E1, E3. cbn [ptr bind incomplete]. rewrite E4, Es. cbn [ptr implemented negb uses_object]. rewrite En. cbn [negb]. rewrite E2. reflexivity.
Qed.
Lemma moved_answers lg f ls f1 rs d x y a l w o f2 r e : no_moves ls -> alone no_objects f ls = (f1, rs, Some d) -> d y = Some a -> transfer d x y l ->
  needs_members (a_state a) o = false -> (a_state a = INIT -> forall dir n ns, o = OList dir -> getAllEncFileNames w dir <> Ret (inr (n :: ns))) ->
  alone no_objects f (ls ++ [LCall y w o]) = (f2, rs ++ [r], e) ->
  lrun lg mem0 f (ls ++ [l; LCall x w o]) = (f2, rs ++ [Ret RVoid; r]).
Proof.
  intros V A Ey T Nm L B. destruct (run_transfer lg f ls f1 rs d x y a l V A Ey T) as (m & s & kx & ky & oy & M & _ & R). rewrite R.
  destruct M as (M1 & M2 & M3 & M4 & M5 & N0 & _).
  assert (alone no_objects f (ls ++ [LCall y w o]) = (let '(f2, rs2, e) := alone d f1 [LCall y w o] in (f2, rs ++ rs2, e))) as Q by (apply alone_app; exact A).
  rewrite B in Q. clear B. cbn [alone alone_step lrun lstep] in *. rewrite Ey in Q. unfold call. rewrite M1. cbn [l_state ptr bind]. rewrite M3. cbn [ptr].
  destruct (incomplete o) eqn:I.
  - rewrite (step_incomplete w a f1 o I) in Q. cbn in Q. injection Q as -> Q _. apply app_inv_head in Q. injection Q as ->. reflexivity.
  - destruct (implemented (a_state a) o) eqn:Im.
    + rewrite (spares w (a_state a) o Nm I Im L). cbn [negb]. rewrite (step_bare w a f1 o I Im (spares w (a_state a) o Nm I Im L)) in Q.
      destruct (step w (bare (a_state a)) f1 o) as [f3 [[b rep]|t|c|]]; cbn [bind] in Q |- *; injection Q as -> Q _; apply app_inv_head in Q; injection Q as ->; reflexivity.
    + rewrite (step_invalid w a f1 o I Im) in Q. cbn in Q. injection Q as -> Q _. apply app_inv_head in Q. injection Q as ->. reflexivity.
Qed.
