From Verif Require Import Base BytesModel MiscModel HeaderModel FileModel ApiModel ApiSpec LifeModel LifeSpec LifeFacts1 LifeFacts2 LifeFacts3.
From Coq Require Import Lia.
Open Scope list_scope.

(** the object [y] was moved to [x] *)
Definition moved (m : mem) (x y : N) (a : api) (s kx ky : N) (oy : bool) : Prop :=
  m_objs m x = Some (mkL (Some s) (a_mode a) (a_fdata a) kx true (a_enc a) (a_dh a) (a_file a)) /\
  m_objs m y = Some (mkL None (a_mode a) None ky oy None None None) /\
  m_states m s = Some (mkState (a_state a) y) /\ m_keys m kx = Some (a_key a) /\ m_keys m ky = Some (a_key a) /\ x <> y /\ bound m.

Lemma moved_move lg d m f x y a : whole d m -> d y = Some a -> d x = None ->
  exists m' s k, lstep lg m f (LMove x y) = (f, Ret (m', RVoid)) /\ moved m' x y a s k k false.
Proof.
  intros (B & P & Q & D) Ey Ex. destruct (P y a Ey) as (_ & s & k & E1 & E2 & E3).
  assert (x <> y) as N0 by congruence. cbn [lstep]. unfold unused. rewrite (Q x Ex). cbn [bind]. rewrite E1. cbn [ptr bind].
  eexists _, s, k. split; [reflexivity|]. split; [cbn; rewrite set_at_eq; reflexivity|].
  split; [cbn; rewrite set_at_ne by (apply not_eq_sym; exact N0); rewrite set_at_eq; reflexivity|].
  split; [exact E2|]. split; [exact E3|]. split; [exact E3|]. split; [exact N0|exact B].
Qed.
Lemma moved_assign lg d m f x y a ax : whole d m -> d y = Some a -> d x = Some ax -> x <> y ->
  exists m' s kx ky, lstep lg m f (LAssign x y) = (f, Ret (m', RVoid)) /\ moved m' x y a s kx ky true /\ kx <> ky.
Proof.
  intros (B & P & Q & D) Ey Ex N0. destruct (P y a Ey) as (_ & s & k & E1 & E2 & E3). destruct (P x ax Ex) as (_ & t & j & G1 & G2 & G3).
  assert (s <> t) as Ns by (intros ->; rewrite E2 in G2; injection G2 as _ G2; congruence).
  assert (j <> k) as Nk by (apply (D x y _ _ G1 E1 N0)). destruct B as [B1 B2].
  assert (s < m_next m) as Ls by (apply B1; congruence). assert (k < m_next m) as Lk by (apply B2; congruence).
  cbn [lstep]. rewrite G1, E1. cbn [ptr bind l_state l_key l_own]. destruct (N.eqb_spec x y); [contradiction|].
  cbn [del_state]. rewrite G2. cbn [bind]. unfold del_key. cbn [m_keys]. rewrite G3. cbn [bind m_keys]. rewrite set_at_ne by (apply not_eq_sym; exact Nk). rewrite E3. cbn [ptr bind new_key m_next].
  eexists _, s, (m_next m), k. split; [reflexivity|]. split; [|lia]. split; [cbn; rewrite set_at_eq; reflexivity|].
  split; [cbn; rewrite set_at_ne by (apply not_eq_sym; exact N0); rewrite set_at_eq; reflexivity|].
  split; [cbn; rewrite set_at_ne by exact Ns; exact E2|]. split; [cbn; rewrite set_at_eq; reflexivity|].
  split; [cbn; rewrite set_at_ne by lia; rewrite set_at_ne by (apply not_eq_sym; exact Nk); exact E3|]. split; [exact N0|].
  split; cbn; intros u; look; intros Hu; try lia; try congruence; first [specialize (B1 u Hu)|specialize (B2 u Hu)]; lia.
Qed.

Lemma moved_transfer lg d m f x y a l : whole d m -> d y = Some a -> transfer d x y l ->
  exists m' s kx ky oy, lstep lg m f l = (f, Ret (m', RVoid)) /\ moved m' x y a s kx ky oy.
Proof.
  intros W Ey [[-> Ex]|(-> & Ex & N0)].
  - destruct (moved_move lg d m f x y a W Ey Ex) as (m' & s & k & E & M). eauto 9.
  - destruct (d x) as [ax|] eqn:E; [|contradiction]. destruct (moved_assign lg d m f x y a ax W Ey E N0) as (m' & s & kx & ky & E1 & M & _). eauto 9.
Qed.
Lemma run_transfer lg f ls f1 rs d x y a l : no_moves ls -> alone no_objects f ls = (f1, rs, Some d) -> d y = Some a -> transfer d x y l ->
  exists m s kx ky oy, moved m x y a s kx ky oy /\ (l = LMove x y -> kx = ky) /\
    forall rest, lrun lg mem0 f (ls ++ l :: rest) = (let '(f3, rs') := lrun lg m f1 rest in (f3, rs ++ Ret RVoid :: rs')).
Proof.
  intros V A Ey T. destruct (lrun_alone lg ls no_objects mem0 f f1 rs _ whole_mem0 V A) as (m0 & W & L).
  assert (exists m s kx ky oy, lstep lg m0 f1 l = (f1, Ret (m, RVoid)) /\ moved m x y a s kx ky oy /\ (l = LMove x y -> kx = ky)) as (m & s & kx & ky & oy & E & M & K).
  { pose proof T as [[-> Ex]|(-> & Ex & N0)].
    - destruct (moved_move lg d m0 f1 x y a W Ey Ex) as (m' & s & k & E & M). exists m', s, k, k, false. auto.
    - destruct (d x) as [ax|] eqn:E0; [|contradiction]. destruct (moved_assign lg d m0 f1 x y a ax W Ey E0 N0) as (m' & s & kx & ky & E1 & M & _). exists m', s, kx, ky, true. split; [exact E1|]. split; [exact M|]. discriminate. }
  exists m, s, kx, ky, oy. split; [exact M|]. split; [exact K|]. intros rest. rewrite L. cbn [lrun]. rewrite E. destruct (lrun lg m f1 rest). reflexivity.
Qed.

Lemma lacks_incomplete o : lacks_settings o <-> incomplete o = true.
Proof. destruct o; cbn; try (split; [contradiction|discriminate]); rewrite negb_true_iff; reflexivity. Qed.
Lemma offered_implemented s o : offered s o = implemented s o.
Proof. destruct s, o; reflexivity. Qed.

(** ** The object that was moved from *)
Lemma moved_from_call lg m f x y a s kx ky oy w o : moved m x y a s kx ky oy ->
  call lg w m f y o = (f, if incomplete o then Ret (m, failed ERR_DATAHEADERSETTINGS_INCOMPLETE) else Crash Undefined).
Proof. intros (_ & E & _). unfold call. rewrite E. destruct (incomplete o); reflexivity. Qed.
Lemma moved_from_dead lg f ls f1 rs d x y a l w o : no_moves ls -> alone no_objects f ls = (f1, rs, Some d) -> d y = Some a -> transfer d x y l ->
  ~ lacks_settings o -> lrun lg mem0 f (ls ++ [l; LCall y w o]) = (f1, rs ++ [Ret RVoid; Crash Undefined]).
Proof.
  intros V A Ey T S. destruct (run_transfer lg f ls f1 rs d x y a l V A Ey T) as (m & s & kx & ky & oy & M & _ & R). rewrite R.
  cbn [lrun lstep]. rewrite (moved_from_call lg m f1 x y a s kx ky oy w o M). rewrite lacks_incomplete in S. destruct (incomplete o); [contradiction S; reflexivity|reflexivity].
Qed.

(** ** Destroying both *)
Lemma unnoticed lg f ls f1 rs d x y a l : no_moves ls -> alone no_objects f ls = (f1, rs, Some d) -> d y = Some a -> transfer d x y l ->
  lrun lg mem0 f (ls ++ [l; LDestroy y; LDestroy x]) = (f1, rs ++ [Ret RVoid; Ret RVoid; Ret RVoid]) /\
  lrun lg mem0 f (ls ++ [l; LDestroy x; LDestroy y]) = (f1, rs ++ [Ret RVoid; Ret RVoid; Ret RVoid]).
Proof.
  intros V A Ey T. destruct (lrun_alone lg ls no_objects mem0 f f1 rs _ whole_mem0 V A) as (m0 & W & L).
  assert (exists m s kx ky oy, lstep lg m0 f1 l = (f1, Ret (m, RVoid)) /\ moved m x y a s kx ky oy /\ (oy = true -> kx <> ky)) as (m & s & kx & ky & oy & E & M & K).
  { pose proof T as [[-> Ex]|(-> & Ex & N0)].
    - destruct (moved_move lg d m0 f1 x y a W Ey Ex) as (m' & s & k & E & M). exists m', s, k, k, false. split; [exact E|]. split; [exact M|discriminate].
    - destruct (d x) as [ax|] eqn:E0; [|contradiction]. destruct (moved_assign lg d m0 f1 x y a ax W Ey E0 N0) as (m' & s & kx & ky & E1 & M & Nk). exists m', s, kx, ky, true. auto. }
  destruct M as (M1 & M2 & M3 & M4 & M5 & N0 & _). rewrite !L. cbn [lrun]. rewrite E. split.
  - cbn [lstep]. rewrite M2. cbn [ptr bind l_own l_key l_state]. destruct oy.
    + unfold del_key at 1. rewrite M5. cbn [bind del_state lrun lstep put_obj m_objs]. rewrite set_at_ne by exact N0. rewrite M1. cbn [ptr bind l_own l_key l_state].
      unfold del_key, put_obj. cbn [m_keys]. rewrite set_at_ne by (apply K; reflexivity). rewrite M4. cbn [bind del_state m_states]. rewrite M3. reflexivity.
    + cbn [bind del_state lrun lstep put_obj m_objs]. rewrite set_at_ne by exact N0. rewrite M1. cbn [ptr bind l_own l_key l_state].
      unfold del_key, put_obj. cbn [m_keys]. rewrite M4. cbn [bind del_state m_states]. rewrite M3. reflexivity.
  - cbn [lstep]. rewrite M1. cbn [ptr bind l_own l_key l_state]. unfold del_key at 1. rewrite M4. cbn [bind del_state m_states]. rewrite M3.
    cbn [bind lrun lstep put_obj m_objs]. rewrite set_at_ne by (apply not_eq_sym; exact N0). rewrite M2. cbn [ptr bind l_own l_key l_state]. destruct oy; [|reflexivity].
    unfold del_key, put_obj. cbn [m_keys]. rewrite set_at_ne by (apply not_eq_sym, K; reflexivity). rewrite M5. reflexivity.
Qed.

(** ** The object that was moved to, after the other one is gone *)
Lemma needs_uses w s o : needs_members s o = true -> implemented s o = true /\ uses_object w s o = true.
Proof. destruct s, o; cbn; try discriminate; auto; destruct x as [d|]; try discriminate; unfold fd_isComplete; destruct (fd_mode d); cbn; auto; discriminate. Qed.
Lemma orphan lg f ls f1 rs d x y a l w o : no_moves ls -> alone no_objects f ls = (f1, rs, Some d) -> d y = Some a -> transfer d x y l ->
  needs_members (a_state a) o = true -> ~ lacks_settings o ->
  lrun lg mem0 f (ls ++ [l; LDestroy y; LCall x w o]) = (f1, rs ++ [Ret RVoid; Ret RVoid; Crash Undefined]).
Proof.
  intros V A Ey T Nm S. rewrite lacks_incomplete in S. destruct (needs_uses w _ _ Nm) as [M0 U].
  destruct (run_transfer lg f ls f1 rs d x y a l V A Ey T) as (m & s & kx & ky & oy & M & _ & R). rewrite R.
  destruct M as (M1 & M2 & M3 & M4 & M5 & N0 & _). cbn [lrun lstep]. rewrite M2. cbn [ptr bind l_own l_key l_state].
  assert (exists m', (if oy then del_key ky m else Ret m) = Ret m' /\ m_objs m' = m_objs m /\ m_states m' = m_states m) as (m' & -> & Eo & Es).
  { destruct oy; [unfold del_key; rewrite M5; eexists; split; [reflexivity|split; reflexivity]|eauto]. }
  cbn [bind del_state lrun lstep]. unfold call. cbn [put_obj m_objs m_states]. rewrite Eo, set_at_ne by exact N0. rewrite M1.
  destruct (incomplete o); [contradiction S; reflexivity|]. cbn [l_state ptr bind]. rewrite Es, M3. cbn [ptr]. rewrite M0, U. cbn [negb].
  rewrite set_at_eq. reflexivity.
Qed.
