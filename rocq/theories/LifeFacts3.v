From Verif Require Import Base BytesModel MiscModel HeaderModel FileModel ApiModel ApiSpec LifeModel LifeSpec LifeFacts1 LifeFacts2.
From Coq Require Import Lia.

(** the memory stands for independent objects *)
Definition whole (d : objects) (m : mem) : Prop :=
  bound m /\ (forall x a, d x = Some a -> file_ok a /\ exists s k, is_at m x a s k true) /\ (forall x, d x = None -> m_objs m x = None) /\
  (forall x y ox oy, m_objs m x = Some ox -> m_objs m y = Some oy -> x <> y -> l_key ox <> l_key oy).

Lemma whole_mem0 : whole no_objects mem0.
Proof. repeat split; cbn; try discriminate; try congruence. Qed.
Lemma with_eq d x a : with_object d x a x = a.
Proof. unfold with_object. rewrite N.eqb_refl. reflexivity. Qed.
Lemma with_ne d x a y : y <> x -> with_object d x a y = d y.
Proof. intros D. unfold with_object. destruct (N.eqb_spec y x); [contradiction|reflexivity]. Qed.

Lemma lstep_alone lg d m f l f' r : whole d m -> moves l = false -> alone_step d f l = (f', r) ->
  match r with
  | Ret (d', rep) => exists m', lstep lg m f l = (f', Ret (m', rep)) /\ whole d' m'
  | Throw e => lstep lg m f l = (f', Throw e)
  | Crash c => lstep lg m f l = (f', Crash c)
  | OutOfFuel => lstep lg m f l = (f', OutOfFuel)
  end.
Proof.
  intros W V T. pose proof W as (B & P & Q & D). destruct l; cbn [moves] in V; try discriminate V; cbn [alone_step] in T.
  - (* LNew *) injection T as <- <-. cbn [lstep]. unfold unused. destruct (d x) as [a|] eqn:Ed.
    { destruct (P x a Ed) as (_ & s & k & E & _). rewrite E. reflexivity. }
    rewrite (Q x Ed). cbn [bind]. unfold newAPI. cbn [new_state new_key bind]. cbn. destruct (file_mode_valid mode); [|reflexivity].
    eexists. split; [reflexivity|]. destruct B as [B1 B2].
    assert (m_states m (m_next m + 1) = None) as Z1 by (destruct (m_states m (m_next m + 1)) eqn:Z; [|reflexivity]; assert (m_next m + 1 < m_next m) by (apply B1; congruence); lia).
    split; [|split; [|split]].
    + split; cbn.
      * intros t. look; intros Ht; try lia. specialize (B1 t Ht). lia.
      * intros t. look; intros Ht; try lia. specialize (B2 t Ht). lia.
    + intros y a E. destruct (N.eq_dec y x) as [->|N0].
      * rewrite with_eq in E. injection E as <-. split; [exact Logic.I|]. exists (m_next m), (m_next m + 1). split; [cbn; rewrite set_at_eq; reflexivity|].
        split; cbn; [rewrite set_at_eq; reflexivity|rewrite set_at_eq; reflexivity].
      * rewrite with_ne in E by exact N0. destruct (P y a E) as (F & s & k & E1 & E2 & E3). split; [exact F|]. exists s, k.
        assert (s < m_next m) by (apply B1; congruence). assert (k < m_next m) by (apply B2; congruence).
        split; [cbn; rewrite set_at_ne by exact N0; exact E1|]. split; cbn; [rewrite set_at_ne by lia; exact E2|rewrite set_at_ne by lia; exact E3].
    + intros y E. destruct (N.eq_dec y x) as [->|N0]; [rewrite with_eq in E; discriminate|]. rewrite with_ne in E by exact N0. cbn. rewrite set_at_ne by exact N0. auto.
    + assert (forall y oy, y <> x -> m_objs m y = Some oy -> l_key oy < m_next m) as L.
      { intros y oy N0 E. destruct (d y) as [a|] eqn:Ey; [|rewrite (Q y Ey) in E; discriminate].
        destruct (P y a Ey) as (_ & s & k & E1 & _ & E3). rewrite E1 in E. injection E as <-. cbn. apply B2. congruence. }
      intros y z oy oz Ey Ez N0. cbn in Ey, Ez. unfold set_at in Ey, Ez.
      destruct (N.eqb_spec y x); destruct (N.eqb_spec z x); subst; try contradiction.
      * injection Ey as <-. cbn. specialize (L z oz n Ez). lia.
      * injection Ez as <-. cbn. specialize (L y oy n Ey). lia.
      * eapply D; eassumption.
  - (* LDestroy *) injection T as <- <-. cbn [lstep]. destruct (d x) as [a|] eqn:Ed; [|rewrite (Q x Ed); reflexivity].
    destruct (P x a Ed) as (_ & s & k & E1 & E2 & E3). rewrite E1. cbn [ptr bind l_own l_key l_state]. unfold del_key. rewrite E3. cbn [bind del_state m_states].
    rewrite E2. cbn [bind]. eexists. split; [reflexivity|]. destruct B as [B1 B2]. split; [|split; [|split]].
    + split; cbn.
      * intros t. look; intros Ht; try congruence. specialize (B1 t Ht). lia.
      * intros t. look; intros Ht; try congruence. specialize (B2 t Ht). lia.
    + intros y b E. destruct (N.eq_dec y x) as [->|N0]; [rewrite with_eq in E; discriminate|]. rewrite with_ne in E by exact N0.
      destruct (P y b E) as (F & s' & k' & G1 & G2 & G3). split; [exact F|]. exists s', k'.
      assert (s' <> s) by (intros ->; rewrite E2 in G2; injection G2 as _ G2; congruence).
      assert (k' <> k) by (apply (D y x _ _ G1 E1 N0)).
      split; [cbn; rewrite set_at_ne by exact N0; exact G1|]. split; cbn; rewrite set_at_ne by assumption; assumption.
    + intros y E. cbn. destruct (N.eq_dec y x) as [->|N0]; [rewrite set_at_eq; reflexivity|]. rewrite with_ne in E by exact N0. rewrite set_at_ne by exact N0. auto.
    + intros y z oy oz Ey Ez N0. cbn in Ey, Ez. unfold set_at in Ey, Ez. destruct (N.eqb_spec y x); [discriminate|]. destruct (N.eqb_spec z x); [discriminate|]. eapply D; eassumption.
  - (* LCall *) cbn [lstep]. destruct (d x) as [a|] eqn:Ed.
    2:{ injection T as <- <-. unfold call. rewrite (Q x Ed). reflexivity. }
    destruct (P x a Ed) as (F & s & k & I). destruct (step w a f o) as [f1 r1] eqn:St.
    pose proof (call_at lg w m f x o a s k true f1 r1 B I F St) as C.
    destruct r1 as [[a' rep]| | |]; cbn [bind] in T; injection T as <- <-; try exact C.
    destruct C as (m' & s' & k' & C & I' & B' & (N1 & N2 & N3 & N4 & N5) & _). exists m'. split; [exact C|].
    destruct (step_effect _ _ _ _ _ _ _ F St) as (_ & _ & F'). pose proof I as (E1 & E2 & E3). pose proof I' as (E1' & E2' & E3').
    assert (k' = k \/ m_next m <= k') as Hk.
    { destruct (N.eq_dec k' k); [left; assumption|right]. destruct (N.le_gt_cases (m_next m) k') as [|L]; [assumption|exfalso].
      pose proof (call_at lg w m f x o a s k true f1 _ B I F St) as (m2 & s2 & k2 & C2 & I2 & _ & _ & K2). rewrite C in C2. injection C2 as <-.
      assert (k2 = k') by (destruct I2 as (I2 & _); rewrite E1' in I2; congruence). subst k2. destruct (assigns_key o rep); [lia|congruence]. }
    split; [exact B'|]. split; [|split].
    + intros y b E. destruct (N.eq_dec y x) as [->|N0].
      * rewrite with_eq in E. injection E as <-. split; [exact F'|]. exists s', k'. exact I'.
      * rewrite with_ne in E by exact N0. destruct (P y b E) as (F2 & s2 & k2 & G1 & G2 & G3). split; [exact F2|]. exists s2, k2.
        assert (s2 < m_next m) by (apply (proj1 B); congruence). assert (k2 < m_next m) by (apply (proj2 B); congruence).
        assert (s2 <> s) by (intros ->; rewrite E2 in G2; injection G2 as _ G2; congruence).
        assert (k2 <> k) by (apply (D y x _ _ G1 E1 N0)).
        split; [rewrite N1 by exact N0; exact G1|]. split; [rewrite N2; [exact G2|assumption|destruct N3 as [->|[? _]]; [assumption|lia]]|].
        rewrite N4; [exact G3|assumption|destruct Hk as [->|?]; [assumption|lia]].
    + intros y E. destruct (N.eq_dec y x) as [->|N0]; [rewrite with_eq in E; discriminate|]. rewrite with_ne in E by exact N0. rewrite N1 by exact N0. auto.
    + assert (forall y oy, y <> x -> m_objs m' y = Some oy -> l_key oy <> k') as L.
      { intros y oy N0 E. rewrite N1 in E by exact N0. destruct Hk as [->|Hk]; [apply (D y x _ _ E E1 N0)|].
        destruct (d y) as [b|] eqn:Ey; [|rewrite (Q y Ey) in E; discriminate]. destruct (P y b Ey) as (_ & s2 & k2 & G1 & _ & G3). rewrite G1 in E. injection E as <-. cbn.
        assert (k2 < m_next m) by (apply (proj2 B); congruence). lia. }
      intros y z oy oz Ey Ez N0. destruct (N.eq_dec y x) as [->|Ny]; destruct (N.eq_dec z x) as [->|Nz]; try contradiction.
      * rewrite E1' in Ey. injection Ey as <-. cbn. apply not_eq_sym. eapply L; eassumption.
      * rewrite E1' in Ez. injection Ez as <-. cbn. eapply L; eassumption.
      * rewrite N1 in Ey, Ez by assumption. eapply D; eassumption.
  - injection T as <- <-. cbn. eexists; split; [reflexivity|exact W].
Qed.

(** a program without moves, and a rest behind it *)
Lemma lrun_alone lg ls : forall d m f f2 rs e, whole d m -> no_moves ls -> alone d f ls = (f2, rs, e) ->
  match e with
  | None => forall rest, lrun lg m f (ls ++ rest) = (f2, rs)
  | Some d' => exists m', whole d' m' /\ forall rest, lrun lg m f (ls ++ rest) = (let '(f3, rs') := lrun lg m' f2 rest in (f3, rs ++ rs'))%list
  end.
Proof.
  induction ls as [|l ls IH]; intros d m f f2 rs e W V T; cbn [alone] in T.
  - injection T as <- <- <-. exists m. split; [exact W|]. intros rest. cbn. destruct (lrun lg m f rest); reflexivity.
  - destruct (alone_step d f l) as [f' r] eqn:A. pose proof (lstep_alone lg d m f l f' r W (V l (or_introl eq_refl)) A) as L.
    assert (no_moves ls) as V' by (intros z Hz; apply V; right; exact Hz). cbn [lrun app].
    destruct r as [[d' rep]|x|c|].
    + destruct L as (m' & -> & W'). destruct (alone d' f' ls) as [[f3 rs3] e3] eqn:A3. injection T as <- <- <-.
      specialize (IH d' m' f' f3 rs3 e3 W' V' A3). destruct e3 as [d3|].
      * destruct IH as (m3 & W3 & IH). exists m3. split; [exact W3|]. intros rest. rewrite IH. destruct (lrun lg m3 f3 rest); reflexivity.
      * intros rest. rewrite IH. reflexivity.
    + rewrite L. destruct (alone d f' ls) as [[f3 rs3] e3] eqn:A3. injection T as <- <- <-.
      specialize (IH d m f' f3 rs3 e3 W V' A3). destruct e3 as [d3|].
      * destruct IH as (m3 & W3 & IH). exists m3. split; [exact W3|]. intros rest. rewrite IH. destruct (lrun lg m3 f3 rest); reflexivity.
      * intros rest. rewrite IH. reflexivity.
    + rewrite L. injection T as <- <- <-. reflexivity.
    + rewrite L. injection T as <- <- <-. reflexivity.
Qed.

Lemma alone_run lg f ls : no_moves ls -> lrun lg mem0 f ls = fst (alone no_objects f ls).
Proof.
  intros V. destruct (alone no_objects f ls) as [[f2 rs] e] eqn:A. pose proof (lrun_alone lg ls no_objects mem0 f f2 rs e whole_mem0 V A) as L. cbn.
  destruct e as [d|].
  - destruct L as (m' & _ & L). specialize (L []). rewrite app_nil_r in L. rewrite L. cbn. rewrite app_nil_r. reflexivity.
  - specialize (L []). rewrite app_nil_r in L. exact L.
Qed.
