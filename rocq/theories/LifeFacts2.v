From Verif Require Import Base BytesModel MiscModel HeaderModel FileModel ApiModel ApiSpec LifeModel LifeSpec LifeFacts1.
From Coq Require Import Lia.

Definition bound (m : mem) : Prop := (forall s, m_states m s <> None -> s < m_next m) /\ (forall k, m_keys m k <> None -> k < m_next m).
(** the object at [x] with state object [s] and password hash array [k] stands for [a] *)
Definition is_at (m : mem) (x : N) (a : api) (s k : N) (own : bool) : Prop :=
  m_objs m x = Some (mkL (Some s) (a_mode a) (a_fdata a) k own (a_enc a) (a_dh a) (a_file a)) /\
  m_states m s = Some (mkState (a_state a) x) /\ m_keys m k = Some (a_key a).
(** what has changed is the object at [x], its state object and its array *)
Definition near (m m' : mem) (x s k s' k' : N) : Prop :=
  (forall z, z <> x -> m_objs m' z = m_objs m z) /\
  (forall t, t <> s -> t <> s' -> m_states m' t = m_states m t) /\ (s' = s \/ (m_next m <= s' /\ m_states m' s = None)) /\
  (forall t, t <> k -> t <> k' -> m_keys m' t = m_keys m t) /\ m_next m <= m_next m'.

Lemma near_refl m x s k : near m m x s k s k.
Proof. repeat split; auto. lia. Qed.

Ltac bnd := unfold bound in *; cbn [m_next m_states m_keys m_objs] in *.
Ltac look := unfold set_at; repeat match goal with |- context[?a =? ?b] => destruct (N.eqb_spec a b); try lia; try congruence; subst end.

Lemma bound_set_state m s v : bound m -> s < m_next m -> bound (mkMem (m_next m) (set_at (m_states m) s v) (m_keys m) (m_objs m) (m_left m)).
Proof. intros [B1 B2] L. split; cbn; [|exact B2]. intros t. unfold set_at. destruct (N.eqb_spec t s); [lia|apply B1]. Qed.

Lemma assign_state_ret x c k m o : m_objs m x = Some o -> bound m ->
  match l_state o with Some s => m_states m s = Some c | None => True end ->
  exists m', assign_state x k m = Ret m' /\ bound m' /\ m_next m <= m_next m' /\ m_keys m' = m_keys m /\
    m_objs m' = set_at (m_objs m) x (Some (mkL (Some (m_next m)) (l_mode o) (l_fdata o) (l_key o) (l_own o) (l_enc o) (l_dh o) (l_file o))) /\
    m_states m' (m_next m) = Some (mkState k x) /\
    (forall s, l_state o = Some s -> m_states m' s = None) /\
    (forall t, t <> m_next m -> l_state o <> Some t -> m_states m' t = m_states m t).
Proof.
  intros E [B1 B2] S. unfold assign_state. rewrite E. cbn [ptr bind new_state]. cbn. destruct (l_state o) as [s|] eqn:Es; cbn [del_state].
  - assert (s < m_next m) as L by (apply B1; congruence). cbn. rewrite set_at_ne by lia. rewrite S. cbn. eexists. split; [reflexivity|].
    cbn. split; [split; cbn; [|intros t Ht; specialize (B2 t Ht); lia]|].
    { intros t. look; intros Ht; try lia. specialize (B1 t Ht). lia. }
    split; [lia|]. split; [reflexivity|]. split; [reflexivity|]. split; [look|].
    split; [intros s0 H0; injection H0 as <-; look|]. intros t H1 H2. look.
  - cbn. eexists. split; [reflexivity|]. cbn. split; [split; cbn; [|intros t Ht; specialize (B2 t Ht); lia]|].
    { intros t. look; intros Ht; try lia. specialize (B1 t Ht). lia. }
    split; [lia|]. split; [reflexivity|]. split; [reflexivity|]. split; [look|]. split; [congruence|]. intros t H1 H2. look.
Qed.
Lemma assign_key_ret x b m o b0 : m_objs m x = Some o -> bound m -> m_keys m (l_key o) = Some b0 ->
  exists m', assign_key x b m = Ret m' /\ bound m' /\ m_next m <= m_next m' /\ m_states m' = m_states m /\
    m_objs m' = set_at (m_objs m) x (Some (mkL (l_state o) (l_mode o) (l_fdata o) (m_next m) (l_own o) (l_enc o) (l_dh o) (l_file o))) /\
    m_keys m' (m_next m) = Some b /\ m_keys m' (l_key o) = None /\
    (forall t, t <> m_next m -> t <> l_key o -> m_keys m' t = m_keys m t).
Proof.
  intros E [B1 B2] K. unfold assign_key. rewrite E. cbn [ptr bind]. unfold del_key. rewrite K. cbn.
  assert (l_key o < m_next m) as L by (apply B2; congruence).
  eexists. split; [reflexivity|]. cbn. split; [split; cbn; [intros t Ht; specialize (B1 t Ht); lia|]|].
  { intros t. look; intros Ht; try lia. specialize (B2 t Ht). lia. }
  split; [lia|]. split; [reflexivity|]. split; [reflexivity|]. split; [look|]. split; [look|]. intros t H1 H2. look.
Qed.

Lemma put_same {A} (g : N -> option A) x u v : forall z, set_at (set_at g x u) x v z = set_at g x v z.
Proof. intros z. unfold set_at. destruct (z =? x); reflexivity. Qed.

(** storing the members of an object that is whole *)
Lemma store_back_at m x s k own y a o rep c b : bound m -> m_objs m x = Some y -> l_state y = Some s -> l_key y = k -> l_own y = own ->
  m_states m s = Some (mkState c x) -> m_keys m k = Some b -> (assigns_key o rep = false -> a_key a = b) ->
  exists m' s' k', store_back x c o y a rep m = Ret m' /\ is_at m' x a s' k' own /\ bound m' /\ near m m' x s k s' k' /\
    (if assigns_key o rep then m_next m <= k' /\ m_keys m' k = None else k' = k).
Proof.
  intros B E Es Ek Eo S K A. unfold store_back. set (m1 := put_obj x (Some (members y a)) m).
  assert (bound m1) as B1 by exact B.
  assert (m_objs m1 x = Some (members y a)) as E1 by (apply set_at_eq).
  assert (s < m_next m) as Ls by (apply (proj1 B); congruence). assert (k < m_next m) as Lk by (apply (proj2 B); congruence).
  assert (exists m2 k2, (if assigns_key o rep then assign_key x (a_key a) m1 else Ret m1) = Ret m2 /\ bound m2 /\ m_next m <= m_next m2 /\
    m_states m2 = m_states m /\ (forall z, z <> x -> m_objs m2 z = m_objs m z) /\
    m_objs m2 x = Some (mkL (Some s) (a_mode a) (a_fdata a) k2 own (a_enc a) (a_dh a) (a_file a)) /\ m_keys m2 k2 = Some (a_key a) /\
    (forall t, t <> k -> t <> k2 -> m_keys m2 t = m_keys m t) /\
    (if assigns_key o rep then m_next m <= k2 /\ m_keys m2 k = None else k2 = k)) as (m2 & k2 & -> & B2 & N2 & S2 & O2 & X2 & K2 & F2 & G2).
  { destruct (assigns_key o rep).
    - destruct (assign_key_ret x (a_key a) m1 _ b E1 B1) as (m2 & -> & B2 & N2 & S2 & O2 & K2 & D2 & F2); [cbn; rewrite Ek; exact K|].
      cbn in N2, S2, O2, K2, D2, F2. rewrite Ek, ?Es, ?Eo in *.
      exists m2, (m_next m). split; [reflexivity|]. split; [exact B2|]. split; [exact N2|]. split; [exact S2|]. rewrite O2.
      split; [intros z Hz; rewrite !set_at_ne by exact Hz; reflexivity|]. split; [rewrite set_at_eq; reflexivity|]. split; [exact K2|].
      split; [intros t H1 H2; apply F2; assumption|]. split; [lia|exact D2].
    - exists m1, k. split; [reflexivity|]. split; [exact B1|]. split; [cbn; lia|]. split; [reflexivity|].
      split; [intros z Hz; cbn; rewrite set_at_ne by exact Hz; reflexivity|]. split; [rewrite E1; unfold members; rewrite Es, Ek, Eo; reflexivity|].
      split; [rewrite A by reflexivity; exact K|]. split; reflexivity. }
  cbn [bind]. destruct (assigns_state o c a) eqn:T.
  - destruct (assign_state_ret x (mkState c x) (a_state a) m2 _ X2 B2) as (m3 & -> & B3 & N3 & K3 & O3 & S3 & D3 & F3); [cbn; rewrite S2; exact S|].
    cbn in O3, D3, F3. exists m3, (m_next m2), k2. split; [reflexivity|]. split.
    { split; [rewrite O3, set_at_eq; reflexivity|]. split; [exact S3|rewrite K3; exact K2]. }
    split; [exact B3|]. split.
    { split; [intros z Hz; rewrite O3, set_at_ne by exact Hz; auto|].
      split; [intros t H1 H2; rewrite F3, S2 by congruence; reflexivity|].
      split; [right; split; [exact N2|apply D3; reflexivity]|]. split; [intros t H1 H2; rewrite K3; auto|lia]. }
    destruct (assigns_key o rep); rewrite ?K3; assumption.
  - exists m2, s, k2. split; [reflexivity|]. assert (a_state a = c) as Ec.
    { unfold assigns_state in T. destruct o; try discriminate T; apply negb_false_iff, same_state_spec in T; exact T. }
    split; [split; [exact X2|split; [rewrite S2, Ec; exact S|exact K2]]|]. split; [exact B2|]. split; [|exact G2].
    split; [exact O2|]. split; [intros; rewrite S2; reflexivity|]. split; [left; reflexivity|]. split; [exact F2|exact N2].
Qed.

Lemma delete_shape w a f f' a' : deleteFile w a f = (f', Ret (a', ROk)) -> a' = unselectFile a.
Proof.
  unfold deleteFile. destruct (a_file a); [|discriminate]. destruct (negb _); [discriminate|]. destruct (f _); intros E; inversion E; reflexivity.
Qed.
Lemma view_self a s k own : view (a_state a) (a_key a) (mkL s (a_mode a) (a_fdata a) k own (a_enc a) (a_dh a) (a_file a)) = a.
Proof. destruct a; reflexivity. Qed.

(** a call on an object that is whole *)
Lemma call_at lg w m f x o a s k own f' r : bound m -> is_at m x a s k own -> file_ok a -> step w a f o = (f', r) ->
  match r with
  | Ret (a', rep) => exists m' s' k', call lg w m f x o = (f', Ret (m', rep)) /\ is_at m' x a' s' k' own /\ bound m' /\ near m m' x s k s' k' /\
      (if assigns_key o rep then m_next m <= k' /\ m_keys m' k = None else k' = k)
  | Throw e => call lg w m f x o = (f', Throw e)
  | Crash c => call lg w m f x o = (f', Crash c)
  | OutOfFuel => call lg w m f x o = (f', OutOfFuel)
  end.
Proof.
  intros B (E & S & K) F T. unfold call. rewrite E. destruct (incomplete o) eqn:I.
  { rewrite step_incomplete in T by exact I. injection T as <- <-. exists m, s, k. split; [reflexivity|].
    split; [split; [exact E|split; assumption]|]. split; [exact B|]. split; [apply near_refl|]. destruct o; try discriminate I; reflexivity. }
  cbn [l_state ptr bind]. rewrite S. cbn [ptr]. destruct (implemented (a_state a) o) eqn:M; cbn [negb].
  2:{ rewrite step_invalid in T by assumption. injection T as <- <-. exists m, s, k. split; [reflexivity|].
      split; [split; [exact E|split; assumption]|]. split; [exact B|]. split; [apply near_refl|]. destruct o; try discriminate M; reflexivity. }
  destruct (uses_object w (a_state a) o) eqn:U; cbn [negb].
  2:{ rewrite step_bare in T by assumption. destruct (step w (bare (a_state a)) f o) as [f1 r1]. destruct r1 as [[a1 rep]| | |]; cbn [bind] in T |- *; injection T as <- <-; try reflexivity.
      exists m, s, k. split; [reflexivity|]. split; [split; [exact E|split; assumption]|]. split; [exact B|]. split; [apply near_refl|].
      destruct o; try discriminate U; reflexivity. }
  rewrite E. cbn [l_file l_key]. rewrite K. cbn [isSome negb]. rewrite andb_false_r. rewrite view_self.
  assert (lg && logs_path o && negb (isSome (a_file a)) = false) as ->.
  { destruct o; cbn [logs_path]; rewrite ?andb_false_r; cbn [andb]; try reflexivity; cbn [implemented] in M; unfold file_ok in F;
      destruct (a_state a); try discriminate M; destruct (a_file a); try contradiction; cbn; rewrite ?andb_false_r; reflexivity. }
  rewrite T. destruct r as [[a' rep]| | |]; cbn [bind]; try reflexivity.
  destruct (step_effect _ _ _ _ _ _ _ F T) as (A & _ & _).
  destruct (store_back_at m x s k own _ a' o rep (a_state a) (a_key a) B E eq_refl eq_refl eq_refl S K A) as (m' & s' & k' & Q & R).
  destruct (match o, rep with ODelete, ROk => true | _, _ => false end) eqn:D.
  - destruct o; try discriminate D. destruct rep; try discriminate D.
    assert (a' = unselectFile a) as Ea by (cbn [step implemented] in T, M; destruct (a_state a); try discriminate M; eapply delete_shape; exact T).
    exists m', s', k'. split; [|exact R]. f_equal. unfold unselect_at. rewrite E. cbn [ptr bind l_state]. rewrite S. cbn [ptr bind s_kind s_parent].
    cbn [implemented] in M. rewrite E. cbn [ptr bind l_file l_state l_mode l_fdata l_key l_own l_enc].
    unfold store_back in Q. cbn [assigns_key bind] in Q. unfold assigns_state in Q. subst a'.
    unfold file_ok in F. destruct (a_state a); try discriminate M; (destruct (a_file a); [|contradiction]); cbn [isSome negb]; rewrite andb_false_r;
      cbn [a_state unselectFile same_state negb] in Q; unfold members in Q; cbn in Q |- *; unfold put_obj in *; cbn in Q |- *; rewrite Q; reflexivity.
  - exists m', s', k'. split; [|exact R]. f_equal. destruct o, rep; try discriminate D; rewrite Q; reflexivity.
Qed.
