(** Lemmas for the memory safety of [Bytes]. *)
From Verif Require Import Base BaseFacts BytesModel BytesFacts HeapModel HeapSpec.

Lemma put_same {A} (f : N -> option A) x v : put f x v x = v.
Proof. unfold put. now rewrite N.eqb_refl. Qed.
Lemma put_other {A} (f : N -> option A) x v y : y <> x -> put f x v y = f y.
Proof. unfold put. intros D. destruct (N.eqb_spec y x); congruence. Qed.

(** the invariant between the steps of an operation: the arrays in [L] belong to no object *)
Definition good (h : heap) (o : obj) (v : vobj) : Prop :=
  holds_value h o v /\ (v_own v = true -> getLen (v_val v) <= bmax (v_val v) /\ bmax (v_val v) < 2 ^ 63 /\ v_room v < 2 ^ 63).
Record inv (L : list N) (h : heap) (os : objs) (vs : vstore) : Prop := mkInv {
  i_obj : forall x, match os x, vs x with Some o, Some v => good h o v | None, None => True | _, _ => False end;
  i_uniq : forall x y o o', os x = Some o -> os y = Some o' -> o_dealloc o = true -> o_dealloc o' = true -> o_ptr o = o_ptr o' -> x = y;
  i_all : forall p, h_mem h p <> None -> In p L \/ exists x o, os x = Some o /\ o_dealloc o = true /\ o_ptr o = p;
  i_free : forall p, In p L -> h_mem h p <> None /\ forall x o, os x = Some o -> o_dealloc o = true -> o_ptr o <> p;
  i_nodup : NoDup L;
  i_next : forall p, h_next h <= p -> h_mem h p = None }.

Lemma inv_ext L h os os' vs vs' : (forall x, os x = os' x) -> (forall x, vs x = vs' x) -> inv L h os vs -> inv L h os' vs'.
Proof.
  intros E Ev []. constructor; auto.
  - intros x. rewrite <- E, <- Ev. apply i_obj0.
  - intros x y o o' A B. rewrite <- E in A, B. eauto.
  - intros p P. destruct (i_all0 p P) as [?|(x & o & A & B)]; [left; auto|right]. exists x, o. rewrite <- E. auto.
  - intros p P. destruct (i_free0 p P) as (A & B). split; [exact A|]. intros x o X. rewrite <- E in X. eauto.
Qed.
Lemma inv_init : inv [] (hs_heap hs_init) (hs_objs hs_init) v_init.
Proof. constructor; cbn; try discriminate; try constructor; try (intros ? []); auto. Qed.

(** an object that was not moved from *)
Lemma inv_owned L h os vs x v : inv L h os vs -> vs x = Some v -> v_own v = true ->
  exists o c, os x = Some o /\ o_max o = bmax (v_val v) /\ o_len o = getLen (v_val v) /\ o_dealloc o = true /\ h_mem h (o_ptr o) = Some c /\
    lenN c = v_room v /\ takeN (o_len o) c = map Some (bdata (v_val v)) /\ getLen (v_val v) <= bmax (v_val v) /\ bmax (v_val v) < 2 ^ 63 /\ v_room v < 2 ^ 63 /\ getLen (v_val v) <= v_room v.
Proof.
  intros I E O. pose proof (i_obj _ _ _ _ I x) as G. rewrite E in G. destruct (os x) as [o|]; [|contradiction].
  destruct G as ((M & Ln & G) & S). rewrite O in G. destruct G as (D & c & P & R & T). destruct (S O) as (S1 & S2 & S3).
  exists o, c. repeat split; auto. rewrite <- R. apply (f_equal (@length _)) in T. unfold takeN in T. rewrite firstn_length, map_length in T.
  unfold getLen, lenN. lia.
Qed.
Lemma inv_none L h os vs x : inv L h os vs -> vs x = None -> os x = None.
Proof. intros I E. pose proof (i_obj _ _ _ _ I x) as G. rewrite E in G. destruct (os x); [contradiction|reflexivity]. Qed.

(** the object gives up its array *)
Lemma inv_disown L h os vs x o v : inv L h os vs -> os x = Some o -> vs x = Some v -> v_own v = true ->
  inv (o_ptr o :: L) h (put os x (Some (mkObj (o_ptr o) (o_max o) (o_len o) false))) (put vs x (Some (moved v))).
Proof.
  intros I E Ev O. destruct (inv_owned _ _ _ _ _ _ I Ev O) as (o' & c & E' & _ & _ & D & P & _). rewrite E in E'. injection E' as <-.
  pose proof (i_obj _ _ _ _ I x) as G. rewrite E, Ev in G. destruct G as ((M & Ln & _) & _).
  constructor.
  - intros y. destruct (N.eq_dec y x) as [->|Ny].
    + rewrite !put_same. split; [|discriminate]. repeat split; auto.
    + rewrite !put_other by exact Ny. apply (i_obj _ _ _ _ I).
  - intros y z oy oz A B Dy Dz Pe. destruct (N.eq_dec y x) as [->|Ny]; [rewrite put_same in A; injection A as <-; discriminate|].
    destruct (N.eq_dec z x) as [->|Nz]; [rewrite put_same in B; injection B as <-; discriminate|].
    rewrite put_other in A, B by assumption. eapply (i_uniq _ _ _ _ I); eassumption.
  - intros p Q. destruct (i_all _ _ _ _ I p Q) as [?|(y & oy & A & B & C)]; [left; now right|].
    destruct (N.eq_dec y x) as [->|Ny]; [left; left; congruence|]. right. exists y, oy. rewrite put_other by exact Ny. auto.
  - intros p [<- | Q].
    + split; [congruence|]. intros y oy A Dy Pe. destruct (N.eq_dec y x) as [->|Ny]; [rewrite put_same in A; injection A as <-; discriminate|].
      rewrite put_other in A by exact Ny. apply Ny. eapply (i_uniq _ _ _ _ I); eassumption.
    + destruct (i_free _ _ _ _ I p Q) as (A & B). split; [exact A|]. intros y oy Ay. destruct (N.eq_dec y x) as [->|Ny]; [rewrite put_same in Ay; injection Ay as <-; discriminate|].
      rewrite put_other in Ay by exact Ny. eauto.
  - constructor; [|apply (i_nodup _ _ _ _ I)]. intros Q. destruct (i_free _ _ _ _ I _ Q) as (_ & B). eapply B; eauto.
  - apply (i_next _ _ _ _ I).
Qed.
(** the values of objects with another array stay *)
Lemma good_other h h' o v : good h o v -> (v_own v = true -> h_mem h' (o_ptr o) = h_mem h (o_ptr o)) -> good h' o v.
Proof.
  intros ((M & Ln & G) & S) E. split; [|exact S]. split; [exact M|]. split; [exact Ln|]. destruct (v_own v) eqn:O; [|exact G].
  destruct G as (D & c & P & R). split; [exact D|]. exists c. rewrite E by reflexivity. auto.
Qed.
Lemma inv_own_dealloc L h os vs x o v : inv L h os vs -> os x = Some o -> vs x = Some v -> v_own v = true -> o_dealloc o = true.
Proof. intros I E Ev O. destruct (inv_owned _ _ _ _ _ _ I Ev O) as (o' & c & E' & _ & _ & D & _). congruence. Qed.
Lemma inv_free_block p L h os vs : inv (p :: L) h os vs -> exists h', free p h = Ret h' /\ inv L h' os vs /\ h_mem h' = put (h_mem h) p None /\ h_next h' = h_next h.
Proof.
  intros I. destruct (i_free _ _ _ _ I p (or_introl eq_refl)) as (A & B). unfold free. destruct (h_mem h p) as [c|] eqn:P; [|congruence].
  eexists. split; [reflexivity|]. split; [|split; reflexivity]. pose proof (i_nodup _ _ _ _ I) as Nd. inversion Nd as [|? ? Np Nd']; subst.
  constructor; cbn [h_mem h_next].
  - intros x. pose proof (i_obj _ _ _ _ I x) as G. destruct (os x) as [o|] eqn:E, (vs x) as [v|] eqn:Ev; auto.
    eapply good_other; [exact G|]. intros O. cbn [h_mem]. apply put_other. apply (B x o E). eapply inv_own_dealloc; eauto.
  - apply (i_uniq _ _ _ _ I).
  - intros q Q. destruct (N.eq_dec q p) as [->|Nq]; [rewrite put_same in Q; congruence|]. rewrite put_other in Q by exact Nq.
    destruct (i_all _ _ _ _ I q Q) as [[X|X]|X]; [congruence|left; exact X|right; exact X].
  - intros q Q. destruct (i_free _ _ _ _ I q (or_intror Q)) as (A' & B'). split; [|exact B']. rewrite put_other; [exact A'|]. intros ->. contradiction.
  - exact Nd'.
  - intros q Q. destruct (N.eq_dec q p) as [->|Nq]; [apply put_same|]. rewrite put_other by exact Nq. now apply (i_next _ _ _ _ I).
Qed.
Lemma inv_alloc c L h os vs : inv L h os vs -> inv (h_next h :: L) (mkHeap (h_next h + 1) (put (h_mem h) (h_next h) (Some c)) (h_freed h)) os vs.
Proof.
  intros I. pose proof (i_next _ _ _ _ I (h_next h) (N.le_refl _)) as F.
  assert (forall x o v, os x = Some o -> vs x = Some v -> v_own v = true -> o_ptr o <> h_next h) as Fr.
  { intros x o v E Ev O Pe. destruct (inv_owned _ _ _ _ _ _ I Ev O) as (o' & c' & E' & _ & _ & _ & P & _). congruence. }
  assert (forall x o, os x = Some o -> o_dealloc o = true -> o_ptr o <> h_next h) as Fr'.
  { intros x o E D. pose proof (i_obj _ _ _ _ I x) as G. rewrite E in G. destruct (vs x) as [v|] eqn:Ev; [|contradiction].
    apply (Fr x o v E Ev). destruct G as ((_ & _ & G) & _). destruct (v_own v); [reflexivity|congruence]. }
  constructor; cbn [h_mem h_next].
  - intros x. pose proof (i_obj _ _ _ _ I x) as G. destruct (os x) as [o|] eqn:E, (vs x) as [v|] eqn:Ev; auto.
    eapply good_other; [exact G|]. intros O. cbn [h_mem]. apply put_other. eauto.
  - apply (i_uniq _ _ _ _ I).
  - intros q Q. destruct (N.eq_dec q (h_next h)) as [->|Nq]; [left; now left|]. rewrite put_other in Q by exact Nq.
    destruct (i_all _ _ _ _ I q Q) as [X|X]; [left; now right|now right].
  - intros q [<- | Q]; [rewrite put_same; split; [discriminate|exact Fr']|].
    destruct (i_free _ _ _ _ I q Q) as (A' & B'). split; [|exact B']. rewrite put_other; [exact A'|]. intros ->. congruence.
  - constructor; [|apply (i_nodup _ _ _ _ I)]. intros Q. destruct (i_free _ _ _ _ I _ Q) as (A' & _). congruence.
  - intros q Q. rewrite put_other by lia. apply (i_next _ _ _ _ I). lia.
Qed.
(** writing to an array that belongs to no object *)
Lemma inv_write p c L h os vs : inv (p :: L) h os vs -> inv (p :: L) (mkHeap (h_next h) (put (h_mem h) p (Some c)) (h_freed h)) os vs.
Proof.
  intros I. destruct (i_free _ _ _ _ I p (or_introl eq_refl)) as (A & B). constructor; cbn [h_mem h_next].
  - intros x. pose proof (i_obj _ _ _ _ I x) as G. destruct (os x) as [o|] eqn:E, (vs x) as [v|] eqn:Ev; auto.
    eapply good_other; [exact G|]. intros O. cbn [h_mem]. apply put_other. apply (B x o E). eapply inv_own_dealloc; eauto.
  - apply (i_uniq _ _ _ _ I).
  - intros q Q. destruct (N.eq_dec q p) as [->|Nq]; [left; now left|]. rewrite put_other in Q by exact Nq. now apply (i_all _ _ _ _ I).
  - intros q Q. destruct (i_free _ _ _ _ I q Q) as (A' & B'). split; [|exact B'].
    destruct (N.eq_dec q p) as [->|Nq]; [rewrite put_same; discriminate|]. now rewrite put_other.
  - apply (i_nodup _ _ _ _ I).
  - intros q Q. rewrite put_other; [now apply (i_next _ _ _ _ I)|]. intros ->. apply A. now apply (i_next _ _ _ _ I).
Qed.
(** an object without an array, or a new one, gets the array *)
Definition idle (vs : vstore) (x : N) : Prop := match vs x with Some v => v_own v = false | None => True end.
Lemma inv_adopt p L h os vs x o v : inv (p :: L) h os vs -> idle vs x -> o_ptr o = p -> v_own v = true -> good h o v ->
  inv L h (put os x (Some o)) (put vs x (Some v)).
Proof.
  intros I Id Pe O G. destruct (i_free _ _ _ _ I p (or_introl eq_refl)) as (A & B). pose proof (i_nodup _ _ _ _ I) as Nd. inversion Nd as [|? ? Np Nd']; subst.
  assert (o_dealloc o = true) as D by (destruct G as ((_ & _ & G) & _); rewrite O in G; apply G).
  assert (forall o', os x = Some o' -> o_dealloc o' = false) as Ix.
  { intros o' E. pose proof (i_obj _ _ _ _ I x) as G'. unfold idle in Id. rewrite E in G'. destruct (vs x) as [v'|]; [|contradiction].
    destruct G' as ((_ & _ & G') & _). now rewrite Id in G'. }
  constructor.
  - intros y. destruct (N.eq_dec y x) as [->|Ny]; [rewrite !put_same; exact G|]. rewrite !put_other by exact Ny. apply (i_obj _ _ _ _ I).
  - intros y z oy oz. destruct (N.eq_dec y x) as [->|Ny], (N.eq_dec z x) as [->|Nz]; try reflexivity.
    + rewrite put_same, put_other by exact Nz. intros [= <-] E _ Dz Pe. elim (B z oz E Dz). congruence.
    + rewrite put_same, put_other by exact Ny. intros E [= <-] Dy _ Pe. elim (B y oy E Dy). congruence.
    + rewrite !put_other by assumption. apply (i_uniq _ _ _ _ I).
  - intros q Q. destruct (i_all _ _ _ _ I q Q) as [[X|X]|(y & oy & E & Dy & X)]; [right; exists x, o; rewrite put_same; auto|left; exact X|].
    right. exists y, oy. rewrite put_other; [auto|]. intros ->. apply Ix in E. congruence.
  - intros q Q. destruct (i_free _ _ _ _ I q (or_intror Q)) as (A' & B'). split; [exact A'|]. intros y oy. destruct (N.eq_dec y x) as [->|Ny].
    + rewrite put_same. intros [= <-] _ Pe. apply Np. now rewrite Pe.
    + rewrite put_other by exact Ny. apply B'.
  - exact Nd'.
  - apply (i_next _ _ _ _ I).
Qed.
(** the end of an object without an array *)
Lemma inv_drop L h os vs x : inv L h os vs -> idle vs x -> inv L h (put os x None) (put vs x None).
Proof.
  intros I Id.
  assert (forall o', os x = Some o' -> o_dealloc o' = false) as Ix.
  { intros o' E. pose proof (i_obj _ _ _ _ I x) as G'. unfold idle in Id. rewrite E in G'. destruct (vs x) as [v'|]; [|contradiction].
    destruct G' as ((_ & _ & G') & _). now rewrite Id in G'. }
  constructor.
  - intros y. destruct (N.eq_dec y x) as [->|Ny]; [rewrite !put_same; exact Logic.I|]. rewrite !put_other by exact Ny. apply (i_obj _ _ _ _ I).
  - intros y z oy oz. destruct (N.eq_dec y x) as [->|Ny], (N.eq_dec z x) as [->|Nz]; rewrite ?put_same, ?put_other by assumption; try discriminate. apply (i_uniq _ _ _ _ I).
  - intros q Q. destruct (i_all _ _ _ _ I q Q) as [X|(y & oy & E & Dy & X)]; [left; exact X|]. right. exists y, oy.
    rewrite put_other; [auto|]. intros ->. apply Ix in E. congruence.
  - intros q Q. destruct (i_free _ _ _ _ I q Q) as (A' & B'). split; [exact A'|]. intros y oy. destruct (N.eq_dec y x) as [->|Ny]; [rewrite put_same; discriminate|].
    rewrite put_other by exact Ny. apply B'.
  - apply (i_nodup _ _ _ _ I).
  - apply (i_next _ _ _ _ I).
Qed.

(** ** the parts of the operations *)
Definition invS (s : hstate) (vs : vstore) : Prop := inv [] (hs_heap s) (hs_objs s) vs.
Lemma owned_inv vs x k r : owned vs x k = Some r -> exists v, vs x = Some v /\ v_own v = true /\ k v = Some r.
Proof. unfold owned. destruct (vs x) as [v|]; [|discriminate]. destruct (v_own v) eqn:O; [|discriminate]. eauto. Qed.
Lemma determinate_map l : determinate (map Some l) = Ret l.
Proof. induction l as [|a l IH]; cbn; [reflexivity|]. now rewrite IH. Qed.
Lemma load_front h p c n l : h_mem h p = Some c -> n <= lenN c -> takeN n c = l -> load p 0 n h = Ret l.
Proof. intros E L T. unfold load. rewrite E. replace (0 + n <=? lenN c) with true by (symmetry; apply N.leb_le; lia). now rewrite dropN_0, T. Qed.
Lemma put_put {A} (f : N -> option A) x a b y : put (put f x a) x b y = put f x b y.
Proof. unfold put. now destruct (y =? x). Qed.
Lemma put_comm {A} (f : N -> option A) x a z b y : x <> z -> put (put f x a) z b y = put (put f z b) x a y.
Proof. unfold put. intros D. destruct (N.eqb_spec y x), (N.eqb_spec y z); congruence. Qed.
Lemma lenN_map_some (l : bytes) : lenN (map (@Some byte) l) = lenN l.
Proof. apply lenN_map. Qed.

(** new arrays with a content at the front *)
Lemma store_new max (l : bytes) h os vs L : inv L h os vs -> lenN l <= max ->
  exists h' c, store (snd (alloc max h)) 0 (map Some l) (fst (alloc max h)) = Ret h' /\ h_next h' = h_next h + 1 /\ h_mem h' (h_next h) = Some c /\ lenN c = max /\
    takeN (lenN l) c = map Some l /\ inv (h_next h :: L) h' os vs /\ forall p, p <> h_next h -> h_mem h' p = h_mem h p.
Proof.
  intros I Le. unfold alloc, store. cbn [fst snd h_mem h_next]. rewrite put_same, lenN_map_some, lenN_repeat.
  replace (0 + lenN l <=? N.of_nat (N.to_nat max)) with true by (symmetry; apply N.leb_le; lia).
  set (c := takeN 0 _ ++ _). eexists _, c. split; [reflexivity|]. cbn [h_mem h_next]. split; [reflexivity|].
  split; [apply put_same|]. subst c. rewrite takeN_0. cbn [app].
  split; [rewrite lenN_app, lenN_dropN, lenN_map_some, lenN_repeat; lia|].
  split; [rewrite <- (lenN_map_some l); apply takeN_app_exact|]. split.
  - set (c := map Some l ++ _). pose proof (inv_write (h_next h) c _ _ _ _ (inv_alloc (repeat None (N.to_nat max)) _ _ _ _ I)) as J. exact J.
  - intros p Np. rewrite !put_other by exact Np. reflexivity.
Qed.
Lemma construct_sim s vs x max l : invS s vs -> vs x = None -> lenN l <= max -> max < 2 ^ 63 ->
  exists s', construct s x max (map Some l) = Ret (s', HVoid) /\ invS s' (put vs x (Some (mkV (mkBytes l max) max true))).
Proof.
  intros I E Le Sm. destruct (store_new max l _ _ _ _ I Le) as (h' & c & St & _ & M & R & T & J & _). unfold construct.
  destruct (alloc max (hs_heap s)) as [h p] eqn:A. cbn [fst snd] in St. rewrite St. cbn [bind]. eexists. split; [reflexivity|].
  unfold invS, with_obj. cbn [hs_heap hs_objs]. unfold alloc in A. injection A as _ <-. apply (inv_adopt _ _ _ _ _ _ _ _ J); auto.
  - unfold idle. now rewrite E.
  - split; [|intros _; cbn; unfold getLen; cbn; lia]. split; [reflexivity|]. unfold getLen. cbn. rewrite lenN_map_some. split; [reflexivity|]. split; [reflexivity|].
    exists c. auto.
Qed.

(** a new content from [off] on in the array of an object *)
Lemma write_sim s vs x v o off l b : invS s vs -> vs x = Some v -> v_own v = true -> hs_objs s x = Some o ->
  off <= getLen (v_val v) -> off + lenN l <= v_room v -> off + lenN l <= bmax (v_val v) -> b = mkBytes (takeN off (bdata (v_val v)) ++ l) (bmax (v_val v)) ->
  exists h', store (o_ptr o) off (map Some l) (hs_heap s) = Ret h' /\
    invS (with_obj s h' x (mkObj (o_ptr o) (o_max o) (off + lenN l) (o_dealloc o))) (put vs x (Some (mkV b (v_room v) true))).
Proof.
  intros I E O Eo Of Ro Mx ->. destruct (inv_owned _ _ _ _ _ _ I E O) as (o' & c & Eo' & Om & Ol & D & P & R & T & S1 & S2 & S3 & S4).
  rewrite Eo in Eo'. injection Eo' as <-. unfold store. rewrite P, lenN_map_some.
  replace (off + lenN l <=? lenN c) with true by (symmetry; apply N.leb_le; lia). eexists. split; [reflexivity|].
  set (c' := takeN off c ++ _).
  pose proof (inv_write (o_ptr o) c' _ _ _ _ (inv_disown _ _ _ _ _ _ _ I Eo E O)) as J.
  assert (lenN (takeN off (bdata (v_val v))) = off) as Lt by (rewrite lenN_takeN; unfold getLen in Of; lia).
  assert (good (mkHeap (h_next (hs_heap s)) (put (h_mem (hs_heap s)) (o_ptr o) (Some c')) (h_freed (hs_heap s))) (mkObj (o_ptr o) (o_max o) (off + lenN l) (o_dealloc o))
            (mkV (mkBytes (takeN off (bdata (v_val v)) ++ l) (bmax (v_val v))) (v_room v) true)) as G.
  { split; [|cbn; unfold getLen; cbn; intros _; rewrite lenN_app, Lt; lia]. split; [exact Om|]. unfold getLen. cbn. rewrite lenN_app, Lt. split; [reflexivity|].
    split; [exact D|]. exists c'. split; [apply put_same|].
    assert (lenN (takeN off c) = off) as Lc by (rewrite lenN_takeN; lia). split.
    - subst c'. rewrite !lenN_app, lenN_dropN, lenN_map_some, Lc. lia.
    - assert (takeN off c = map Some (takeN off (bdata (v_val v)))) as Tc.
      { rewrite <- takeN_map, <- T, takeN_takeN. f_equal. lia. }
      subst c'. rewrite app_assoc, takeN_app_le by (rewrite lenN_app, Lc, lenN_map_some; lia).
      rewrite takeN_all by (rewrite lenN_app, Lc, lenN_map_some; lia). now rewrite Tc, map_app. }
  apply (inv_ext _ _ (put (put (hs_objs s) x (Some (mkObj (o_ptr o) (o_max o) (o_len o) false))) x (Some (mkObj (o_ptr o) (o_max o) (off + lenN l) (o_dealloc o)))) _
           (put (put vs x (Some (moved v))) x (Some (mkV (mkBytes (takeN off (bdata (v_val v)) ++ l) (bmax (v_val v))) (v_room v) true))));
    [intros; apply put_put|intros; apply put_put|].
  apply (inv_adopt _ _ _ _ _ _ _ _ J); auto. unfold idle. now rewrite put_same.
Qed.
(** another length *)
Lemma shorten_sim s vs x v o n : invS s vs -> vs x = Some v -> v_own v = true -> hs_objs s x = Some o -> n <= getLen (v_val v) ->
  invS (with_obj s (hs_heap s) x (mkObj (o_ptr o) (o_max o) n (o_dealloc o))) (put vs x (Some (mkV (mkBytes (takeN n (bdata (v_val v))) (bmax (v_val v))) (v_room v) true))).
Proof.
  intros I E O Eo Le. destruct (inv_owned _ _ _ _ _ _ I E O) as (o' & c & Eo' & Om & Ol & D & P & R & T & S1 & S2 & S3 & S4).
  rewrite Eo in Eo'. injection Eo' as <-. pose proof (inv_disown _ _ _ _ _ _ _ I Eo E O) as J.
  eapply inv_ext; [intros; apply put_put|intros; apply put_put|].
  apply (inv_adopt _ _ _ _ _ _ _ _ J); auto; [unfold idle; now rewrite put_same|]. unfold getLen in *.
  assert (lenN (takeN n (bdata (v_val v))) = n) as Lt by (rewrite lenN_takeN; lia).
  split; [|cbn; unfold getLen; cbn; intros _; rewrite Lt; lia]. split; [exact Om|]. unfold getLen. cbn. rewrite Lt. split; [reflexivity|]. split; [exact D|].
  exists c. split; [exact P|]. split; [exact R|]. rewrite <- takeN_map, <- T, takeN_takeN. f_equal. lia.
Qed.
(** another array *)
Lemma replace_sim L s vs x v o h q b room c : invS s vs -> vs x = Some v -> v_own v = true -> hs_objs s x = Some o ->
  inv (q :: L) h (put (hs_objs s) x (Some (mkObj (o_ptr o) (o_max o) (o_len o) false))) (put vs x (Some (moved v))) ->
  h_mem h q = Some c -> lenN c = room -> takeN (getLen b) c = map Some (bdata b) -> getLen b <= bmax b -> bmax b < 2 ^ 63 -> room < 2 ^ 63 ->
  inv L h (put (hs_objs s) x (Some (mkObj q (bmax b) (getLen b) true))) (put vs x (Some (mkV b room true))).
Proof.
  intros I E O Eo J P R T S1 S2 S3. eapply inv_ext; [intros; apply put_put|intros; apply put_put|].
  apply (inv_adopt _ _ _ _ _ _ _ _ J); auto; [unfold idle; now rewrite put_same|].
  split; [|auto]. split; [reflexivity|]. split; [reflexivity|]. split; [reflexivity|]. exists c. auto.
Qed.

(** ** the operations *)
Definition simulates (s : hstate) (vs : vstore) (op : hop) (r : outcome (vstore * hreply)) : Prop :=
  match r with
  | Ret (vs', a) => exists s', hstep s op = Ret (s', a) /\ invS s' vs'
  | Throw e => hstep s op = Throw e
  | _ => False
  end.
Lemma obj_of_some s x o : hs_objs s x = Some o -> obj_of s x = Ret o.
Proof. unfold obj_of. now intros ->. Qed.
Lemma unused_none s x : hs_objs s x = None -> unused s x = Ret tt.
Proof. unfold unused. now intros ->. Qed.
Lemma make_inv vs x q r : make vs x q = Some r -> vs x = None /\
  ((exists b, q = Ret b /\ bmax b < 2 ^ 63 /\ r = Ret (put vs x (Some (mkV b (bmax b) true)), HVoid)) \/ (exists e, q = Throw e /\ r = Throw e)).
Proof.
  unfold make. destruct (vs x); [discriminate|]. destruct q as [b|e|c|]; try discriminate.
  - unfold small. destruct (N.ltb_spec (bmax b) (2 ^ 63)); [|discriminate]. intros [= <-]. eauto 7.
  - intros [= <-]. eauto 6.
Qed.
Lemma change_inv vs x v q a r : change vs x v q a = Some r ->
  (exists b, q = Ret b /\ getLen b <= v_room v /\ r = Ret (put vs x (Some (mkV b (v_room v) true)), a)) \/ (exists e, q = Throw e /\ r = Throw e).
Proof.
  unfold change. destruct q as [b|e|c|]; try discriminate.
  - destruct (N.leb_spec (getLen b) (v_room v)); [|discriminate]. intros [= <-]. eauto 7.
  - intros [= <-]. eauto 6.
Qed.
Lemma renew_inv vs x q room r : renew vs x q room = Some r ->
  (exists b, q = Ret b /\ bmax b < 2 ^ 63 /\ room < 2 ^ 63 /\ r = Ret (put vs x (Some (mkV b room true)), HVoid)) \/ (exists e, q = Throw e /\ r = Throw e).
Proof.
  unfold renew, small. destruct q as [b|e|c|]; try discriminate.
  - destruct (N.ltb_spec (bmax b) (2 ^ 63)); [|discriminate]. destruct (N.ltb_spec room (2 ^ 63)); [|discriminate]. intros [= <-]. left. exists b. auto.
  - intros [= <-]. eauto 6.
Qed.

Ltac own I E O o c := destruct (inv_owned _ _ _ _ _ _ I E O) as (o & c & ?Eo & ?Om & ?Ol & ?D & ?P & ?R & ?T & ?S1 & ?S2 & ?S3 & ?S4).
Lemma load_sim s vs y v o : invS s vs -> vs y = Some v -> v_own v = true -> hs_objs s y = Some o ->
  load (o_ptr o) 0 (o_len o) (hs_heap s) = Ret (map Some (bdata (v_val v))).
Proof.
  intros I E O Eo. own I E O o' c. rewrite Eo in Eo0. injection Eo0 as <-. eapply load_front; [eassumption|lia|assumption].
Qed.
Lemma w64_small n : n < 2 ^ 64 -> w64 n = n.
Proof. intros H. unfold w64. apply N.mod_small. exact H. Qed.
Lemma pow63 : 2 ^ 64 = 2 ^ 63 + 2 ^ 63. Proof. reflexivity. Qed.
Lemma lt_dbl a b : a < 2 ^ 63 -> b < 2 ^ 63 -> a + b < 2 ^ 64.
Proof. rewrite pow63. lia. Qed.

Lemma append_sim s vs x v o l (e : exn) q a b : invS s vs -> vs x = Some v -> v_own v = true -> hs_objs s x = Some o -> lenN l < 2 ^ 63 ->
  b = mkBytes (bdata (v_val v) ++ l) (bmax (v_val v)) ->
  change vs x v (if bmax (v_val v) <? getLen (v_val v) + lenN l then Throw e else Ret b) a = Some q ->
  match q with
  | Ret (vs', a') => a' = a /\ exists s', append s x o (map Some l) = Ret (s', HVoid) /\ invS s' vs' /\ (o_max o <? w64 (o_len o + lenN l)) = false
  | Throw e' => e' = e /\ (o_max o <? w64 (o_len o + lenN l)) = true
  | _ => False
  end.
Proof.
  intros I E O Eo Sm Eb H. own I E O o' c. rewrite Eo in Eo0. injection Eo0 as <-.
  assert (w64 (o_len o + lenN l) = getLen (v_val v) + lenN l) as W by (rewrite w64_small, Ol; [reflexivity|apply lt_dbl; lia]).
  destruct (change_inv _ _ _ _ _ _ H) as [(b' & Eb' & Le & ->)|(e' & Ee & ->)].
  - destruct (N.ltb_spec (bmax (v_val v)) (getLen (v_val v) + lenN l)); [discriminate|]. injection Eb' as <-. split; [reflexivity|].
    assert (getLen b = getLen (v_val v) + lenN l) as Lb by (rewrite Eb; unfold getLen; cbn; apply lenN_app).
    destruct (write_sim s vs x v o (getLen (v_val v)) l b I E O Eo) as (h' & St & J); try lia.
    + unfold getLen. now rewrite takeN_all by lia.
    + unfold append. rewrite Ol, St. cbn [bind]. rewrite lenN_map_some, <- Ol, W. eexists. split; [reflexivity|]. split; [exact J|]. apply N.ltb_ge. lia.
  - destruct (N.ltb_spec (bmax (v_val v)) (getLen (v_val v) + lenN l)); [|discriminate]. injection Ee as ->. split; [reflexivity|]. apply N.ltb_lt. lia.
Qed.
Lemma set_sim s vs x v o l (e : exn) q a b : invS s vs -> vs x = Some v -> v_own v = true -> hs_objs s x = Some o -> b = mkBytes l (bmax (v_val v)) ->
  change vs x v (if bmax (v_val v) <? lenN l then Throw e else Ret b) a = Some q ->
  match q with
  | Ret (vs', a') => a' = a /\ (o_max o <? lenN l) = false /\ exists h, store (o_ptr o) 0 (map Some l) (hs_heap s) = Ret h /\
      invS (with_obj s h x (mkObj (o_ptr o) (o_max o) (lenN l) (o_dealloc o))) vs'
  | Throw e' => e' = e /\ (o_max o <? lenN l) = true
  | _ => False
  end.
Proof.
  intros I E O Eo Eb H. own I E O o' c. rewrite Eo in Eo0. injection Eo0 as <-.
  destruct (change_inv _ _ _ _ _ _ H) as [(b' & Eb' & Le & ->)|(e' & Ee & ->)].
  - destruct (N.ltb_spec (bmax (v_val v)) (lenN l)); [discriminate|]. injection Eb' as <-. split; [reflexivity|]. split; [apply N.ltb_ge; lia|].
    assert (getLen b = lenN l) as Lb by (rewrite Eb; reflexivity).
    destruct (write_sim s vs x v o 0 l b I E O Eo) as (h' & St & J); try lia; [exact Eb|]. rewrite St. eexists. split; [reflexivity|]. exact J.
  - destruct (N.ltb_spec (bmax (v_val v)) (lenN l)); [|discriminate]. injection Ee as ->. split; [reflexivity|]. apply N.ltb_lt. lia.
Qed.
Lemma sub64_le a b : b <= a -> a < 2 ^ 64 -> sub64 a b = a - b.
Proof.
  intros H S. unfold sub64. change (2 ^ 64) with two64 in S. replace (a + two64 - b) with (a - b + 1 * two64) by lia.
  rewrite N.mod_add by discriminate. apply N.mod_small. lia.
Qed.

Lemma dropN_map {A B} (f : A -> B) n l : dropN n (map f l) = map f (dropN n l).
Proof. unfold dropN. apply skipn_map. Qed.
Lemma step_sim s vs op r : invS s vs -> vstep vs op = Some r -> simulates s vs op r.
Proof.
  intros I H. unfold vstep in H. destruct (args_small op) eqn:Sm; [|discriminate]. cbn [negb] in H.
  destruct op; cbn [args_small] in Sm; unfold small in Sm; try apply N.ltb_lt in Sm; unfold simulates; cbn [hstep].
  - (* HNew *) apply make_inv in H. destruct H as (E & H). rewrite (unused_none _ _ (inv_none _ _ _ _ _ I E)). cbn [bind]. unfold newBytes in H.
    destruct (n <? 0)%Z; destruct H as [(b & Eb & S & ->)|(e & Ee & ->)]; try discriminate; [injection Ee as ->; reflexivity|]. injection Eb as <-. cbn [bmax] in *.
    apply (construct_sim s vs x (Z.to_N n) []); auto. unfold lenN. cbn. lia.
  - (* HWith *) apply make_inv in H. destruct H as (E & H). rewrite (unused_none _ _ (inv_none _ _ _ _ _ I E)). cbn [bind].
    destruct H as [(b & Eb & S & ->)|(e & Ee & ->)]; try discriminate. injection Eb as <-. apply (construct_sim s vs x n []); auto. unfold lenN. cbn. lia.
  - (* HArray *) apply make_inv in H. destruct H as (E & H). rewrite (unused_none _ _ (inv_none _ _ _ _ _ I E)). cbn [bind].
    destruct H as [(b & Eb & S & ->)|(e & Ee & ->)]; try discriminate. injection Eb as <-. unfold alloc_with. eexists. split; [reflexivity|].
    apply (inv_adopt (h_next (hs_heap s)) [] _ _ _ _ _ _ (inv_alloc (map Some l) _ _ _ _ I)); auto; [unfold idle; now rewrite E|].
    split; [|cbn; unfold getLen; cbn; intros _; cbn in S; lia]. split; [reflexivity|]. split; [reflexivity|]. split; [reflexivity|].
    exists (map Some l). cbn. rewrite put_same, lenN_map_some. split; [reflexivity|]. split; [reflexivity|]. rewrite takeN_all; [reflexivity|]. rewrite lenN_map_some. lia.
  - (* HCopy *) apply owned_inv in H. destruct H as (v & Ev & O & H). apply make_inv in H. destruct H as (E & H). rewrite (unused_none _ _ (inv_none _ _ _ _ _ I E)). cbn [bind].
    destruct H as [(b & Eb & S & ->)|(e & Ee & ->)]; try discriminate. injection Eb as <-. own I Ev O o c. rewrite (obj_of_some _ _ _ Eo). cbn [bind].
    rewrite (load_sim _ _ _ _ _ I Ev O Eo). cbn [bind]. rewrite Om. apply construct_sim; auto.
  - (* HCopyExtra *) apply owned_inv in H. destruct H as (v & Ev & O & H). apply make_inv in H. destruct H as (E & H). rewrite (unused_none _ _ (inv_none _ _ _ _ _ I E)). cbn [bind].
    destruct H as [(b & Eb & S & ->)|(e & Ee & ->)]; try discriminate. injection Eb as <-. own I Ev O o c. rewrite (obj_of_some _ _ _ Eo). cbn [bind].
    rewrite (load_sim _ _ _ _ _ I Ev O Eo). cbn [bind]. cbn [copyExtra bmax] in S. rewrite Om, w64_small by (rewrite pow63; lia). apply construct_sim; auto. unfold getLen in *. cbn [bmax copyExtra]. lia.
  - (* HMove *) apply owned_inv in H. destruct H as (v & Ev & O & H). destruct (vs x) as [?|] eqn:E; [discriminate|]. injection H as <-.
    rewrite (unused_none _ _ (inv_none _ _ _ _ _ I E)). cbn [bind]. own I Ev O o c. rewrite (obj_of_some _ _ _ Eo). cbn [bind]. eexists. split; [reflexivity|].
    unfold invS, with_obj. cbn [hs_heap hs_objs]. apply (inv_adopt _ _ _ _ _ _ _ _ (inv_disown _ _ _ _ _ _ _ I Eo Ev O)); auto.
    + unfold idle. rewrite put_other; [now rewrite E|]. congruence.
    + split; [|auto]. split; [exact Om|]. split; [exact Ol|]. rewrite O. split; [reflexivity|]. exists c. auto.
  - (* HAssign *) apply owned_inv in H. destruct H as (vx & Ex & Ox & H). apply owned_inv in H. destruct H as (vy & Ey & Oy & H).
    own I Ex Ox ox cx. own I Ey Oy oy cy. rewrite (obj_of_some _ _ _ Eo), (obj_of_some _ _ _ Eo0). cbn [bind].
    destruct (N.eqb_spec x y) as [->|Nxy]; [injection H as <-; eauto|].
    apply renew_inv in H. destruct H as [(b & Eb & Sb & Sr & ->)|(e & Ee & ->)]; [|discriminate]. injection Eb as <-.
    destruct (inv_free_block _ _ _ _ _ (inv_disown _ _ _ _ _ _ _ I Eo Ex Ox)) as (h1 & F & J1 & M1 & N1). rewrite F. cbn [bind].
    destruct (store_new (o_max oy) (bdata (v_val vy)) _ _ _ _ J1) as (h2 & c2 & St & _ & M2 & R2 & T2 & J2 & _); [unfold getLen in *; lia|].
    assert (h_mem h1 (o_ptr oy) = Some cy) as Py.
    { rewrite M1, put_other; [assumption|]. intros X. apply Nxy. symmetry. eapply (i_uniq _ _ _ _ I); eassumption. }
    destruct (alloc (o_max oy) h1) as [h p] eqn:A. cbn [fst snd] in St.
    assert (h_mem h (o_ptr oy) = Some cy) as Py'.
    { unfold alloc in A. injection A as <- <-. cbn. rewrite put_other; [assumption|]. intros X. rewrite X in Py.
      rewrite (i_next _ _ _ _ J1 _ (N.le_refl _)) in Py. discriminate. }
    rewrite (load_front _ _ _ (o_len oy) (map Some (bdata (v_val vy))) Py') by (assumption || lia). cbn [bind]. rewrite St. cbn [bind]. eexists. split; [reflexivity|].
    unfold invS, with_obj. cbn [hs_heap hs_objs]. rewrite Om0, Ol0, D. unfold alloc in A. injection A as _ <-. rewrite Om0 in *.
    apply (replace_sim [] s vs x vx ox h2 (h_next h1) (copyBytes (v_val vy)) _ c2); auto.
  - (* HDestroy *) destruct (vs x) as [v|] eqn:Ev; [|discriminate]. injection H as <-. pose proof (i_obj _ _ _ _ I x) as G. rewrite Ev in G.
    destruct (hs_objs s x) as [o|] eqn:Eo; [|contradiction]. rewrite (obj_of_some _ _ _ Eo). cbn [bind]. destruct (v_own v) eqn:O.
    + destruct (inv_free_block _ _ _ _ _ (inv_disown _ _ _ _ _ _ _ I Eo Ev O)) as (h1 & F & J1 & M1 & N1).
      rewrite (inv_own_dealloc _ _ _ _ _ _ _ I Eo Ev O), F. cbn [bind]. eexists. split; [reflexivity|]. unfold invS. cbn [hs_heap hs_objs].
      eapply inv_ext; [intros; apply put_put|intros; apply put_put|]. apply (inv_drop _ _ _ _ _ J1). unfold idle. now rewrite put_same.
    + destruct G as ((_ & _ & G) & _). rewrite O in G. rewrite G. cbn [bind]. eexists. split; [reflexivity|]. apply (inv_drop _ _ _ _ _ I). unfold idle. now rewrite Ev.
  - (* HDealloc *) discriminate.
  - (* HFill *) apply owned_inv in H. destruct H as (v & Ev & O & H). destruct (N.eqb_spec (getLen (v_val v) + lenN l) (bmax (v_val v))) as [Eq|]; [|discriminate].
    own I Ev O o c. rewrite (obj_of_some _ _ _ Eo). cbn [bind]. rewrite Om, Ol, sub64_le by (rewrite ?pow63; lia).
    replace (lenN l =? bmax (v_val v) - getLen (v_val v)) with true by (symmetry; apply N.eqb_eq; lia). cbn [negb orb].
    unfold fillrandom, random_bytes in H. replace (bmax (v_val v) - getLen (v_val v)) with (lenN l) in H by lia. rewrite N.eqb_refl in H.
    destruct (N.leb_spec 2147483648 (lenN l)); [discriminate|]. cbn [bind noexcept] in H.
    apply change_inv in H. destruct H as [(b & Eb & Le & ->)|(e & Ee & ->)]; [|discriminate]. injection Eb as <-.
    unfold getLen in Le. cbn in Le. rewrite lenN_app in Le. fold (getLen (v_val v)) in Le.
    destruct (write_sim s vs x v o (getLen (v_val v)) l (mkBytes (bdata (v_val v) ++ l) (bmax (v_val v))) I Ev O Eo) as (h' & St & J); try lia.
    + unfold getLen. now rewrite takeN_all by lia.
    + rewrite St. cbn [bind]. eexists. split; [reflexivity|]. rewrite Eq, Om in J. exact J.
  - (* HAddRandom *) apply owned_inv in H. destruct H as (v & Ev & O & H). own I Ev O o c. rewrite (obj_of_some _ _ _ Eo). cbn [bind].
    unfold addrandom, random_bytes in H. rewrite N.eqb_refl in H. destruct (N.leb_spec 2147483648 (lenN l)) as [Hb|Hb].
    { cbn [bind] in H. destruct (N.ltb_spec (bmax (v_val v)) (getLen (v_val v) + lenN l)) as [Hc|]; [|discriminate]. injection H as <-.
      rewrite Om, Ol, w64_small by (apply lt_dbl; lia). now rewrite (proj2 (N.ltb_lt _ _) Hc). }
    cbn [bind] in H.
    eapply append_sim in H; eauto. destruct r as [[vs' a']|e| |]; try contradiction.
    + destruct H as (-> & s' & A & J & ->). eauto.
    + destruct H as (-> & ->). reflexivity.
  - (* HSet *) apply owned_inv in H. destruct H as (v & Ev & O & H). own I Ev O o c. rewrite (obj_of_some _ _ _ Eo). cbn [bind].
    eapply set_sim in H; eauto. destruct r as [[vs' a']|e| |]; try contradiction.
    + destruct H as (-> & -> & h & St & J). rewrite St. cbn [bind]. eauto.
    + destruct H as (-> & ->). reflexivity.
  - (* HAdd *) apply owned_inv in H. destruct H as (v & Ev & O & H). own I Ev O o c. rewrite (obj_of_some _ _ _ Eo). cbn [bind].
    eapply append_sim in H; eauto. destruct r as [[vs' a']|e| |]; try contradiction.
    + destruct H as (-> & s' & A & J & ->). eauto.
    + destruct H as (-> & ->). reflexivity.
  - (* HAddByte *) apply owned_inv in H. destruct H as (v & Ev & O & H). own I Ev O o c. rewrite (obj_of_some _ _ _ Eo). cbn [bind].
    unfold addByte in H. rewrite Om, Ol.
    replace (bmax (v_val v) <=? getLen (v_val v)) with (bmax (v_val v) <? getLen (v_val v) + lenN [b]) in H
      by (change (lenN [b]) with 1; destruct (N.leb_spec (bmax (v_val v)) (getLen (v_val v))); [apply N.ltb_lt|apply N.ltb_ge]; lia).
    pose proof (append_sim _ _ _ _ _ [b] _ _ _ _ I Ev O Eo eq_refl eq_refl H) as A.
    assert ((bmax (v_val v) <=? getLen (v_val v)) = (o_max o <? w64 (o_len o + lenN [b]))) as C.
    { rewrite w64_small by (change (lenN [b]) with 1; rewrite pow63; lia). change (lenN [b]) with 1. rewrite Om, Ol.
      destruct (N.leb_spec (bmax (v_val v)) (getLen (v_val v))); symmetry; [apply N.ltb_lt|apply N.ltb_ge]; lia. }
    rewrite C. destruct r as [[vs' a']|e| |]; try contradiction.
    + destruct A as (-> & s' & A & J & ->). eauto.
    + destruct A as (-> & ->). reflexivity.
  - (* HTake *) apply owned_inv in H. destruct H as (v & Ev & O & H). own I Ev O o c. rewrite (obj_of_some _ _ _ Eo). cbn [bind]. rewrite Om.
    unfold consumeBytes in H. apply renew_inv in H. destruct (N.ltb_spec (bmax (v_val v)) (lenN l)).
    + destruct H as [(b & Eb & Sb & Sr & ->)|(e & Ee & ->)]; [discriminate|]. injection Ee as ->. reflexivity.
    + destruct H as [(b & Eb & Sb & Sr & ->)|(e & Ee & ->)]; [|discriminate]. injection Eb as <-. unfold alloc_with.
      pose proof (inv_disown _ _ _ _ _ _ _ (inv_alloc (map Some l) _ _ _ _ I) Eo Ev O) as J.
      destruct (inv_free_block _ _ _ _ _ J) as (h1 & F & J1 & M1 & N1). unfold cells in *. rewrite F. cbn [bind]. eexists. split; [reflexivity|].
      unfold invS, with_obj. cbn [hs_heap hs_objs]. rewrite D.
      apply (replace_sim [] s vs x v o h1 (h_next (hs_heap s)) (mkBytes l (bmax (v_val v))) _ (map Some l)); auto.
      * rewrite M1, put_other; [cbn; apply put_same|]. intros X. rewrite <- X in P. rewrite (i_next _ _ _ _ I _ (N.le_refl _)) in P. discriminate.
      * apply lenN_map_some.
      * unfold getLen. cbn. rewrite takeN_all; [reflexivity|]. rewrite lenN_map_some. lia.
  - (* HConsume *) apply owned_inv in H. destruct H as (vx & Ex & Ox & H). apply owned_inv in H. destruct H as (vy & Ey & Oy & H).
    own I Ex Ox ox cx. own I Ey Oy oy cy. rewrite (obj_of_some _ _ _ Eo), (obj_of_some _ _ _ Eo0). cbn [bind].
    destruct (N.eqb_spec x y) as [->|Nxy]; [discriminate|]. unfold consumeBytes in H. apply renew_inv in H. rewrite Om, Ol0. fold (getLen (v_val vy)) in H.
    destruct (N.ltb_spec (bmax (v_val vx)) (getLen (v_val vy))).
    + destruct H as [(b & Eb & Sb & Sr & ->)|(e & Ee & ->)]; [discriminate|]. injection Ee as ->. reflexivity.
    + destruct H as [(b & Eb & Sb & Sr & ->)|(e & Ee & ->)]; [|discriminate]. injection Eb as <-.
      destruct (inv_free_block _ _ _ _ _ (inv_disown _ _ _ _ _ _ _ I Eo Ex Ox)) as (h1 & F & J1 & M1 & N1). rewrite F. cbn [bind].
      assert (hs_objs (with_obj s h1 x (mkObj (o_ptr oy) (bmax (v_val vx)) (getLen (v_val vy)) (o_dealloc ox))) y = Some oy) as Ey'.
      { unfold with_obj. cbn [hs_objs]. rewrite put_other by congruence. assumption. }
      rewrite (obj_of_some _ _ _ Ey'). cbn [bind]. eexists. split; [reflexivity|]. unfold invS, with_obj. cbn [hs_heap hs_objs].
      assert (put (hs_objs s) x (Some (mkObj (o_ptr ox) (o_max ox) (o_len ox) false)) y = Some oy) as Ey2 by (rewrite put_other by congruence; assumption).
      assert (put vs x (Some (moved vx)) y = Some vy) as Ev2 by (rewrite put_other by congruence; assumption).
      pose proof (inv_disown _ _ _ _ _ _ _ J1 Ey2 Ev2 Oy) as J2.
      refine (inv_ext _ _ _ _ _ _ _ _ (inv_adopt _ _ _ _ _ x (mkObj (o_ptr oy) (bmax (v_val vx)) (getLen (v_val vy)) (o_dealloc ox))
                (mkV (mkBytes (bdata (v_val vy)) (bmax (v_val vx))) (v_room vy) true) J2 _ _ _ _)); try reflexivity.
      * intros z. unfold put. destruct (N.eqb_spec z x), (N.eqb_spec z y); congruence.
      * intros z. unfold put. destruct (N.eqb_spec z x), (N.eqb_spec z y); congruence.
      * unfold idle. rewrite put_other, put_same by congruence. reflexivity.
      * split; [|cbn; unfold getLen in *; cbn; intros _; lia]. split; [reflexivity|]. split; [reflexivity|]. split; [exact D|]. exists cy. cbn.
        split; [|split; [assumption|rewrite <- Ol0; assumption]]. rewrite M1, put_other; [assumption|]. intros X. apply Nxy. symmetry. eapply (i_uniq _ _ _ _ I); eassumption.
  - (* HSetLen *) apply owned_inv in H. destruct H as (v & Ev & O & H). own I Ev O o c. rewrite (obj_of_some _ _ _ Eo). cbn [bind]. rewrite Om. unfold setLen in H.
    apply change_inv in H. destruct (N.ltb_spec (bmax (v_val v)) n).
    + destruct H as [(b & Eb & Le & ->)|(e & Ee & ->)]; [discriminate|]. injection Ee as ->. reflexivity.
    + destruct (N.leb_spec n (getLen (v_val v))); [|destruct H as [(b & Eb & Le & ->)|(e & Ee & ->)]; discriminate].
      destruct H as [(b & Eb & Le & ->)|(e & Ee & ->)]; [|discriminate]. injection Eb as <-. eexists. split; [reflexivity|].
      rewrite <- Om. rewrite Om at 2. apply shorten_sim; auto.
  - (* HCopyTo *) apply owned_inv in H. destruct H as (vy & Ey & Oy & H). apply owned_inv in H. destruct H as (vx & Ex & Ox & H).
    own I Ex Ox ox cx. own I Ey Oy oy cy. rewrite (obj_of_some _ _ _ Eo), (obj_of_some _ _ _ Eo0). cbn [bind].
    destruct (N.eqb_spec x y) as [->|Nxy]; [discriminate|]. unfold copyToBytes, getLen at 1 in H. eapply set_sim in H; eauto. rewrite Ol0. fold (getLen (v_val vy)) in H.
    destruct r as [[vs' a']|e| |]; try contradiction.
    + destruct H as (-> & -> & h & St & J). destruct (N.eqb_spec (o_ptr oy) (o_ptr ox)) as [X|_].
      { elim Nxy. symmetry. eapply (i_uniq _ _ _ _ I); eassumption. }
      rewrite <- Ol0, (load_sim _ _ _ _ _ I Ey Oy Eo0). cbn [bind]. rewrite St. cbn [bind]. rewrite Ol0. eauto.
    + destruct H as (-> & ->). reflexivity.
  - (* HAddCopyTo *) apply owned_inv in H. destruct H as (vy & Ey & Oy & H). apply owned_inv in H. destruct H as (vx & Ex & Ox & H).
    own I Ex Ox ox cx. own I Ey Oy oy cy. rewrite (obj_of_some _ _ _ Eo), (obj_of_some _ _ _ Eo0). cbn [bind].
    unfold addcopyToBytes in H. rewrite (N.add_comm (getLen (v_val vy))) in H. unfold getLen at 2 in H. eapply append_sim in H; eauto;
      [|fold (getLen (v_val vy)); lia]. fold (getLen (v_val vy)) in H. rewrite (N.add_comm (o_len oy)), Ol0.
    destruct r as [[vs' a']|e| |]; try contradiction.
    + destruct H as (-> & s' & A & J & ->). rewrite (proj2 (andb_false_iff _ _)).
      * rewrite <- Ol0, (load_sim _ _ _ _ _ I Ey Oy Eo0). cbn [bind]. eauto.
      * destruct (N.eqb_spec (o_ptr oy) (o_ptr ox)) as [X|_]; [right|left; reflexivity]. assert (x = y) as -> by (eapply (i_uniq _ _ _ _ I); eauto).
        apply N.ltb_ge. rewrite <- Ol0. rewrite Eo in Eo0. injection Eo0 as ->. lia.
    + destruct H as (-> & ->). reflexivity.
  - (* HSub *) apply owned_inv in H. destruct H as (v & Ev & O & H). apply make_inv in H. destruct H as (E & H). rewrite (unused_none _ _ (inv_none _ _ _ _ _ I E)). cbn [bind].
    own I Ev O o c. rewrite (obj_of_some _ _ _ Eo). cbn [bind]. rewrite Ol. unfold copySubBytes in H. destruct (N.ltb_spec e s0).
    { destruct H as [(b & Eb & Sb & ->)|(ex & Ee & ->)]; [discriminate|]. injection Ee as ->. reflexivity. }
    destruct (N.ltb_spec (getLen (v_val v)) e).
    { destruct H as [(b & Eb & Sb & ->)|(ex & Ee & ->)]; [discriminate|]. injection Ee as ->. reflexivity. }
    destruct H as [(b & Eb & Sb & ->)|(ex & Ee & ->)]; [|discriminate]. injection Eb as <-. cbn [bmax] in *.
    replace (load (o_ptr o) s0 (e - s0) (hs_heap s)) with (Ret (map Some (sliceN s0 e (bdata (v_val v))))).
    + cbn [bind]. apply construct_sim; auto. rewrite lenN_sliceN; unfold getLen in *; lia.
    + unfold load. rewrite P. replace (s0 + (e - s0) <=? lenN c) with true by (symmetry; apply N.leb_le; lia). f_equal. unfold sliceN.
      rewrite <- (takeN_dropN (o_len o) c), T, dropN_app_le by (rewrite lenN_map_some; unfold getLen in *; lia).
      rewrite takeN_app_le by (rewrite lenN_dropN, lenN_map_some; unfold getLen in *; lia). now rewrite dropN_map, takeN_map.
  - (* HAddSize *) apply owned_inv in H. destruct H as (v & Ev & O & H). own I Ev O o c. rewrite (obj_of_some _ _ _ Eo). cbn [bind].
    apply renew_inv in H. destruct H as [(b & Eb & Sb & Sr & ->)|(e & Ee & ->)]; [|discriminate]. injection Eb as <-. rewrite Om, w64_small by (rewrite pow63; lia).
    destruct (store_new (bmax (v_val v) + n) (bdata (v_val v)) _ _ _ _ I) as (h2 & c2 & St & _ & M2 & R2 & T2 & J2 & K2); [unfold getLen in *; lia|].
    assert (o_ptr o <> h_next (hs_heap s)) as Np by (intros X; rewrite X in P; rewrite (i_next _ _ _ _ I _ (N.le_refl _)) in P; discriminate).
    destruct (alloc (bmax (v_val v) + n) (hs_heap s)) as [h p] eqn:A. cbn [fst snd] in St.
    assert (h_mem h (o_ptr o) = Some c) as P' by (unfold alloc in A; injection A as <- <-; cbn; rewrite put_other; assumption).
    rewrite (load_front _ _ _ (o_len o) (map Some (bdata (v_val v))) P') by (assumption || lia). cbn [bind]. rewrite St. cbn [bind].
    destruct (inv_free_block _ _ _ _ _ (inv_disown _ _ _ _ _ _ _ J2 Eo Ev O)) as (h1 & F & J1 & M1 & N1). rewrite F. cbn [bind]. eexists. split; [reflexivity|].
    unfold invS, with_obj. cbn [hs_heap hs_objs]. rewrite D, Ol. unfold alloc in A. injection A as _ <-.
    apply (replace_sim [] s vs x v o h1 (h_next (hs_heap s)) (addSize n (v_val v)) _ c2); auto.
    + rewrite M1, put_other by congruence. exact M2.
    + unfold addSize, getLen in *. cbn. lia.
  - (* HPlus *) apply owned_inv in H. destruct H as (vx & Ex & Ox & H). apply owned_inv in H. destruct H as (vy & Ey & Oy & H).
    apply make_inv in H. destruct H as (E & H). rewrite (unused_none _ _ (inv_none _ _ _ _ _ I E)). cbn [bind].
    own I Ex Ox ox cx. own I Ey Oy oy cy. rewrite (obj_of_some _ _ _ Eo), (obj_of_some _ _ _ Eo0). cbn [bind].
    unfold plusBytes in H. rewrite <- Ol, <- Ol0 in H. destruct (N.eqb_spec (o_len ox) (o_len oy)) as [Q|Q]; cbn [negb].
    + destruct H as [(b & Eb & Sb & ->)|(ex & Ee & ->)]; [|discriminate]. injection Eb as <-.
      rewrite (load_sim _ _ _ _ _ I Ex Ox Eo), (load_sim _ _ _ _ _ I Ey Oy Eo0). cbn [bind]. rewrite !determinate_map. cbn [bind]. rewrite Om. apply construct_sim; auto.
      cbn [bmax]. rewrite lenN_zipb. unfold getLen in *. lia.
    + destruct H as [(b & Eb & Sb & ->)|(ex & Ee & ->)]; [discriminate|]. injection Ee as ->. reflexivity.
  - (* HMinus *) apply owned_inv in H. destruct H as (vx & Ex & Ox & H). apply owned_inv in H. destruct H as (vy & Ey & Oy & H).
    apply make_inv in H. destruct H as (E & H). rewrite (unused_none _ _ (inv_none _ _ _ _ _ I E)). cbn [bind].
    own I Ex Ox ox cx. own I Ey Oy oy cy. rewrite (obj_of_some _ _ _ Eo), (obj_of_some _ _ _ Eo0). cbn [bind].
    unfold minusBytes in H. rewrite <- Ol, <- Ol0 in H. destruct (N.eqb_spec (o_len ox) (o_len oy)) as [Q|Q]; cbn [negb].
    + destruct H as [(b & Eb & Sb & ->)|(ex & Ee & ->)]; [|discriminate]. injection Eb as <-.
      rewrite (load_sim _ _ _ _ _ I Ex Ox Eo), (load_sim _ _ _ _ _ I Ey Oy Eo0). cbn [bind]. rewrite !determinate_map. cbn [bind]. rewrite Om. apply construct_sim; auto.
      cbn [bmax]. rewrite lenN_zipb. unfold getLen in *. lia.
    + destruct H as [(b & Eb & Sb & ->)|(ex & Ee & ->)]; [discriminate|]. injection Ee as ->. reflexivity.
  - (* HRaw *) apply owned_inv in H. destruct H as (v & Ev & O & H). own I Ev O o c. rewrite (obj_of_some _ _ _ Eo). cbn [bind].
    destruct (N.leb_spec (lenN l) (bmax (v_val v))) as [Le|]; [|discriminate].
    eapply set_sim in H; eauto. destruct r as [[vs' a']|e| |]; try contradiction.
    + destruct H as (-> & C & h & St & J). rewrite St. cbn [bind]. rewrite C. eauto.
    + destruct H as (-> & C). apply N.ltb_lt in C. lia.
  - (* HRead *) apply owned_inv in H. destruct H as (v & Ev & O & H). own I Ev O o c. rewrite (obj_of_some _ _ _ Eo). cbn [bind].
    rewrite Om, Ol, sub64_le by (rewrite ?pow63; lia). unfold addBytes in H. destruct (N.ltb_spec (bmax (v_val v)) (getLen (v_val v) + lenN l)) as [Lt|Ge].
    + injection H as <-. replace (bmax (v_val v) - getLen (v_val v) <? lenN l) with true by (symmetry; apply N.ltb_lt; lia). eauto.
    + replace (bmax (v_val v) - getLen (v_val v) <? lenN l) with false by (symmetry; apply N.ltb_ge; lia).
      pose proof (append_sim s vs x v o l LengthError r (HBool true) _ I Ev O Eo Sm eq_refl) as A. apply N.ltb_ge in Ge. rewrite Ge in A. specialize (A H).
      destruct r as [[vs' a']|e| |]; try contradiction.
      * destruct A as (-> & s' & A & J & _). rewrite A. cbn [bind]. eauto.
      * apply change_inv in H. destruct H as [(b & Eb & Le & X)|(ex & Ee & X)]; discriminate.
  - (* HGet *) apply owned_inv in H. destruct H as (v & Ev & O & H). injection H as <-. own I Ev O o c. rewrite (obj_of_some _ _ _ Eo). cbn [bind].
    rewrite (load_sim _ _ _ _ _ I Ev O Eo). cbn [bind]. rewrite determinate_map. cbn [bind]. eauto.
  - (* HEq *) apply owned_inv in H. destruct H as (vx & Ex & Ox & H). apply owned_inv in H. destruct H as (vy & Ey & Oy & H). injection H as <-.
    own I Ex Ox ox cx. own I Ey Oy oy cy. rewrite (obj_of_some _ _ _ Eo), (obj_of_some _ _ _ Eo0). cbn [bind]. unfold eqBytes. rewrite <- Ol, <- Ol0.
    destruct (N.eqb_spec (o_len ox) (o_len oy)); cbn [negb]; [|eauto].
    rewrite (load_sim _ _ _ _ _ I Ex Ox Eo), (load_sim _ _ _ _ _ I Ey Oy Eo0). cbn [bind]. rewrite !determinate_map. cbn [bind]. eauto.
  - (* HLong *) apply owned_inv in H. destruct H as (v & Ev & O & H). own I Ev O o c. rewrite (obj_of_some _ _ _ Eo). cbn [bind]. unfold toLong in H. rewrite <- Ol in H.
    destruct (8 <? o_len o); injection H as <-; [reflexivity|].
    rewrite (load_sim _ _ _ _ _ I Ev O Eo). cbn [bind]. rewrite determinate_map. cbn [bind]. eauto.
Qed.

Lemma run_sim ops : forall s vs vs' rs, invS s vs -> vrun vs ops = Some (vs', rs) -> exists s', hrun s ops = Ret (s', rs) /\ invS s' vs'.
Proof.
  induction ops as [|op ops IH]; intros s vs vs' rs I H.
  - injection H as <- <-. exists s. auto.
  - cbn [vrun] in H. destruct (vstep vs op) as [r|] eqn:St; [|discriminate]. pose proof (step_sim _ _ _ _ I St) as Sm. unfold simulates in Sm.
    destruct r as [[vs1 a]|e| |]; try discriminate.
    + destruct Sm as (s1 & E & J). destruct (vrun vs1 ops) as [[vf l]|] eqn:R; [|discriminate]. injection H as <- <-.
      destruct (IH _ _ _ _ J R) as (s' & E' & J'). exists s'. split; [|exact J']. cbn [hrun]. rewrite E, E'. reflexivity.
    + destruct (vrun vs ops) as [[vf l]|] eqn:R; [|discriminate]. injection H as <- <-.
      destruct (IH _ _ _ _ I R) as (s' & E' & J'). exists s'. split; [|exact J']. cbn [hrun]. rewrite Sm, E'. reflexivity.
Qed.
Lemma inv_represents s vs : invS s vs -> represents s vs.
Proof.
  intros I. split; [|split].
  - intros x. pose proof (i_obj _ _ _ _ I x) as G. destruct (hs_objs s x), (vs x); auto. apply G.
  - apply (i_uniq _ _ _ _ I).
  - intros p P. destruct (i_all _ _ _ _ I p P) as [[]|X]. exact X.
Qed.
Lemma heap_safe ops vs rs : vrun v_init ops = Some (vs, rs) -> exists s, hrun hs_init ops = Ret (s, rs) /\ represents s vs.
Proof. intros H. destruct (run_sim ops hs_init v_init vs rs inv_init H) as (s & E & I). exists s. split; [exact E|]. now apply inv_represents. Qed.
Lemma heap_no_leak ops vs rs s : vrun v_init ops = Some (vs, rs) -> (forall x, vs x = None) -> hrun hs_init ops = Ret (s, rs) -> forall p, h_mem (hs_heap s) p = None.
Proof.
  intros H N0 R p. destruct (heap_safe ops vs rs H) as (s' & R' & (A & _ & C)). assert (s' = s) as -> by congruence.
  destruct (h_mem (hs_heap s) p) eqn:P; [|reflexivity]. destruct (C p) as (x & o & E & _); [congruence|]. specialize (A x). rewrite E, N0 in A. contradiction.
Qed.

(** *** programs without moves *)
Definition vplain (vs : vstore) : Prop := forall x v, vs x = Some v -> v_own v = true /\ v_room v = bmax (v_val v).
Lemma vplain_put vs x v : vplain vs -> (forall w, v = Some w -> v_own w = true /\ v_room w = bmax (v_val w)) -> vplain (put vs x v).
Proof. intros V H y w. unfold put. destruct (y =? x); [apply H|apply V]. Qed.
Lemma change_plain vs x v q a vs' r : vplain vs -> vs x = Some v -> (forall b, q = Ret b -> bmax b = bmax (v_val v)) -> change vs x v q a = Some (Ret (vs', r)) -> vplain vs'.
Proof.
  intros V E M H. apply change_inv in H. destruct H as [(b & Eb & Le & X)|(e & Ee & X)]; [|discriminate]. injection X as -> ->.
  apply vplain_put; [exact V|]. intros w [= <-]. cbn. rewrite (M b Eb). split; [reflexivity|]. now apply (V x v).
Qed.
Lemma make_plain vs x q vs' r : vplain vs -> make vs x q = Some (Ret (vs', r)) -> vplain vs'.
Proof.
  intros V H. apply make_inv in H. destruct H as (E & [(b & Eb & S & X)|(e & Ee & X)]); [|discriminate]. injection X as -> ->.
  apply vplain_put; [exact V|]. intros w [= <-]. auto.
Qed.
Lemma renew_plain vs x q room vs' r : vplain vs -> (forall b, q = Ret b -> bmax b = room) -> renew vs x q room = Some (Ret (vs', r)) -> vplain vs'.
Proof.
  intros V M H. apply renew_inv in H. destruct H as [(b & Eb & S & S' & X)|(e & Ee & X)]; [|discriminate]. injection X as -> ->.
  apply vplain_put; [exact V|]. intros w [= <-]. cbn. now rewrite (M b Eb).
Qed.
Ltac cap := let b := fresh in let X := fresh in intros b X; cbn in X; unfold addrandom, random_bytes, setBytes, addBytes, addByte, setLen, copyToBytes, addcopyToBytes in X;
  repeat match goal with H : context [if ?c then _ else _] |- _ => destruct c; try discriminate H end; cbn [bind] in X; try discriminate X; try (injection X as <-); reflexivity.
Lemma vplain_step vs op vs' r : vplain vs -> plain op = true -> vstep vs op = Some (Ret (vs', r)) -> vplain vs'.
Proof.
  intros V Pl H. unfold vstep in H. destruct (args_small op); [|discriminate]. cbn [negb] in H.
  destruct op; try discriminate Pl; try (eapply make_plain; eassumption);
    repeat match goal with H : owned _ _ _ = Some _ |- _ => let v := fresh "v" in let E := fresh "E" in let O := fresh "O" in apply owned_inv in H; destruct H as (v & E & O & H) end;
    try (eapply make_plain; eassumption); try (injection H as <- <-; exact V);
    try (destruct (_ =? _); try discriminate; (eapply change_plain; [exact V|eassumption| |eassumption]); cap);
    try (eapply change_plain; [exact V|eassumption| |eassumption]; cap).
  - destruct (x =? y); [injection H as <- <-; exact V|]. eapply renew_plain; [exact V| |exact H]. cap.
  - destruct (vs x); [|discriminate]. injection H as <- <-. apply vplain_put; [exact V|discriminate].
  - destruct (_ =? _); [|discriminate]. eapply change_plain; [exact V|eassumption| |eassumption]. intros b X. apply fillrandom_inv in X. now destruct X as (_ & ->).
  - eapply renew_plain; [exact V| |exact H]. cap.
  - destruct (lenN l <=? bmax (v_val v)); [|discriminate]. eapply change_plain; [exact V|eassumption| |eassumption]. cap.
  - destruct (_ <? _); [injection H as <- <-; exact V|]. eapply change_plain; [exact V|eassumption| |eassumption]. cap.
  - unfold toLong in H. destruct (_ <? _); [discriminate|]. injection H as <- <-. exact V.
Qed.
Lemma vplain_run ops : forall vs vs' rs, vplain vs -> forallb plain ops = true -> vrun vs ops = Some (vs', rs) -> vplain vs'.
Proof.
  induction ops as [|op ops IH]; intros vs vs' rs V Pl H; [injection H as <- <-; exact V|]. cbn in Pl. apply andb_true_iff in Pl. destruct Pl as (P1 & P2). cbn [vrun] in H.
  destruct (vstep vs op) as [[[vs1 a]|e| |]|] eqn:St; try discriminate.
  - destruct (vrun vs1 ops) as [[vf l]|] eqn:R; [|discriminate]. injection H as <- <-. eapply IH; [|exact P2|exact R]. eapply vplain_step; eassumption.
  - destruct (vrun vs ops) as [[vf l]|] eqn:R; [|discriminate]. injection H as <- <-. eapply IH; eassumption.
Qed.
Lemma owned_own vs x v k : vs x = Some v -> v_own v = true -> owned vs x k = k v.
Proof. unfold owned. now intros -> ->. Qed.
Lemma change_some vs x v q a : v_room v = bmax (v_val v) -> (forall b, q = Ret b -> getLen b <= bmax (v_val v)) -> (exists b, q = Ret b) \/ (exists e, q = Throw e) -> change vs x v q a <> None.
Proof.
  intros R H [(b & ->)|(e & ->)]; unfold change; [|discriminate]. rewrite R. specialize (H b eq_refl). apply N.leb_le in H. now rewrite H.
Qed.
Lemma make_some vs x q : vs x = None -> (forall b, q = Ret b -> bmax b < 2 ^ 63) -> (exists b, q = Ret b) \/ (exists e, q = Throw e) -> make vs x q <> None.
Proof.
  intros R H [(b & ->)|(e & ->)]; unfold make; rewrite R; [|discriminate]. specialize (H b eq_refl). apply N.ltb_lt in H. unfold small. now rewrite H.
Qed.
Ltac chg := apply change_some; [assumption| |]; unfold setBytes, addBytes, addByte, copyToBytes, addcopyToBytes;
    [let b' := fresh in intros b'; repeat match goal with |- context [if ?c then _ else _] => destruct c eqn:? end; intros [= <-]; unfold getLen in *; cbn [bmax bdata]; rewrite ?lenN_app, ?lenN_takeN;
       repeat match goal with H : (_ <? _) = false |- _ => apply N.ltb_ge in H | H : (_ <=? _) = false |- _ => apply N.leb_gt in H end; try match goal with b : byte |- _ => change (lenN [b]) with 1 in * end; lia
    |repeat match goal with |- context [if ?c then _ else _] => destruct c eqn:? end; eauto].
Lemma heap_proper ops vs rs op : vrun v_init ops = Some (vs, rs) -> forallb plain ops = true -> proper vs op -> vstep vs op <> None.
Proof.
  intros R Pl (Sm & H). assert (vplain vs) as V by (apply (vplain_run ops v_init vs rs); [discriminate|exact Pl|exact R]).
  destruct (run_sim ops hs_init v_init vs rs inv_init R) as (s & _ & I).
  assert (forall x (P : Bytes -> Prop), alive vs x P -> exists v, vs x = Some v /\ v_own v = true /\ v_room v = bmax (v_val v) /\ getLen (v_val v) <= bmax (v_val v) /\ bmax (v_val v) < 2 ^ 63 /\ P (v_val v)) as Al.
  { intros x P A. unfold alive in A. destruct (vs x) as [v|] eqn:E; [|contradiction]. destruct (V x v E) as (O & Ro). own I E O o c. exists v. auto 7. }
  unfold vstep. rewrite Sm. cbn [negb].
  destruct op; cbn [args_small] in Sm; unfold small in Sm; try apply N.ltb_lt in Sm; try contradiction;
    repeat match goal with
    | H : _ /\ _ |- _ => destruct H
    | H : alive vs ?x ?P |- _ => let v := fresh "v" in apply Al in H; destruct H as (v & ?E & ?O & ?Ro & ?Le & ?Mx & ?Pr); rewrite (owned_own vs x v) by assumption
    end; try discriminate.
  all: try (apply make_some; [assumption| |]; unfold newBytes, withU64, fromArray, copyBytes, copyExtra, copySubBytes, plusBytes, minusBytes;
    [intros b; repeat match goal with |- context [if ?c then _ else _] => destruct c eqn:? end; intros [= <-]; unfold getLen in *; cbn [bmax bdata];
       repeat match goal with H : (_ <? _) = false |- _ => apply N.ltb_ge in H end; lia
    |repeat match goal with |- context [if ?c then _ else _] => destruct c end; eauto]).
  all: try chg.
  - destruct (x =? y); [discriminate|]. unfold renew, small. cbn [copyBytes bmax]. apply N.ltb_lt in Mx. now rewrite Mx.
  - unfold alive in H. destruct (vs x); [discriminate|contradiction].
  - match goal with X : _ + lenN l = _ |- _ => rename X into Pr end. match goal with X : lenN l < 2 ^ 31 |- _ => rename X into P31 end. rewrite (proj2 (N.eqb_eq _ _) Pr). unfold fillrandom.
    rewrite random_bytes_ok by (change (2 ^ 31) with 2147483648 in P31; lia). cbn [bind noexcept].
    apply change_some; [assumption| |eauto]. intros b [= <-]. unfold getLen in *. cbn. rewrite lenN_app. lia.
  - unfold addrandom. rewrite random_bytes_ok by (auto; change (2 ^ 31) with 2147483648 in *; lia). cbn [bind]. chg.
  - destruct Pr; apply change_some; try assumption; unfold setLen.
    + intros b. destruct (N.ltb_spec (bmax (v_val v)) n); [discriminate|]. destruct (N.leb_spec n (getLen (v_val v))); [|discriminate]. intros [= <-]. unfold getLen. cbn. rewrite lenN_takeN. lia.
    + destruct (N.ltb_spec (bmax (v_val v)) n); [eauto|]. destruct (N.leb_spec n (getLen (v_val v))); [eauto|lia].
    + intros b. destruct (N.ltb_spec (bmax (v_val v)) n); [discriminate|lia].
    + destruct (N.ltb_spec (bmax (v_val v)) n); [eauto|lia].
  - destruct (N.eqb_spec x y); [contradiction|]. chg.
  - unfold renew, small. cbn [addSize bmax]. apply N.ltb_lt in Pr. now rewrite Pr.
  - rewrite (proj2 (N.leb_le _ _) Pr). chg.
  - destruct (_ <? _); [discriminate|]. chg.
  - unfold toLong. destruct (_ <? _); discriminate.
Qed.

(** *** what happens without the rules *)
Lemma hrun_app a b : forall s s1 ra, hrun s a = Ret (s1, ra) -> hrun s (a ++ b) = '(sf, rb) <- hrun s1 b ;; Ret (sf, ra ++ rb).
Proof.
  induction a as [|op a IH]; intros s s1 ra H; cbn [hrun app] in *.
  - injection H as <- <-. now destruct (hrun s b) as [[]| | |].
  - destruct (hstep s op) as [[s2 v]|e| |]; try discriminate.
    + apply bind_ret_inv in H. destruct H as ([sf vs] & E & [= -> <-]). rewrite (IH _ _ _ E). now destruct (hrun s1 b) as [[]| | |].
    + apply bind_ret_inv in H. destruct H as ([sf vs] & E & [= -> <-]). rewrite (IH _ _ _ E). now destruct (hrun s1 b) as [[]| | |].
Qed.
Lemma overflow_lemma ops vs rs x v l : vrun v_init ops = Some (vs, rs) -> vs x = Some v -> v_own v = true -> lenN l < 2 ^ 63 ->
  getLen (v_val v) + lenN l <= bmax (v_val v) -> v_room v < getLen (v_val v) + lenN l -> hrun hs_init (ops ++ [HAdd x l]) = Crash Undefined.
Proof.
  intros R E O Sm Le Ro. destruct (run_sim ops hs_init v_init vs rs inv_init R) as (s & H & I). rewrite (hrun_app _ _ _ _ _ H). own I E O o c.
  cbn [hrun hstep]. rewrite (obj_of_some _ _ _ Eo). cbn [bind]. rewrite w64_small, Om, Ol by (rewrite Ol; apply lt_dbl; lia).
  replace (bmax (v_val v) <? getLen (v_val v) + lenN l) with false by (symmetry; apply N.ltb_ge; exact Le).
  unfold append, store. rewrite P, lenN_map_some, Ol. replace (getLen (v_val v) + lenN l <=? lenN c) with false by (symmetry; apply N.leb_gt; lia). reflexivity.
Qed.
Lemma double_free_lemma ops vs rs x y z vy vz : vrun v_init ops = Some (vs, rs) -> vs x = None -> vs y = Some vy -> v_own vy = true -> vs z = Some vz -> v_own vz = true -> y <> z ->
  hrun hs_init (ops ++ [HMove x y; HAssign y z; HDestroy x]) = Crash Undefined.
Proof.
  intros R Ex Ey Oy Ez Oz Nyz. destruct (run_sim ops hs_init v_init vs rs inv_init R) as (s & H & I). rewrite (hrun_app _ _ _ _ _ H).
  own I Ey Oy oy cy. own I Ez Oz oz cz. assert (x <> y) as Nxy by congruence. assert (x <> z) as Nxz by congruence.
  cbn [hrun hstep]. rewrite (unused_none _ _ (inv_none _ _ _ _ _ I Ex)), (obj_of_some _ _ _ Eo). cbn [bind].
  set (s1 := with_obj (with_obj _ _ _ _) _ x _).
  assert (hs_objs s1 y = Some (mkObj (o_ptr oy) (o_max oy) (o_len oy) false)) as E1 by (unfold s1, with_obj; cbn; rewrite put_other, put_same by congruence; reflexivity).
  assert (hs_objs s1 z = Some oz) as E2 by (unfold s1, with_obj; cbn; rewrite !put_other by congruence; assumption).
  rewrite (obj_of_some _ _ _ E1), (obj_of_some _ _ _ E2). cbn [bind]. destruct (N.eqb_spec y z); [contradiction|].
  destruct (inv_free_block _ _ _ _ _ (inv_disown _ _ _ _ _ _ _ I Eo Ey Oy)) as (h1 & F & J1 & M1 & N1).
  change (hs_heap s1) with (hs_heap s). cbn [o_ptr o_max o_len o_dealloc]. rewrite F. cbn [bind].
  destruct (store_new (o_max oz) (bdata (v_val vz)) _ _ _ _ J1) as (h2 & c2 & St & _ & M2 & R2 & T2 & J2 & K2); [unfold getLen in *; lia|].
  assert (h_mem h1 (o_ptr oz) = Some cz) as Pz.
  { rewrite M1, put_other; [assumption|]. intros X. apply Nyz. eapply (i_uniq _ _ _ _ I); eauto. }
  destruct (alloc (o_max oz) h1) as [h p] eqn:A. cbn [fst snd] in St.
  assert (p = h_next h1) as Ep by (unfold alloc in A; now injection A as _ <-).
  assert (h_mem h (o_ptr oz) = Some cz) as Pz'.
  { unfold alloc in A. injection A as <- _. cbn. rewrite put_other; [assumption|]. intros X. rewrite X in Pz.
    rewrite (i_next _ _ _ _ J1 _ (N.le_refl _)) in Pz. discriminate. }
  rewrite (load_front _ _ _ (o_len oz) (map Some (bdata (v_val vz))) Pz') by (assumption || lia). cbn [bind]. rewrite St. cbn [bind].
  unfold obj_of, with_obj at 1. cbn [hs_objs]. rewrite put_other by congruence. unfold s1, with_obj at 1. cbn [hs_objs]. rewrite put_same. cbn [bind o_dealloc o_ptr with_obj hs_heap].
  unfold free. rewrite K2.
  - rewrite M1, put_same. reflexivity.
  - intros X. assert (h_mem (hs_heap s) (o_ptr oy) = None) as Y; [|congruence]. rewrite X, N1. apply (i_next _ _ _ _ I). lia.
Qed.
Lemma two_moves_lemma ops vs rs x y z vy : vrun v_init ops = Some (vs, rs) -> vs x = None -> vs z = None -> x <> z -> vs y = Some vy -> v_own vy = true ->
  hrun hs_init (ops ++ [HMove x y; HMove z y; HDestroy x; HDestroy z]) = Crash Undefined.
Proof.
  intros R Ex Ez Nxz Ey Oy. destruct (run_sim ops hs_init v_init vs rs inv_init R) as (s & H & I). rewrite (hrun_app _ _ _ _ _ H).
  own I Ey Oy oy cy. assert (x <> y) as Nxy by congruence. assert (z <> y) as Nzy by congruence.
  cbn [hrun hstep]. rewrite (unused_none _ _ (inv_none _ _ _ _ _ I Ex)), (obj_of_some _ _ _ Eo). cbn [bind].
  unfold unused, obj_of, with_obj. cbn [hs_objs hs_heap]. rewrite !(put_other _ _ _ z) by congruence. rewrite (inv_none _ _ _ _ _ I Ez). cbn [bind].
  rewrite put_other, put_same by congruence. cbn [bind hs_objs hs_heap o_ptr o_max o_len o_dealloc].
  rewrite put_other by congruence. rewrite put_other by congruence. rewrite put_same. cbn [bind o_dealloc o_ptr]. unfold free at 1. rewrite P. cbn [bind hs_objs hs_heap].
  rewrite put_other by congruence. rewrite put_same. cbn [bind o_dealloc o_ptr]. unfold free. cbn [h_mem]. rewrite put_same. reflexivity.
Qed.
