(** Lemmas for C104. *)
From Verif Require Import Base BaseFacts BytesModel BytesFacts HeapModel HeapModel2 HeapSpec HeapSpec2 HeapFacts HeapFacts2.

Definition constructs (op : hop) : bool :=
  match op with HNew _ _ | HCopy _ _ | HCopyExtra _ _ _ | HSub _ _ _ _ | HPlus _ _ _ | HMinus _ _ _ => true | _ => false end.
Lemma determinate_not_throw l e : determinate l <> Throw e.
Proof. induction l as [|[b|] l IH]; cbn; try discriminate. destruct (determinate l) eqn:D; cbn; congruence. Qed.
Lemma load_not_throw p o n h e : load p o n h <> Throw e.
Proof. unfold load. destruct (h_mem h p); [|discriminate]. now destruct (_ <=? _). Qed.
Lemma construct_not_throw s x m l e : construct s x m l <> Throw e.
Proof. unfold construct, alloc, store. cbn. rewrite put_same. destruct (_ <=? _); discriminate. Qed.
Lemma unused_not_throw s x e : unused s x <> Throw e.
Proof. unfold unused. now destruct (hs_objs s x). Qed.
Lemma obj_of_not_throw s x e : obj_of s x <> Throw e.
Proof. unfold obj_of. now destruct (hs_objs s x). Qed.
Ltac opt := repeat match goal with
  | H : bind ?m _ = Throw _ |- _ => let E := fresh "E" in destruct m eqn:E; cbn [bind] in H; try discriminate
  | H : (if ?b then _ else _) = Throw _ |- _ => let E := fresh "B" in destruct b eqn:E; try discriminate
  | H : determinate _ = Throw _ |- _ => apply determinate_not_throw in H; contradiction
  | H : load _ _ _ _ = Throw _ |- _ => apply load_not_throw in H; contradiction
  | H : construct _ _ _ _ = Throw _ |- _ => apply construct_not_throw in H; contradiction
  | H : unused _ _ = Throw _ |- _ => apply unused_not_throw in H; contradiction
  | H : obj_of _ _ = Throw _ |- _ => apply obj_of_not_throw in H; contradiction
  end.
Ltac rew := cbn [bind negb]; repeat (first
  [ match goal with H : ?m = Ret _ |- context [?m] => rewrite H end
  | match goal with H : ?m = true |- context [if ?m then _ else _] => rewrite H end
  | match goal with H : ?m = false |- context [if ?m then _ else _] => rewrite H end ]; cbn [bind negb]).
Lemma fail_ret s op v : constructs op = true -> hstep s op = Ret v -> hstep_a false s op = (s, Throw OtherExn).
Proof. intros C H. destruct op; try discriminate; cbn [hstep hstep_a] in *; opn; rew; reflexivity. Qed.
Lemma fail_throw s op e : constructs op = true -> hstep s op = Throw e -> hstep_a false s op = (s, Throw e).
Proof. intros C H. destruct op; try discriminate; cbn [hstep hstep_a] in *; opt; rew; congruence. Qed.

Lemma step_a_sim ok s vs op r : invS s vs -> vstep_a ok vs op = Some r ->
  match r with
  | Ret (vs', a) => exists s', hstep_a ok s op = (s', Ret a) /\ invS s' vs'
  | Throw e => hstep_a ok s op = (s, Throw e)
  | _ => False
  end.
Proof.
  intros I H.
  assert (vstep vs op = Some r -> hstep_a ok s op = or_else s (hstep s op) -> match r with
    | Ret (vs', a) => exists s', hstep_a ok s op = (s', Ret a) /\ invS s' vs' | Throw e => hstep_a ok s op = (s, Throw e) | _ => False end) as Same.
  { intros V E. pose proof (step_sim _ _ _ _ I V) as S. unfold simulates in S. destruct r as [[vs' a]|e|c|]; try contradiction.
    - destruct S as (s' & Q & J). exists s'. rewrite E, Q. auto.
    - now rewrite E, S. }
  assert (constructs op = true -> ok = false -> match vstep vs op with Some (Ret _) => Some (Throw OtherExn) | q => q end = Some r ->
    match r with Ret (vs', a) => exists s', hstep_a ok s op = (s', Ret a) /\ invS s' vs' | Throw e => hstep_a ok s op = (s, Throw e) | _ => False end) as Cn.
  { intros C -> V. destruct (vstep vs op) as [q|] eqn:Q; [|discriminate]. pose proof (step_sim _ _ _ _ I Q) as S. unfold simulates in S.
    destruct q as [[vs' a]|e|c|]; try contradiction; injection V as <-.
    - destruct S as (s' & E & J). eapply fail_ret; eassumption.
    - eapply fail_throw; eassumption. }
  unfold vstep_a in H. destruct ok; [apply Same; [exact H|reflexivity]|].
  destruct op; try discriminate; try (apply Cn; [reflexivity|reflexivity|exact H]); try (apply Same; [exact H|reflexivity]).
  destruct (N.eqb_spec x y) as [->|]; [|discriminate]. apply Same; [exact H|]. cbn [hstep_a hstep]. destruct (obj_of s y) as [o|?|?|]; cbn [bind]; try reflexivity. now rewrite N.eqb_refl.
Qed.
Lemma run_a_sim ops : forall s vs vs' rs, invS s vs -> vrun_a vs ops = Some (vs', rs) -> exists s', hrun_a s ops = Ret (s', rs) /\ invS s' vs'.
Proof.
  induction ops as [|[op ok] ops IH]; intros s vs vs' rs I H; cbn [vrun_a hrun_a] in *.
  - injection H as <- <-. exists s. auto.
  - destruct (vstep_a ok vs op) as [r|] eqn:St; [|discriminate]. pose proof (step_a_sim _ _ _ _ _ I St) as Sm.
    destruct r as [[vs1 a]|e| |]; try discriminate.
    + destruct Sm as (s1 & E & J). destruct (vrun_a vs1 ops) as [[vf l]|] eqn:R; [|discriminate]. injection H as <- <-.
      destruct (IH _ _ _ _ J R) as (s' & E' & J'). exists s'. rewrite E, E'. auto.
    + destruct (vrun_a vs ops) as [[vf l]|] eqn:R; [|discriminate]. injection H as <- <-.
      destruct (IH _ _ _ _ I R) as (s' & E' & J'). exists s'. rewrite Sm, E'. auto.
Qed.
Lemma heap_out_of_memory ops vs rs : vrun_a v_init ops = Some (vs, rs) -> exists s, hrun_a hs_init ops = Ret (s, rs) /\ represents s vs.
Proof. intros H. destruct (run_a_sim ops hs_init v_init vs rs inv_init H) as (s & E & I). exists s. split; [exact E|]. now apply inv_represents. Qed.

Lemma hrun_a_app ops : forall s ops2, hrun_a s (ops ++ ops2) = match hrun_a s ops with Ret (s', l) => match hrun_a s' ops2 with Ret (s2, l2) => Ret (s2, l ++ l2) | Throw e => Throw e | Crash c => Crash c | OutOfFuel => OutOfFuel end | Throw e => Throw e | Crash c => Crash c | OutOfFuel => OutOfFuel end.
Proof.
  induction ops as [|[op ok] ops IH]; intros s ops2; cbn [app hrun_a].
  - destruct (hrun_a s ops2) as [[? ?]|?|?|]; reflexivity.
  - destruct (hstep_a ok s op) as [s1 [v|e|c|]]; try reflexivity; rewrite IH; destruct (hrun_a s1 ops) as [[s2 l]|?|?|]; cbn [bind]; try reflexivity;
      destruct (hrun_a s2 ops2) as [[? ?]|?|?|]; reflexivity.
Qed.

(** ** an object whose array is gone *)
Definition dangles (s : hstate) (z : N) : Prop :=
  exists o, hs_objs s z = Some o /\ o_dealloc o = true /\ h_mem (hs_heap s) (o_ptr o) = None /\ o_ptr o < h_next (hs_heap s).
Definition dangling (s : hstate) : Prop := exists z, dangles s z.
Lemma free_none p h : h_mem h p = None -> free p h = Crash Undefined.
Proof. unfold free. now intros ->. Qed.
Lemma store_none p off l h h' q : store p off l h = Ret h' -> h_mem h q = None -> h_mem h' q = None /\ h_next h' = h_next h.
Proof.
  intros S E. destruct (store_freed _ _ _ _ _ S) as (_ & A & B). split; [|exact A]. destruct (N.eq_dec q p) as [->|Q]; [|now rewrite B].
  unfold store in S. rewrite E in S. discriminate.
Qed.
Lemma free_keeps p h h' q : free p h = Ret h' -> h_mem h q = None -> h_mem h' q = None /\ h_next h' = h_next h.
Proof.
  unfold free. destruct (h_mem h p) eqn:P; [|discriminate]. intros [= <-] E. cbn. split; [|reflexivity]. unfold put. now destruct (q =? p).
Qed.
Lemma new_keeps (h : heap) q c : q < h_next h -> h_mem h q = None -> put (h_mem h) (h_next h) c q = None.
Proof. intros L E. rewrite put_other by lia. exact E. Qed.
Lemma dangles_keep s h os z : dangles s z ->
  (forall o, hs_objs s z = Some o -> o_dealloc o = true -> h_mem (hs_heap s) (o_ptr o) = None -> o_ptr o < h_next (hs_heap s) ->
     exists o', os z = Some o' /\ o_ptr o' = o_ptr o /\ o_dealloc o' = true /\ h_mem h (o_ptr o) = None /\ o_ptr o < h_next h) -> dangling (mkHS h os).
Proof. intros (o & E & D & M & L) K. destruct (K o E D M L) as (o' & E' & P & D' & M' & L'). exists z, o'. cbn. rewrite P. auto. Qed.
Lemma construct_dangling s x max l s' a : dangling s -> hs_objs s x = None -> construct s x max l = Ret (s', a) -> dangling s'.
Proof.
  intros (z & Dz) E H. unfold construct, alloc in H. opn. injection H as <- <-. eapply dangles_keep; [exact Dz|]. intros o Eo D M L. exists o.
  destruct (store_none _ _ _ _ _ (o_ptr o) E0) as (A & B); [now apply new_keeps|]. rewrite put_other by congruence. cbn in B. rewrite A, B. repeat split; auto. lia.
Qed.
Lemma rest_dangling s z h x o' : dangles s z -> (forall q, h_mem (hs_heap s) q = None -> h_mem h q = None /\ h_next h = h_next (hs_heap s)) ->
  (x = z -> exists o, hs_objs s z = Some o /\ o_ptr o' = o_ptr o /\ o_dealloc o' = o_dealloc o) -> dangling (with_obj s h x o').
Proof.
  intros Dz K X. eapply dangles_keep; [exact Dz|]. intros o E D M L. destruct (K _ M) as (A & B). rewrite B.
  destruct (N.eq_dec z x) as [->|Q].
  - destruct (X eq_refl) as (o2 & E2 & P2 & D2). rewrite E in E2. injection E2 as <-. exists o'. rewrite put_same, D2. auto.
  - exists o. rewrite put_other by exact Q. auto.
Qed.
Lemma append_dangling s x o l s' a : dangling s -> hs_objs s x = Some o -> append s x o l = Ret (s', a) -> dangling s'.
Proof.
  intros (z & Dz) E H. unfold append in H. opn. injection H as <- <-. apply (rest_dangling _ z); [exact Dz| |].
  - intros q Q. eapply store_none; eassumption.
  - intros <-. exists o. auto.
Qed.
Lemma obj_of_inv s x o : obj_of s x = Ret o -> hs_objs s x = Some o.
Proof. unfold obj_of. destruct (hs_objs s x); [now intros [= ->]|discriminate]. Qed.
Lemma unused_inv s x u : unused s x = Ret u -> hs_objs s x = None.
Proof. unfold unused. now destruct (hs_objs s x). Qed.
Ltac names := repeat match goal with H : obj_of _ _ = Ret _ |- _ => apply obj_of_inv in H | H : unused _ _ = Ret _ |- _ => apply unused_inv in H end.

Lemma step_dangling s op s' a : dangling s -> no_hand_over op = true -> hstep s op = Ret (s', a) -> dangling s'.
Proof.
  intros Dg Nh H. destruct op; try discriminate; cbn [hstep] in H; opn; names; try (injection H as <- <-; exact Dg);
    try (eapply construct_dangling; eassumption); try (eapply append_dangling; eassumption);
    try (injection H as <- <-; destruct Dg as (zz & Dz); apply (rest_dangling _ zz); [exact Dz|intros q Q; eapply store_none; eassumption|intros <-; eexists; split; [eassumption|split; reflexivity]]);
    destruct Dg as (zz & Dz).
  - (* HArray *) unfold alloc_with in H. injection H as <- <-. eapply dangles_keep; [exact Dz|]. intros o Eo D M L. exists o. cbn.
    rewrite put_other by congruence. rewrite new_keeps by assumption. repeat split; auto. lia.
  - (* HMove *) injection H as <- <-. destruct Dz as (o & Eo & D & M & L). destruct (N.eq_dec zz y) as [->|Q].
    + rewrite E0 in Eo. injection Eo as <-. exists x. eexists. cbn. rewrite put_same. split; [reflexivity|]. cbn. auto.
    + exists zz, o. cbn. rewrite put_other by congruence. rewrite put_other by exact Q. auto.
  - (* HAssign *) unfold alloc in H. opn. injection H as <- <-. destruct (N.eq_dec zz x) as [->|Q].
    { destruct Dz as (o & Eo & D & M & L). rewrite E in Eo. injection Eo as <-. rewrite (free_none _ _ M) in E1. discriminate. }
    eapply dangles_keep; [exact Dz|]. intros o Eo D M L. exists o. rewrite put_other by exact Q.
    destruct (free_keeps _ _ _ (o_ptr o) E1 M) as (M1 & N1). destruct (store_none _ _ _ _ _ (o_ptr o) E3) as (A & C).
    { cbn. apply new_keeps; [lia|exact M1]. } cbn in C. rewrite A, C. repeat split; auto. lia.
  - (* HDestroy *) injection H as <- <-. destruct (N.eq_dec zz x) as [->|Q].
    { destruct Dz as (o & Eo & D & M & L). rewrite E in Eo. injection Eo as <-. rewrite (free_none _ _ M) in E0. discriminate. }
    eapply dangles_keep; [exact Dz|]. intros o Eo D M L. exists o. rewrite put_other by exact Q.
    destruct (free_keeps _ _ _ (o_ptr o) E0 M) as (M1 & N1). rewrite M1, N1. auto.
  - injection E0 as <-. injection H as <- <-. destruct (N.eq_dec zz x) as [->|Q].
    { destruct Dz as (o & Eo & D & M & L). congruence. }
    eapply dangles_keep; [exact Dz|]. intros o Eo D M L. exists o. rewrite put_other by exact Q. auto.
  - (* HTake *) unfold alloc_with in H. opn. injection H as <- <-. destruct (N.eq_dec zz x) as [->|Q].
    { destruct Dz as (o & Eo & D & M & L). rewrite E in Eo. injection Eo as <-. rewrite free_none in E0; [discriminate|]. cbn. now apply new_keeps. }
    eapply dangles_keep; [exact Dz|]. intros o Eo D M L. exists o. rewrite put_other by exact Q.
    destruct (free_keeps _ _ _ (o_ptr o) E0) as (M1 & N1); [cbn; now apply new_keeps|]. cbn in N1. rewrite M1, N1. repeat split; auto. lia.
  - (* HSetLen *) injection H as <- <-. apply (rest_dangling _ zz); [exact Dz|auto|]. intros <-. eexists. split; [eassumption|split; reflexivity].
  - (* HAddSize *) unfold alloc in H. opn. injection H as <- <-. destruct (N.eq_dec zz x) as [->|Q].
    { destruct Dz as (o & Eo & D & M & L). rewrite E in Eo. injection Eo as <-. destruct (store_none _ _ _ _ _ (o_ptr a0) E1) as (A & _); [cbn; now apply new_keeps|].
      rewrite (free_none _ _ A) in E2. discriminate. }
    eapply dangles_keep; [exact Dz|]. intros o Eo D M L. exists o. rewrite put_other by exact Q.
    destruct (store_none _ _ _ _ _ (o_ptr o) E1) as (M1 & N1); [cbn; now apply new_keeps|]. destruct (free_keeps _ _ _ (o_ptr o) E2 M1) as (M2 & N2).
    cbn in N1. rewrite M2, N2, N1. repeat split; auto. lia.
  - (* HRead *) destruct a1 as [s1 r1]. injection H as <- <-. eapply append_dangling; try eassumption. now exists zz.
Qed.
Lemma step_a_dangling ok s op s' r : dangling s -> no_hand_over op = true -> hstep_a ok s op = (s', r) -> (forall c, r <> Crash c) -> dangling s'.
Proof.
  intros Dg Nh H Nc.
  assert (hstep_a ok s op = or_else s (hstep s op) -> dangling s') as Same.
  { intros E. rewrite E in H. unfold or_else in H. destruct (hstep s op) as [[s1 v]|e|c|] eqn:S; injection H as <- <-; auto. eapply step_dangling; eassumption. }
  destruct ok; [now apply Same|]. destruct op; try (now apply Same); cbn [hstep_a] in H; try (injection H as <- <-; exact Dg).
  destruct (obj_of s x) as [ox|?|?|] eqn:Ex; cbn [bind] in H; try (injection H as <- <-; exact Dg).
  destruct (obj_of s y) as [oy|?|?|] eqn:Ey; cbn [bind] in H; try (injection H as <- <-; exact Dg).
  destruct (x =? y); [injection H as <- <-; exact Dg|]. destruct (free (o_ptr ox) (hs_heap s)) as [h|?|?|] eqn:F; injection H as <- <-; try exact Dg.
  names. destruct Dg as (z & Dz). apply (rest_dangling _ z); [exact Dz| |].
  - intros q Q. eapply free_keeps; eassumption.
  - intros <-. eexists. split; [eassumption|split; reflexivity].
Qed.
Lemma run_dangling ops : forall s s' rs, dangling s -> forallb (fun o => no_hand_over (fst o)) ops = true -> hrun_a s ops = Ret (s', rs) -> dangling s'.
Proof.
  induction ops as [|[op ok] ops IH]; intros s s' rs Dg Nh H; cbn [hrun_a forallb fst] in *.
  - now injection H as <- <-.
  - apply andb_true_iff in Nh. destruct Nh as (Nh & Nr). destruct (hstep_a ok s op) as [s1 r] eqn:S.
    assert (match r with Crash _ => False | OutOfFuel => False | _ => '(sf, vs) <- hrun_a s1 ops ;; Ret (sf, r :: vs) = Ret (s', rs) end) as H' by (destruct r; try discriminate; exact H).
    destruct r as [v|e|c|]; try contradiction; destruct (hrun_a s1 ops) as [[sf vs]|?|?|] eqn:R; cbn [bind] in H'; try discriminate; injection H' as <- <-;
      (eapply IH; [|exact Nr|exact R]; eapply step_a_dangling; try eassumption; intros; discriminate).
Qed.

Lemma assign_fails s vs x y vx vy : invS s vs -> vs x = Some vx -> v_own vx = true -> vs y = Some vy -> x <> y ->
  exists s', hstep_a false s (HAssign x y) = (s', Throw OtherExn) /\ dangles s' x /\ (forall z, z <> x -> hs_objs s' z = hs_objs s z).
Proof.
  intros I Ex Ox Ey Nxy. destruct (inv_owned _ _ _ _ _ _ I Ex Ox) as (o & c & Eo & Om & Ol & D & P & _).
  pose proof (i_obj _ _ _ _ I y) as G. rewrite Ey in G. destruct (hs_objs s y) as [oy|] eqn:Eoy; [|contradiction].
  cbn [hstep_a]. rewrite (obj_of_some _ _ _ Eo), (obj_of_some _ _ _ Eoy). cbn [bind]. destruct (N.eqb_spec x y); [contradiction|].
  unfold free. rewrite P. eexists. split; [reflexivity|]. split.
  - eexists. unfold with_obj. cbn. rewrite put_same. split; [reflexivity|]. cbn. split; [exact D|]. split; [apply put_same|].
    destruct (N.lt_ge_cases (o_ptr o) (h_next (hs_heap s))) as [L|L]; [exact L|]. rewrite (i_next _ _ _ _ I _ L) in P. discriminate.
  - intros z Nz. unfold with_obj. cbn. now apply put_other.
Qed.
Lemma assign_lost ops vs rs x y vx vy rest s rs' : vrun_a v_init ops = Some (vs, rs) -> vs x = Some vx -> v_own vx = true -> vs y = Some vy -> x <> y ->
  forallb (fun o => no_hand_over (fst o)) rest = true -> hrun_a hs_init (ops ++ (HAssign x y, false) :: rest) = Ret (s, rs') -> exists z, hs_objs s z <> None.
Proof.
  intros H Ex Ox Ey Nxy Nh R. destruct (run_a_sim ops hs_init v_init vs rs inv_init H) as (s0 & E0 & I).
  rewrite hrun_a_app, E0 in R. cbn [hrun_a] in R. destruct (assign_fails s0 vs x y vx vy I Ex Ox Ey Nxy) as (s1 & S1 & Dg & _). rewrite S1 in R.
  destruct (hrun_a s1 rest) as [[sf l]|?|?|] eqn:Rr; cbn [bind] in R; try discriminate. injection R as <- <-.
  destruct (run_dangling rest s1 sf l) as (z & o & Eo & _); [exists x; exact Dg|exact Nh|exact Rr|]. exists z. congruence.
Qed.
(** the operations that delete the array or read from it *)
Lemma assign_then ops vs rs x y vx vy op ok : vrun_a v_init ops = Some (vs, rs) -> vs x = Some vx -> v_own vx = true -> vs y = Some vy -> x <> y ->
  match op with HDestroy z | HGet z | HTake z [] => z = x | HAssign z z' => z = x /\ z' = y | HCopy z' z => z = x /\ vs z' = None /\ ok = true | _ => False end ->
  hrun_a hs_init (ops ++ [(HAssign x y, false); (op, ok)]) = Crash Undefined.
Proof.
  intros H Ex Ox Ey Nxy Op. destruct (run_a_sim ops hs_init v_init vs rs inv_init H) as (s0 & E0 & I).
  rewrite hrun_a_app, E0. cbn [hrun_a]. destruct (assign_fails s0 vs x y vx vy I Ex Ox Ey Nxy) as (s1 & S1 & (o & Eo & D & M & L) & Ot). rewrite S1.
  assert (exists oy, hs_objs s1 y = Some oy) as (oy & Eoy).
  { rewrite Ot by congruence. pose proof (i_obj _ _ _ _ I y) as G. rewrite Ey in G. destruct (hs_objs s0 y); [eauto|contradiction]. }
  assert (forall n, load (o_ptr o) 0 n (hs_heap s1) = Crash Undefined) as Ld by (intros n; unfold load; now rewrite M).
  assert (snd (hstep_a ok s1 op) = Crash Undefined) as C.
  { destruct op; try contradiction.
    - destruct Op as (-> & V & ->). cbn [hstep_a hstep]. rewrite unused_none, (obj_of_some _ _ _ Eo).
      + cbn [bind]. rewrite Ld. reflexivity.
      + rewrite Ot by congruence. now apply (inv_none _ _ _ _ _ I).
    - destruct Op as (-> & ->). destruct ok; cbn [hstep_a hstep]; rewrite (obj_of_some _ _ _ Eo), (obj_of_some _ _ _ Eoy); cbn [bind];
        (destruct (N.eqb_spec x y); [contradiction|]); rewrite (free_none _ _ M); reflexivity.
    - subst x0. destruct ok; cbn [hstep_a hstep or_else]; rewrite (obj_of_some _ _ _ Eo); cbn [bind]; rewrite D, (free_none _ _ M); reflexivity.
    - destruct l; [|contradiction]. subst x0. destruct ok; cbn [hstep_a hstep or_else]; rewrite (obj_of_some _ _ _ Eo); cbn [bind];
        (destruct (N.ltb_spec (o_max o) (lenN (@nil byte))) as [X|_]; [unfold lenN in X; cbn in X; destruct (o_max o); discriminate|]); unfold alloc_with; rewrite free_none; try reflexivity; cbn; now apply new_keeps.
    - subst x0. destruct ok; cbn [hstep_a hstep or_else]; rewrite (obj_of_some _ _ _ Eo); cbn [bind]; rewrite Ld; reflexivity. }
  destruct (hstep_a ok s1 op) as [s2 r]. cbn [snd] in C. now subst r.
Qed.
Lemma no_memory_ends ops vs rs op : vrun_a v_init ops = Some (vs, rs) ->
  match op with HWith x _ => vs x = None | HAddSize x _ => vs x <> None | _ => False end ->
  hrun_a hs_init (ops ++ [(op, false)]) = Crash Terminate.
Proof.
  intros H Op. destruct (run_a_sim ops hs_init v_init vs rs inv_init H) as (s0 & E0 & I). rewrite hrun_a_app, E0. cbn [hrun_a].
  destruct op; try contradiction; cbn [hstep_a].
  - rewrite (unused_none _ _ (inv_none _ _ _ _ _ I Op)). reflexivity.
  - pose proof (i_obj _ _ _ _ I x) as G. destruct (vs x); [|congruence]. destruct (hs_objs s0 x) as [o|] eqn:E; [|contradiction]. rewrite (obj_of_some _ _ _ E). reflexivity.
Qed.
