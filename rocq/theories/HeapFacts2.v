(** Lemmas for C103 and C104. *)
From Verif Require Import Base BaseFacts BytesModel BytesFacts HeapModel HeapModel2 HeapSpec HeapSpec2 HeapFacts.

(** ** what is given back *)
Lemma store_freed p off l h h' : store p off l h = Ret h' -> h_freed h' = h_freed h /\ h_next h' = h_next h /\ (forall q, q <> p -> h_mem h' q = h_mem h q).
Proof.
  unfold store. destruct (h_mem h p) as [c|]; [|discriminate]. destruct (_ <=? _); [|discriminate]. intros [= <-]. cbn.
  split; [reflexivity|]. split; [reflexivity|]. intros q Q. now apply put_other.
Qed.
Lemma free_freed p h h' : free p h = Ret h' -> exists c, h_mem h p = Some c /\ h_freed h' = c :: h_freed h.
Proof. unfold free. destruct (h_mem h p) as [c|]; [|discriminate]. intros [= <-]. exists c. auto. Qed.
Lemma construct_freed s x max l s' a : construct s x max l = Ret (s', a) -> h_freed (hs_heap s') = h_freed (hs_heap s).
Proof.
  unfold construct, alloc. destruct (store _ _ _ _) as [h| | |] eqn:E; try discriminate. intros [= <- <-]. cbn.
  apply store_freed in E. apply E.
Qed.
Lemma append_freed s x o l s' a : append s x o l = Ret (s', a) -> h_freed (hs_heap s') = h_freed (hs_heap s).
Proof. unfold append. destruct (store _ _ _ _) as [h| | |] eqn:E; try discriminate. intros [= <- <-]. cbn. apply store_freed in E. apply E. Qed.

Definition freed_of (s : hstate) (op : hop) : option N :=
  match op with
  | HTake x _ | HAddSize x _ => match hs_objs s x with Some o => Some (o_ptr o) | None => None end
  | HDestroy x => match hs_objs s x with Some o => if o_dealloc o then Some (o_ptr o) else None | None => None end
  | HAssign x y => if x =? y then None else match hs_objs s x with Some o => Some (o_ptr o) | None => None end
  | HConsume x y => match hs_objs s x with Some o => Some (o_ptr o) | None => None end
  | _ => None
  end.
Definition fresh_next (s : hstate) : Prop := forall p, h_next (hs_heap s) <= p -> h_mem (hs_heap s) p = None.
Ltac opn := repeat match goal with
  | H : bind ?m _ = Ret _ |- _ => let E := fresh "E" in destruct m eqn:E; cbn [bind] in H; try discriminate
  | H : (if ?b then _ else _) = Ret _ |- _ => let E := fresh "B" in destruct b eqn:E; try discriminate
  end.
Lemma step_freed s op s' a : fresh_next s -> hstep s op = Ret (s', a) ->
  (forall p, freed_of s op = Some p -> h_mem (hs_heap s) p <> None) ->
  match freed_of s op with
  | Some p => exists c, h_mem (hs_heap s) p = Some c /\ h_freed (hs_heap s') = c :: h_freed (hs_heap s)
  | None => h_freed (hs_heap s') = h_freed (hs_heap s)
  end.
Proof.
  intros Fr H Lv. destruct op; cbn [freed_of] in *; cbn [hstep] in H; opn; try (injection H as <- <-; reflexivity);
    try (eapply construct_freed; eassumption); try (eapply append_freed; eassumption);
    try (injection H as <- <-; cbn; match goal with E : store _ _ _ _ = Ret _ |- _ => apply store_freed in E; apply E end).
  - (* HAssign, not self *) unfold obj_of in E. destruct (hs_objs s x) as [o|]; [|discriminate]. injection E as ->.
    destruct (free_freed _ _ _ E1) as (c & M & F). exists c. split; [exact M|]. unfold alloc in H. opn. injection H as <- <-. cbn.
    match goal with E : store _ _ _ _ = Ret _ |- _ => apply store_freed in E; destruct E as (E & _) end. cbn in *. congruence.
  - (* HDestroy *) unfold obj_of in E. destruct (hs_objs s x) as [o|]; [|discriminate]. injection E as ->. rewrite B.
    destruct (free_freed _ _ _ E0) as (c & M & F). injection H as <- <-. exists c. auto.
  - unfold obj_of in E. destruct (hs_objs s x) as [o|]; [|discriminate]. injection E as ->. rewrite B. injection E0 as <-. injection H as <- <-. reflexivity.
  - (* HTake *) unfold obj_of in E. destruct (hs_objs s x) as [o|]; [|discriminate]. injection E as ->. unfold alloc_with in H. opn. injection H as <- <-. cbn.
    destruct (free_freed _ _ _ E) as (c & M & F). cbn in M, F. exists c. split; [|exact F].
    rewrite put_other in M; [exact M|]. intros Q. apply (Lv _ eq_refl). apply Fr. lia.
  - (* HConsume *) unfold obj_of in E. destruct (hs_objs s x) as [o|]; [|discriminate]. injection E as ->. injection H as <- <-.
    destruct (free_freed _ _ _ E1) as (c & M & F). exists c. auto.
  - (* HAddSize *) unfold obj_of in E. destruct (hs_objs s x) as [o|]; [|discriminate]. injection E as ->. unfold alloc in H. opn. injection H as <- <-. cbn.
    destruct (free_freed _ _ _ E1) as (c & M & F). destruct (store_freed _ _ _ _ _ E0) as (A & _ & C). cbn in A, C. exists c.
    assert (o_ptr a0 <> h_next (hs_heap s)) as Q by (intros Q; apply (Lv _ eq_refl); apply Fr; lia).
    rewrite C, put_other in M by exact Q. split; [exact M|]. cbn. rewrite F, A. reflexivity.
  - (* HRead *) destruct a1 as [s1 r1]. injection H as <- <-. eapply append_freed; eassumption.
Qed.

Lemma step_left s vs op vs' a s' : invS s vs -> vstep vs op = Some (Ret (vs', a)) -> hstep s op = Ret (s', a) ->
  match gives_up vs op with
  | Some v => exists c, h_freed (hs_heap s') = c :: h_freed (hs_heap s) /\ left_over c v
  | None => h_freed (hs_heap s') = h_freed (hs_heap s)
  end.
Proof.
  intros I V H.
  assert (fresh_next s) as Fr by (intros p; apply (i_next _ _ _ _ I)).
  assert (forall x v, vs x = Some v -> v_own v = true -> exists o c, hs_objs s x = Some o /\ o_dealloc o = true /\ h_mem (hs_heap s) (o_ptr o) = Some c /\ left_over c v) as Ow.
  { intros x v E O. destruct (inv_owned _ _ _ _ _ _ I E O) as (o & c & Eo & Om & Ol & D & P & R & T & _). exists o, c.
    unfold left_over. rewrite <- Ol. auto 6. }
  assert (match gives_up vs op with Some v => exists o c, freed_of s op = Some (o_ptr o) /\ h_mem (hs_heap s) (o_ptr o) = Some c /\ left_over c v | None => freed_of s op = None end) as G.
  { unfold vstep in V. destruct (args_small op); [|discriminate]. cbn [negb] in V. unfold gives_up, freed_of.
    destruct op; try reflexivity; try discriminate.
    - destruct (x =? y); [reflexivity|]. apply owned_inv in V. destruct V as (v & E & O & _). rewrite E, O. destruct (Ow _ _ E O) as (o & c & -> & _ & M & L). eauto.
    - destruct (vs x) as [v|] eqn:E; [|discriminate]. destruct (v_own v) eqn:O.
      + destruct (Ow _ _ E O) as (o & c & -> & -> & M & L). eauto.
      + pose proof (i_obj _ _ _ _ I x) as G. rewrite E in G. destruct (hs_objs s x) as [o|]; [|reflexivity]. destruct G as ((_ & _ & G) & _). rewrite O in G. now rewrite G.
    - apply owned_inv in V. destruct V as (v & E & O & _). rewrite E, O. destruct (Ow _ _ E O) as (o & c & -> & _ & M & L). eauto.
    - apply owned_inv in V. destruct V as (v & E & O & V). apply owned_inv in V. destruct V as (vy & Ey & Oy & V). destruct (x =? y); [discriminate|].
      rewrite E, O. destruct (Ow _ _ E O) as (o & c & -> & _ & M & L). eauto.
    - apply owned_inv in V. destruct V as (v & E & O & _). rewrite E, O. destruct (Ow _ _ E O) as (o & c & -> & _ & M & L). eauto. }
  pose proof (step_freed s op s' a Fr H) as F. destruct (gives_up vs op) as [v|].
  - destruct G as (o & c & G & M & L). rewrite G in F. destruct F as (c' & M' & F); [intros p [= <-]; congruence|]. exists c'. split; [exact F|]. congruence.
  - rewrite G in F. apply F. discriminate.
Qed.
Lemma run_left ops : forall s vs vs' rs l, invS s vs -> vrun vs ops = Some (vs', rs) -> Forall2 left_over (h_freed (hs_heap s)) l ->
  exists s', hrun s ops = Ret (s', rs) /\ invS s' vs' /\ Forall2 left_over (h_freed (hs_heap s')) (given_up vs ops l).
Proof.
  induction ops as [|op ops IH]; intros s vs vs' rs l I H F.
  - injection H as <- <-. exists s. auto.
  - cbn [vrun given_up] in *. destruct (vstep vs op) as [r|] eqn:St; [|discriminate]. pose proof (step_sim _ _ _ _ I St) as Sm. unfold simulates in Sm.
    destruct r as [[vs1 a]|e| |]; try discriminate.
    + destruct Sm as (s1 & E & J). destruct (vrun vs1 ops) as [[vf q]|] eqn:R; [|discriminate]. injection H as <- <-.
      pose proof (step_left _ _ _ _ _ _ I St E) as Lf.
      destruct (IH s1 vs1 vf q (match gives_up vs op with Some v => v :: l | None => l end) J R) as (s' & E' & J' & F').
      { destruct (gives_up vs op); [destruct Lf as (c & -> & L); now constructor|now rewrite Lf]. }
      exists s'. split; [cbn [hrun]; now rewrite E, E'|]. auto.
    + destruct (vrun vs ops) as [[vf q]|] eqn:R; [|discriminate]. injection H as <- <-.
      destruct (IH _ _ _ _ _ I R F) as (s' & E' & J'). exists s'. split; [cbn [hrun]; now rewrite Sm, E'|]. auto.
Qed.
Lemma heap_left ops vs rs : vrun v_init ops = Some (vs, rs) ->
  exists s, hrun hs_init ops = Ret (s, rs) /\ Forall2 left_over (h_freed (hs_heap s)) (given_up v_init ops []).
Proof. intros H. destruct (run_left ops hs_init v_init vs rs [] inv_init H (Forall2_nil _)) as (s & E & _ & F). eauto. Qed.

Lemma hrun_app ops : forall s ops2, hrun s (ops ++ ops2) = match hrun s ops with Ret (s', l) => match hrun s' ops2 with Ret (s2, l2) => Ret (s2, l ++ l2) | Throw e => Throw e | Crash c => Crash c | OutOfFuel => OutOfFuel end | Throw e => Throw e | Crash c => Crash c | OutOfFuel => OutOfFuel end.
Proof.
  induction ops as [|op ops IH]; intros s ops2; cbn [app hrun].
  - destruct (hrun s ops2) as [[? ?]|?|?|]; reflexivity.
  - destruct (hstep s op) as [[s1 v]|e|c|]; try reflexivity; rewrite IH; destruct (hrun _ ops) as [[s2 l]|?|?|]; cbn [bind]; try reflexivity;
      destruct (hrun s2 ops2) as [[? ?]|?|?|]; reflexivity.
Qed.
(** a shorter content leaves the end of the old one *)
Lemma heap_tail ops vs rs x v l : vrun v_init ops = Some (vs, rs) -> vs x = Some v -> v_own v = true -> lenN l <= getLen (v_val v) ->
  exists s c r, hrun hs_init (ops ++ [HSet x l; HDestroy x]) = Ret (s, rs ++ [Ret HVoid; Ret HVoid]) /\ h_freed (hs_heap s) = c :: r /\
    takeN (getLen (v_val v)) c = map Some (l ++ dropN (lenN l) (bdata (v_val v))).
Proof.
  intros H E O Le. destruct (run_sim ops hs_init v_init vs rs inv_init H) as (s & R & I).
  destruct (inv_owned _ _ _ _ _ _ I E O) as (o & c & Eo & Om & Ol & D & P & Rm & T & S1 & S2 & S3 & S4). rewrite hrun_app, R. cbn [hrun hstep].
  rewrite (obj_of_some _ _ _ Eo). cbn [bind]. replace (o_max o <? lenN l) with false by (symmetry; apply N.ltb_ge; lia).
  unfold store. rewrite P, lenN_map_some. replace (0 + lenN l <=? lenN c) with true by (symmetry; apply N.leb_le; lia). cbn [bind].
  unfold obj_of, with_obj. cbn [hs_objs]. rewrite put_same. cbn [bind o_dealloc o_ptr hs_heap]. rewrite D. unfold free. cbn [h_mem]. rewrite put_same. cbn [bind h_freed].
  eexists _, _, _. split; [reflexivity|]. split; [reflexivity|]. rewrite takeN_0. cbn [app]. rewrite N.add_0_l.
  assert (c = map Some (bdata (v_val v)) ++ dropN (o_len o) c) as Ec by (rewrite <- T; symmetry; apply takeN_dropN).
  rewrite Ec at 1. unfold getLen in *. rewrite dropN_app_le by (rewrite lenN_map_some; lia). rewrite app_assoc, dropN_map, <- map_app.
  replace (lenN (bdata (v_val v))) with (lenN (map (@Some byte) (l ++ dropN (lenN l) (bdata (v_val v))))) at 1 by (rewrite lenN_map_some, lenN_app, lenN_dropN; lia).
  rewrite takeN_app_exact. reflexivity.
Qed.
