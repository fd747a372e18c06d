(** Lemmas for C120. *)
From Verif Require Import Base BaseFacts BytesModel BytesSpec MiscModel CipherModel CipherSpec PwModel PwSpec ChModel ChSpec HeaderModel HeaderSpec FileModel ApiModel ApiSpec
  ApiFacts5 ApiFacts7 RefSpec RefSpec2 RefFacts2 RefFacts4 CodeFacts.

Lemma wrap t e : t < 2 ^ 64 -> e < 2 ^ 64 -> (t + 2 ^ 64 - e) mod 2 ^ 64 = if e <=? t then t - e else t + 2 ^ 64 - e.
Proof.
  intros Lt Le. change (2 ^ 64) with 18446744073709551616 in *. destruct (N.leb_spec e t) as [X|X].
  - replace (t + 18446744073709551616 - e) with (t - e + 1 * 18446744073709551616) by lia. rewrite N.mod_add by discriminate. apply N.mod_small. lia.
  - apply N.mod_small. lia.
Qed.
Lemma not_reached_more clk t t' n : t <= t' -> t <> 0 -> ~ reached clk t n -> ~ reached clk t' n.
Proof. intros L Z A (_ & k & B & C). apply A. split; [exact Z|]. exists k. split; [exact B|lia]. Qed.
Lemma not_reached_none clk n : ~ reached clk 0 n.
Proof. intros (X & _). apply X. reflexivity. Qed.
Lemma create_more w t t' a b : t <> 0 -> t <= t' \/ t' = 0 -> create_in_time w t a b -> create_in_time w t' a b.
Proof.
  intros Z [L| ->] (A & B & C).
  - split; [exact (not_reached_more _ _ _ _ L Z A)|]. specialize (B Z). split; [intros _; lia|]. apply (not_reached_more _ (t - w_elapsed w)); [lia|lia|exact C].
  - split; [apply not_reached_none|]. split; [intros X; contradiction|]. change (0 - w_elapsed w) with 0. apply not_reached_none.
Qed.
Lemma verify_more w t t' a b : w_elapsed w < 2 ^ 64 -> t' < 2 ^ 64 -> t <> 0 -> t <= t' -> ~ (t < w_elapsed w <= t') ->
  verify_in_time w t a b -> verify_in_time w t' a b.
Proof.
  intros Le Lt Z L G (A & B & C). specialize (B Z). split; [exact (not_reached_more _ _ _ _ L Z A)|]. split; [intros _; lia|].
  rewrite wrap in C |- * by lia. destruct (N.leb_spec (w_elapsed w) t), (N.leb_spec (w_elapsed w) t'); try lia;
    (eapply not_reached_more; [| |exact C]; lia).
Qed.
Lemma verify_none w t a b : w_elapsed w < 2 ^ 64 -> t < 2 ^ 64 -> (forall k, w_clk2 w k + w_elapsed w < 2 ^ 64) ->
  verify_in_time w 0 a b.
Proof.
  intros Le Lt K. split; [apply not_reached_none|]. split; [intros X; contradiction|]. rewrite wrap by (reflexivity || exact Le).
  destruct (N.leb_spec (w_elapsed w) 0) as [X|X]; [change (0 - w_elapsed w) with 0; apply not_reached_none|]. intros (_ & k & _ & B). specialize (K k). lia.
Qed.
Lemma verify_gap w t t' a b : w_elapsed w < 2 ^ 64 -> t' < 2 ^ 64 -> t <> 0 -> t < w_elapsed w -> w_elapsed w <= t' -> verify_in_time w t a b ->
  (verify_in_time w t' a b <-> w_elapsed w <> t' /\ forall k, N.of_nat k < readings_bytes b -> w_clk2 w k < t' - w_elapsed w).
Proof.
  intros Le Lt Z L1 L2 (A & B & C). unfold verify_in_time. rewrite (wrap t') by assumption. destruct (N.leb_spec (w_elapsed w) t') as [_|]; [|lia]. split.
  - intros (_ & D & E). split; [apply D; lia|]. intros k Hk. destruct (N.lt_ge_cases (w_clk2 w k) (t' - w_elapsed w)) as [|X]; [assumption|]. exfalso. apply E.
    assert (w_elapsed w <> t') by (apply D; lia). split; [lia|]. exists k. auto.
  - intros [D E]. split; [apply (not_reached_more _ t); [lia|exact Z|exact A]|]. split; [intros _; exact D|]. intros (_ & k & Hk & X). specialize (E k Hk). lia.
Qed.

Lemma seen_same y y' x : seen y = Some x -> seen y' = Some x -> (x = Ok \/ exists e, x = Err e) -> y = y'.
Proof.
  intros A B [ -> |[e ->]].
  - assert (forall z, seen z = Some Ok -> z = ROk) as Q.
    { intros z. destruct z as [| | | |[[m|] [d|]]| |st e]; cbn; try discriminate; [reflexivity|destruct st, e; discriminate]. }
    rewrite (Q _ A), (Q _ B). reflexivity.
  - assert (forall z, seen z = Some (Err e) -> exists st, z = RErr st e) as Q.
    { intros z. destruct z as [| | | |[[m|] [d|]]| |st e']; cbn; try discriminate. intros X. exists st. destruct st, e'; congruence. }
    destruct (Q _ A) as [st ->]. destruct (Q _ B) as [st' ->]. apply seen_err in A as [_ ->]. apply seen_err in B as [_ ->]. reflexivity.
Qed.

Section Limits.
  Variable H : hashes.
  Hypothesis HH : hashes_ok H.
  Variable bd : build.
  (** two calls that the machine answers alike *)
  Lemma alike mode tr a w f o o' a1 y : history bd H mode tr a -> world_ok bd H w -> fs_ok f -> op_ok o -> op_ok o' ->
    (forall s, rounds s o = 0%nat /\ rounds s o' = 0%nat) ->
    (forall s, match snd (act w s f o) with Done _ x => (x = Ok \/ exists e, x = Err e) /\ (x <> Err ERR_TIMEOUT -> act w s f o' = act w s f o) | _ => True end) ->
    (forall x, fst (step w x f o') = f) ->
    step w a f o = (f, Ret (a1, y)) -> y <> RErr TIMEOUT ERR_TIMEOUT -> exists a2, step w a f o' = (f, Ret (a2, y)) /\ a_state a2 = a_state a1.
  Proof using HH.
    intros Hh W Hf Ho Ho' Hr Ha Hs E Ny. destruct (sim_history H HH bd _ _ _ Hh) as (s & _ & R & _). specialize (Hr s). destruct Hr as [Hr Hr']. specialize (Ha s).
    pose proof (sim_step H HH bd w s f o a R W Hf Ho) as X. pose proof (sim_step H HH bd w s f o' a R W Hf Ho') as X'. rewrite E in X.
    destruct X as [[X _]|X]; [discriminate|]. destruct X' as [[_ X']|X']; [rewrite Hr' in X'; lia|].
    unfold agrees in X, X'. specialize (Hs a). destruct (act w s f o) as [g [s' x|c|]] eqn:Ea; try contradiction. cbn [snd] in Ha. destruct Ha as [Hx Ha]. destruct X as (X1 & X2 & X3).
    assert (x <> Err ERR_TIMEOUT) as Nx.
    { intros ->. apply Ny. destruct y as [| | | |[[m|] [d|]]| |st e]; cbn in X2; try discriminate. destruct st, e; try discriminate. reflexivity. }
    rewrite (Ha Nx) in X'. destruct (step w a f o') as [f' [[a2 y']| | |]]; try contradiction. cbn [fst] in Hs. subst f'. destruct X' as (Y1 & Y2 & Y3). exists a2.
    rewrite (seen_same _ _ _ Y2 X2 Hx). split; [reflexivity|]. rewrite (rel_state H _ _ X3), (rel_state H _ _ Y3). reflexivity.
  Qed.
  Lemma create_longer mode tr a w f pw ds t t' a1 y : history bd H mode tr a -> world_ok bd H w -> fs_ok f -> settings_made ds -> t < 2 ^ 64 -> t' < 2 ^ 64 ->
    t <> 0 -> t <= t' \/ t' = 0 -> step w a f (OHeader pw ds t) = (f, Ret (a1, y)) -> y <> RErr TIMEOUT ERR_TIMEOUT ->
    exists a2, step w a f (OHeader pw ds t') = (f, Ret (a2, y)) /\ a_state a2 = a_state a1.
  Proof using HH.
    intros Hh W Hf Sm Lt Lt' Z L. apply (alike mode tr a w f (OHeader pw ds t) (OHeader pw ds t') a1 y Hh W Hf (conj Sm Lt) (conj Sm Lt')).
    - intros s. destruct s; split; reflexivity.
    - intros s. assert (match new_header w ds pw t with Rejects ERR_TIMEOUT => True | v => new_header w ds pw t' = v end) as Q.
      { unfold new_header. destruct (create_timely w t _ _) eqn:T; cbn [negb]; [|exact I]. apply create_timely_iff in T. apply (create_more w t t' _ _ Z L) in T.
        apply create_timely_iff in T. rewrite T. cbn [negb]. destruct (_ && _); reflexivity. }
      cbn [act]. destruct (negb (all_set ds)); [cbn; split; [right; eexists; reflexivity|reflexivity]|].
      destruct s; try (cbn; split; [right; eexists; reflexivity|reflexivity]);
        (destruct (new_header w ds pw t) as [h'|e|c]; cbn [settle snd]; [rewrite Q; split; [left; reflexivity|reflexivity]| |exact I];
         split; [right; eexists; reflexivity|]; intros Ne; destruct e; try (rewrite Q; reflexivity); contradiction).
    - intros x. cbn [step]. destruct (negb _); [reflexivity|]. destruct (a_state x); reflexivity.
  Qed.
  Lemma verify_longer mode tr a w f pw t t' a1 y : history bd H mode tr a -> world_ok bd H w -> fs_ok f -> t < 2 ^ 64 -> t' < 2 ^ 64 ->
    t <> 0 -> t <= t' -> ~ (t < w_elapsed w <= t') -> step w a f (OVerify pw t) = (f, Ret (a1, y)) -> y <> RErr TIMEOUT ERR_TIMEOUT ->
    exists a2, step w a f (OVerify pw t') = (f, Ret (a2, y)) /\ a_state a2 = a_state a1.
  Proof using HH.
    intros Hh W Hf Lt Lt' Z L G. apply (alike mode tr a w f (OVerify pw t) (OVerify pw t') a1 y Hh W Hf Lt Lt').
    - intros s. destruct s; split; reflexivity.
    - destruct W as (_ & _ & _ & We). intros s. cbn [act]. destruct s; try (cbn; split; [right; eexists; reflexivity|reflexivity]).
      destruct (verify_timely w t _ _) eqn:T; cbn [negb snd]; [|split; [right; eexists; reflexivity|intros X; contradiction X; reflexivity]].
      apply verify_timely_iff in T. apply (verify_more w t t' _ _ We Lt' Z L G) in T. apply verify_timely_iff in T. rewrite T. cbn [negb].
      destruct (unlocked _ _ _); cbn [snd]; (split; [eauto|reflexivity]).
    - intros x. cbn [step]. destruct (a_state x); reflexivity.
  Qed.
  Lemma verify_unlimited mode tr a w f pw t a1 y : history bd H mode tr a -> world_ok bd H w -> fs_ok f -> t < 2 ^ 64 ->
    (forall k, w_clk2 w k + w_elapsed w < 2 ^ 64) -> step w a f (OVerify pw t) = (f, Ret (a1, y)) -> y <> RErr TIMEOUT ERR_TIMEOUT ->
    exists a2, step w a f (OVerify pw 0) = (f, Ret (a2, y)) /\ a_state a2 = a_state a1.
  Proof using HH.
    intros Hh W Hf Lt K. apply (alike mode tr a w f (OVerify pw t) (OVerify pw 0) a1 y Hh W Hf Lt); [reflexivity| | |].
    - intros s. destruct s; split; reflexivity.
    - destruct W as (_ & _ & _ & We). intros s. cbn [act]. destruct s; try (cbn; split; [right; eexists; reflexivity|reflexivity]).
      destruct (verify_timely w t _ _) eqn:T; cbn [negb snd]; [|split; [right; eexists; reflexivity|intros X; contradiction X; reflexivity]].
      pose proof (verify_none w t (iterations (h_ch1 h)) (iterations (h_ch2 h)) We Lt K) as T'. apply verify_timely_iff in T'. rewrite T'. cbn [negb].
      destruct (unlocked _ _ _); cbn [snd]; (split; [eauto|reflexivity]).
    - intros x. cbn [step]. destruct (a_state x); reflexivity.
  Qed.
  Lemma verify_in_gap mode tr a w f p c hsz l1 l2 h rest pw t t' a1 y : history bd H mode tr a -> world_ok bd H w -> fs_ok f -> t < 2 ^ 64 -> t' < 2 ^ 64 ->
    a_state a = FILE_SELECTED -> selected tr = Some (p, c) -> written_as c hsz l1 l2 h rest ->
    t <> 0 -> t < w_elapsed w -> w_elapsed w <= t' -> step w a f (OVerify pw t) = (f, Ret (a1, y)) -> y <> RErr TIMEOUT ERR_TIMEOUT ->
    (step w a f (OVerify pw t') = (f, Ret (a, RErr TIMEOUT ERR_TIMEOUT)) <->
     w_elapsed w = t' \/ exists k, N.of_nat k < readings_bytes (iterations (h_ch2 h)) /\ t' - w_elapsed w <= w_clk2 w k).
  Proof using HH.
    intros Hh W Hf Lt Lt' Es Q Wr Z L1 L2 E Ny. pose proof W as (_ & _ & _ & We).
    destruct (verify_outcome H HH bd mode tr a w f p c hsz l1 l2 h rest pw t Hh W Lt Es Q Wr) as [A B].
    destruct (verify_outcome H HH bd mode tr a w f p c hsz l1 l2 h rest pw t' Hh W Lt' Es Q Wr) as [A' B'].
    assert (verify_in_time w t (iterations (h_ch1 h)) (iterations (h_ch2 h))) as T.
    { destruct (verify_timely w t (iterations (h_ch1 h)) (iterations (h_ch2 h))) eqn:T; [apply verify_timely_iff, T|]. exfalso. apply Ny.
      assert (~ verify_in_time w t (iterations (h_ch1 h)) (iterations (h_ch2 h))) as T' by (rewrite <- verify_timely_iff; congruence). rewrite (B T') in E. congruence. }
    pose proof (verify_gap w t t' _ _ We Lt' Z L1 L2 T) as G. split.
    - intros X. destruct (N.eq_dec (w_elapsed w) t') as [|Ne]; [left; assumption|right].
      destruct (hits (w_clk2 w) (t' - w_elapsed w) (readings_bytes (iterations (h_ch2 h)))) eqn:Hi; [apply hits_reached in Hi as (_ & Hi); exact Hi|]. exfalso.
      apply hits_not in Hi. assert (verify_in_time w t' (iterations (h_ch1 h)) (iterations (h_ch2 h))) as T'.
      { apply G. split; [exact Ne|]. intros k Hk. destruct (N.lt_ge_cases (w_clk2 w k) (t' - w_elapsed w)) as [|Y]; [assumption|]. exfalso. apply Hi. split; [lia|]. exists k. auto. }
      destruct (A' T') as [C D]. destruct (unlocked H h pw) eqn:U.
      + apply unlocked_iff in U. destruct (C U) as (a' & _ & _ & X'). congruence.
      + assert (~ opens H h pw) as U' by (rewrite <- unlocked_iff; congruence). rewrite (D U') in X. discriminate.
    - intros X. apply B'. intros T'. apply G in T' as [T1 T2]. destruct X as [X|(k & Hk & X)]; [contradiction|]. specialize (T2 k Hk). lia.
  Qed.
End Limits.
