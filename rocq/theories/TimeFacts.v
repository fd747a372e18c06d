(** Facts about the rest of _createDataHeaderTime. *)
From Coq Require Import Strings.Byte Lia.
From Verif Require Import Base BaseFacts BytesModel BytesFacts MiscModel MiscFacts CipherModel CipherFacts CipherSpec2 PwModel PwSpec PwFacts ChModel ChSpec ChFacts ChFacts2
  HeaderModel HeaderSpec HeaderFacts HeaderFacts2 HeaderFacts3 HeaderFacts4 HeaderFacts5 HeaderFacts8 HeaderFacts9 FileModel ApiModel ApiSpec ApiFacts2 TimeModel TimeSpec.

Lemma generated_made m rnd : 1 <= m <= 5 -> (forall k, lenN (rnd k) = k) -> exists d, cd_generate rnd (newChd m) = Ret d /\ made Release d /\
  cd_mode d = m /\ cd_complete d = true.
Proof.
  intros Hm R. destruct (generate_fresh m rnd Hm R) as (d & E & C & _). exists d. split; [exact E|].
  assert (mode_size m = random_len m) as Hms by (pattern m; apply modes5; [exact Hm|..]; reflexivity).
  set (r := rnd (random_len m) ++ repeat x00 255).
  assert (cdop_ok (Generate r)) as Ho by (cbn; unfold r; rewrite lenN_app, lenN_repeat; lia).
  assert (cd_run Release (newChd m) [Generate r] = d) as ER.
  { cbn [cd_run cd_step]. rewrite (gen_ext m _ rnd Hm), E; [reflexivity|]. unfold r.
    rewrite takeN_app_le by (rewrite R; lia). apply takeN_all. rewrite R. lia. }
  assert (made Release d) as M by (exists m, [Generate r]; split; [exact Hm|]; split; [constructor; [exact Ho|constructor]|congruence]).
  split; [exact M|]. split; [|exact C].
  pose proof (cd_step_refines Release m [] (newChd m) (Generate r) Hm (rep_new m Hm) Ho) as Hs.
  cbn [cd_run cd_step] in ER, Hs. destruct (spec_cd m [] (Generate r)) as [l|].
  - destruct Hs as (d2 & E2 & Hr). rewrite E2 in ER. subst d2. exact (rep_mode _ _ _ Hr).
  - cbn in Hs. destruct (cd_generate (fun n => takeN n r) (newChd m)) as [d'| | |]; try discriminate; subst; reflexivity.
Qed.
Lemma timed_chain m t rnd : 1 <= m <= 5 -> 1 <= t <= 86400000 -> (forall k, lenN (rnd k) = k) ->
  exists d c, cd_generate rnd (newChd m) = Ret d /\ newChainHashTimed m t (Some d) = Ret c /\ ct_assign ct_default c = Ret c /\
    tbuilt Release c /\ ct_val c = true /\ ct_time c = Some t /\ ct_dataLen c = Ret (cd_len d).
Proof.
  intros Hm Ht R. destruct (generated_made m rnd Hm R) as (d & E & M & Md & C).
  set (c := mkCHT (Some m) (Some d) (Some t) true). exists d, c.
  assert (ct_check (Some m) (Some d) (Some t) = Ret true) as K.
  { unfold ct_check, cd_completedFormat, MAX_RUNTIME. rewrite Md, C.
    destruct (N.ltb_spec 0 t); [|lia]. destruct (N.leb_spec t 86400000); [|lia]. cbn [andb negb].
    rewrite (proj2 (format_eqb_spec m m Hm Hm) eq_refl). cbn [andb negb].
    assert ((255 <? cd_len d) = false) as ->; [|reflexivity].
    unfold cd_len, w8. pose proof (N.mod_upper_bound (getLen (cd_block d)) 256). lia. }
  assert (newChainHashTimed m t (Some d) = Ret c) as EN.
  { unfold newChainHashTimed. rewrite (proj2 (ch_mode_valid_spec m) Hm). unfold ct_revalidate. cbn [ct_mode ct_data ct_time]. rewrite K. reflexivity. }
  split; [exact E|]. split; [exact EN|]. split.
  { unfold ct_assign, c. cbn [ct_getMode ct_getTime ct_val ct_mode ct_time bind]. rewrite (proj2 (ch_mode_valid_spec m) Hm).
    cbn [bind ct_mode ct_data ct_val]. unfold ct_revalidate. cbn [ct_mode ct_data ct_time]. rewrite K. reflexivity. }
  split. { apply (tbuilt_ctor Release m t (Some d) c); [intros x [= <-]; exact M|exact EN]. }
  repeat split.
Qed.
Lemma time_settings_range ds : time_settings_made ds -> settings_complete ds -> exists hm m1 m2 t1 t2,
  s_fmode ds = Some 1 /\ s_hmode ds = Some hm /\ s_ch1 ds = Some m1 /\ s_ch2 ds = Some m2 /\ s_n1 ds = Some t1 /\ s_n2 ds = Some t2 /\
  1 <= hm <= 3 /\ 1 <= m1 <= 5 /\ 1 <= m2 <= 5 /\ 1 <= t1 <= 86400000 /\ 1 <= t2 <= 86400000.
Proof.
  intros (ops & E) (C0 & C1 & C2 & C3 & C4 & C5).
  assert (forall i v, nth_error (slots ds) i = Some (Some v) -> exists o, slot_of o = i /\ value_of o = v /\ in_range 86400000 o) as K.
  { intros i v X. rewrite E in X. apply slots_run in X. destruct X as (a & o & b & _ & A & B & D & _). exists o. auto. }
  destruct (s_fmode ds) as [fm|] eqn:F; [|congruence]. destruct (s_hmode ds) as [hm|] eqn:Fh; [|congruence].
  destruct (s_ch1 ds) as [m1|] eqn:F1; [|congruence]. destruct (s_ch2 ds) as [m2|] eqn:F2; [|congruence].
  destruct (s_n1 ds) as [n1|] eqn:F3; [|congruence]. destruct (s_n2 ds) as [n2|] eqn:F4; [|congruence].
  assert (slots ds = [Some fm; Some hm; Some m1; Some m2; Some n1; Some n2]) as SL by (unfold slots; congruence). rewrite SL in K.
  destruct (K 0%nat fm eq_refl) as (o0 & A0 & B0 & D0). destruct (K 1%nat hm eq_refl) as (o1 & A1 & B1 & D1).
  destruct (K 2%nat m1 eq_refl) as (o2 & A2 & B2 & D2). destruct (K 3%nat m2 eq_refl) as (o3 & A3 & B3 & D3).
  destruct (K 4%nat n1 eq_refl) as (o4 & A4 & B4 & D4). destruct (K 5%nat n2 eq_refl) as (o5 & A5 & B5 & D5).
  destruct o0; try discriminate. destruct o1; try discriminate. destruct o2; try discriminate. destruct o3; try discriminate. destruct o4; try discriminate. destruct o5; try discriminate.
  cbn in *. subst. exists hm, m1, m2, n1, n2. repeat split; try lia; reflexivity.
Qed.

Section Rest.
  Variables (w : world) (clks1 clks2 : nat -> nat -> N) (fuel : nat).
  Lemma rest_no_header mode pw ds x : headerTimeRest w clks1 clks2 fuel mode pw ds <> dret x.
  Proof using.
    unfold headerTimeRest, dret, lift, dbind. destruct (set_get (s_fmode ds)) as [fm| | |]; cbn; try discriminate.
    destruct (negb (fm =? mode)); cbn; [discriminate|].
    destruct (try_ (any_std ERR) (newChainsTimed w ds)) as [[e|[c1 c2]]| | |]; cbn; try discriminate.
    destruct (p_setFileDataMode _ _) as [p| | |]; cbn; try discriminate.
    destruct (set_get (s_hmode ds)) as [hm| | |]; cbn; try discriminate.
    destruct (p_setHashMode hm p) as [p'| | |]; cbn; try discriminate.
    destruct (getHash (w_hashes w) hm) as [h| | |]; cbn; try discriminate.
    pose proof (proj1 (timed_never_returns h clks1 fuel c1) pw) as NR.
    destruct (performTimed_s h clks1 fuel c1 pw); cbn in *; discriminate.
  Qed.
  Lemma dbind_ext {A B} (m : dres A) (f g : A -> dres B) : (forall a, m = Ret (inr a) -> f a = g a) -> dbind m f = dbind m g.
  Proof using. intros E. destruct m as [[e|a]| | |]; try reflexivity. exact (E a eq_refl). Qed.
  Lemma rest_second mode pw ds clks3 : headerTimeRest w clks1 clks2 fuel mode pw ds = headerTimeRest w clks1 clks3 fuel mode pw ds.
  Proof using.
    unfold headerTimeRest. refine (f_equal (@noexcept _) _). apply dbind_ext. intros fm _. destruct (negb (fm =? mode)); [reflexivity|].
    apply dbind_ext. intros [c1 c2] _. apply dbind_ext. intros p _. apply dbind_ext. intros hm _. apply dbind_ext. intros p' _.
    apply dbind_ext. intros h _. apply dbind_ext. intros [x1 k] E. exfalso.
    pose proof (proj1 (timed_never_returns h clks1 fuel c1) pw) as NR. unfold lift in E.
    destruct (performTimed_s h clks1 fuel c1 pw); [discriminate NR|discriminate E ..].
  Qed.
  Lemma rest_mode mode pw ds : time_settings_made ds -> settings_complete ds -> mode <> 1 ->
    headerTimeRest w clks1 clks2 fuel mode pw ds = dfail ERR_FILEMODE_INVALID.
  Proof using.
    intros M C Hn. destruct (time_settings_range ds M C) as (hm & m1 & m2 & t1 & t2 & F0 & _). unfold headerTimeRest. rewrite F0. cbn.
    destruct mode as [|[q|q|]]; try reflexivity; congruence.
  Qed.
  Hypothesis HH : hashes_ok (w_hashes w).
  Hypothesis R : forall i k, lenN (w_rnd w i k) = k.
  Lemma rest_steps pw ds : time_settings_made ds -> settings_complete ds ->
    exists c1 t1 h, tbuilt Release c1 /\ ct_val c1 = true /\ ct_time c1 = Some t1 /\ s_n1 ds = Some t1 /\ hash_ok h /\
      forall e, performTimed_s h clks1 fuel c1 pw = e -> match e with
        | Throw _ => headerTimeRest w clks1 clks2 fuel 1 pw ds = Crash Terminate
        | OutOfFuel => headerTimeRest w clks1 clks2 fuel 1 pw ds = OutOfFuel
        | _ => True end.
  Proof using HH R.
    intros M C. destruct (time_settings_range ds M C) as (hm & m1 & m2 & t1 & t2 & F0 & F1 & F2 & F3 & F4 & F5 & R1 & R2 & R3 & R4 & R5).
    destruct (timed_chain m1 t1 (w_rnd w 0) R2 R4 (R 0%nat)) as (d1 & c1 & E1 & N1 & A1 & B1 & V1 & T1 & L1).
    destruct (timed_chain m2 t2 (w_rnd w 1) R3 R5 (R 1%nat)) as (d2 & c2 & E2 & N2 & A2 & B2 & V2 & T2 & L2).
    destruct (hash_mode_ok (w_hashes w) hm HH R1) as (h & EH & Hh & _).
    exists c1, t1, h. split; [exact B1|]. split; [exact V1|]. split; [exact T1|]. split; [exact F4|]. split; [exact Hh|].
    assert (newChainsTimed w ds = Ret (c1, c2)) as EC.
    { unfold newChainsTimed. rewrite F2, F3, F4, F5. cbn [set_get bind]. unfold newFormat.
      rewrite !(proj2 (ch_mode_valid_spec _)) by assumption. cbn [bind]. rewrite E1. cbn [bind]. rewrite E2. cbn [bind].
      rewrite N1. cbn [bind]. rewrite A1. cbn [bind]. rewrite N2. cbn [bind]. rewrite A2. cbn [bind]. rewrite L1. cbn [bind]. rewrite L2. cbn [bind].
      rewrite !N.eqb_refl. reflexivity. }
    assert (hm = 1 \/ hm = 2 \/ hm = 3) as [ -> | [ -> | -> ]] by lia; injection EH as <-.
    all: intros e He; unfold headerTimeRest; rewrite F0, F1, EC; unfold lift, dbind, dret; cbn -[performTimed_s performTimed_b]; rewrite He.
    all: destruct e; try exact I; reflexivity.
  Qed.
  Lemma rest_outcome pw ds : time_settings_made ds -> settings_complete ds ->
    headerTimeRest w clks1 clks2 fuel 1 pw ds = Crash Terminate \/ headerTimeRest w clks1 clks2 fuel 1 pw ds = OutOfFuel.
  Proof using HH R.
    intros M C. destruct (rest_steps pw ds M C) as (c & t & h & B & V & T & F & Hh & K).
    destruct (proj1 (timed_outcome Release h clks1 fuel c B V Hh) pw) as [E|E]; apply K in E; [left|right]; exact E.
  Qed.
  Lemma rest_kills pw ds t k : time_settings_made ds -> settings_complete ds -> s_n1 ds = Some t -> (forall j, runs_out (clks1 j) t k) ->
    1000 * (N.of_nat k + 1) <= N.of_nat fuel -> 1000 * (N.of_nat k + 1) < 2 ^ 64 ->
    headerTimeRest w clks1 clks2 fuel 1 pw ds = Crash Terminate.
  Proof using HH R.
    intros M C Et Hk Hf H64. destruct (rest_steps pw ds M C) as (c & t' & h & B & V & T & F & Hh & K).
    assert (t' = t) by congruence. subst t'.
    refine (K _ (proj1 (timed_throws Release h clks1 fuel c k B V Hh _ Hf H64) pw)).
    intros j t' E. assert (t' = t) by congruence. subst t'. exact (Hk j).
  Qed.
End Rest.
