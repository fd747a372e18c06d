(** Lemmas for C95. *)
From Coq Require Import Strings.String.
From Verif Require Import Base BaseFacts BytesModel BytesFacts MiscModel MiscFacts CipherModel CipherSpec CipherFacts CipherFacts2 PwModel PwSpec PwFacts ChModel ChSpec ChFacts ChFacts2
  HeaderModel HeaderSpec HeaderFacts HeaderFacts2 HeaderFacts3 HeaderFacts4 HeaderFacts5 HeaderFacts8 HeaderFacts9 FileModel ApiModel ApiSpec FileFacts FileFacts2 ApiFacts ApiFacts2 ApiFacts3 ApiFacts4 ApiFacts5 ApiFacts6 ApiFacts7
  WorkModel WorkSpec.
Open Scope N_scope.
Open Scope list_scope.
Ltac Zify.zify_post_hook ::= Z.div_mod_to_equations.

(** ** the record does not change the results *)
Lemma snd_then {A B} (m : logged A) (k : A -> logged B) (k' : A -> outcome B) : (forall x, snd (k x) = k' x) -> snd (then_ m k) = bind (snd m) k'.
Proof. intros E. unfold then_. destruct (snd m); cbn [snd bind]; auto. Qed.
Lemma snd_then_ok {A B} (m : logged (errcode + A)) (k : A -> logged (errcode + B)) (k' : A -> dres B) : (forall x, snd (k x) = k' x) -> snd (then_ok m k) = dbind (snd m) k'.
Proof. intros E. unfold then_ok, dbind. apply snd_then. intros [c|x]; [reflexivity|apply E]. Qed.
Lemma snd_lift {A} (m : logged A) : snd (lift_w m) = lift (snd m).
Proof. reflexivity. Qed.
Lemma quiet_then {A B} (x : A) (k : A -> logged B) : then_ (quiet (Ret x)) k = k x.
Proof. unfold then_, quiet. cbn [fst snd app]. destruct (k x); reflexivity. Qed.
Lemma quiet_then_ok {A B} (x : A) (k : A -> logged (errcode + B)) : then_ok (quiet (dret x)) k = k x.
Proof. unfold then_ok, dret. rewrite quiet_then. reflexivity. Qed.
Section Results.
Variable h : hashfn.
Variable clk : nat -> N.
Lemma string_loop_res sf ex t k : forall i p s r, snd (string_loop_w h clk sf ex t k i p s r) = string_loop h clk sf ex t k i p s r.
Proof.
  induction k as [|k IH]; intros i p s r; cbn [string_loop_w string_loop]; [reflexivity|]. apply snd_then. intros x. apply snd_then. intros y.
  destruct (negb _ && _); [|apply IH]. rewrite (snd_then _ _ (fun now => if t <=? now then Ret TimedOut else string_loop h clk sf ex t k (w64 (i + 1)) (S p) (w64 (s + 1)) y)).
  - reflexivity.
  - intros now. destruct (t <=? now); [reflexivity|apply IH].
Qed.
Lemma bytes_loop_res sf ex t k : forall i p s r, snd (bytes_loop_w h clk sf ex t k i p s r) = bytes_loop h clk sf ex t k i p s r.
Proof.
  induction k as [|k IH]; intros i p s r; cbn [bytes_loop_w bytes_loop]; [reflexivity|]. apply snd_then. intros x. apply snd_then. intros y. cbv zeta.
  destruct (negb _ && _); [|apply IH]. rewrite (snd_then _ _ (fun now => if t <=? now then Ret TimedOut else bytes_loop h clk sf ex t k (w64 (i + 1)) (S p) (w64 (s + 1)) y)).
  - reflexivity.
  - intros now. destruct (t <=? now); [reflexivity|apply IH].
Qed.
Lemma string_chain_res sf ex n s t pw : snd (string_chain_w h clk sf ex n s t pw) = string_chain h clk sf ex n s t pw.
Proof. unfold string_chain_w, string_chain, noexcept_w. cbn [snd]. f_equal. apply snd_then. intros x. apply string_loop_res. Qed.
Lemma bytes_chain_res sf cp ex n s t d : snd (bytes_chain_w h clk sf cp ex n s t d) = bytes_chain h clk sf cp ex n s t d.
Proof. unfold bytes_chain_w, bytes_chain, noexcept_w. cbn [snd]. f_equal. apply bytes_loop_res. Qed.
Lemma perform_s_res c d t : snd (performChainHash_sw h clk c d t) = performChainHash_s h clk c d t.
Proof.
  unfold performChainHash_sw, performChainHash_s. apply snd_then. intros m.
  destruct m as [|[[[m|m|]|[m|m|]|]|[[m|m|]|[m|m|]|]|]]; try reflexivity; repeat (apply snd_then; intros ?); apply string_chain_res.
Qed.
Lemma perform_b_res c d t : snd (performChainHash_bw h clk c d t) = performChainHash_b h clk c d t.
Proof.
  unfold performChainHash_bw, performChainHash_b. apply snd_then. intros m.
  destruct m as [|[[[m|m|]|[m|m|]|]|[[m|m|]|[m|m|]|]|]]; try reflexivity; repeat (apply snd_then; intros ?); apply bytes_chain_res.
Qed.
End Results.
Lemma peek_then {B} x (k : N -> logged (errcode + B)) : then_ok (lift_w (peek x)) k = (EvClock x :: fst (k x), snd (k x)).
Proof. reflexivity. Qed.
Lemma check_res w d pw t : snd (checkPassword_w w d pw t) = checkPassword w d pw t.
Proof.
  unfold checkPassword_w, checkPassword. apply snd_then_ok. intros p. apply snd_then_ok. intros hm. apply snd_then_ok. intros h.
  erewrite snd_then_ok; [rewrite snd_lift, perform_s_res; reflexivity|]. intros [k|]; [|reflexivity].
  rewrite peek_then. cbn [snd]. cbv zeta.
  destruct (_ && _); [reflexivity|]. erewrite snd_then_ok; [rewrite snd_lift, perform_b_res; reflexivity|]. intros [v|]; [|reflexivity].
  apply snd_then_ok. intros pv. destruct (eqBytes v pv); reflexivity.
Qed.
Lemma verify_res w a pw t : snd (verifyPassword_w w a pw t) = verifyPassword w a pw t.
Proof.
  unfold verifyPassword_w, verifyPassword, noexcept_w. cbn [snd]. f_equal. apply snd_then. intros d. cbv zeta.
  erewrite snd_then; [cbn [snd]; rewrite check_res; reflexivity|]. intros [c|k]; reflexivity.
Qed.
Lemma create_res w mode pw ds t : snd (createHeaderIters_w w mode pw ds t) = createHeaderIters w mode pw ds t.
Proof.
  unfold createHeaderIters_w, createHeaderIters, noexcept_w. cbn [snd]. f_equal. destruct (negb (set_isComplete ds)); [reflexivity|].
  apply snd_then_ok. intros fm. destruct (negb (fm =? mode)); [reflexivity|].
  apply snd_then_ok. intros [c1 c2]. cbn [fst snd]. apply snd_then_ok. intros p. apply snd_then_ok. intros hm. apply snd_then_ok. intros p2. apply snd_then_ok. intros h.
  erewrite snd_then_ok; [rewrite snd_lift, perform_s_res; reflexivity|]. intros [k|]; [|reflexivity].
  rewrite peek_then. cbn [snd]. cbv zeta.
  apply snd_then_ok. intros t2. erewrite snd_then_ok; [rewrite snd_lift, perform_b_res; reflexivity|]. intros [v|]; [|reflexivity].
  do 4 (apply snd_then_ok; intros ?). reflexivity.
Qed.
Lemma same_call w a f o : snd (step_w w a f o) = step w a f o.
Proof.
  unfold step_w. destruct o; try reflexivity; destruct (a_state a) eqn:Es; try reflexivity; cbn [step]; rewrite Es.
  - cbn [snd]. rewrite verify_res. reflexivity.
  - destruct (negb (set_isComplete ds)); [reflexivity|]. cbn [snd]. rewrite create_res. reflexivity.
  - destruct (negb (set_isComplete ds)); [reflexivity|]. cbn [snd]. rewrite create_res. reflexivity.
Qed.

(** ** the events of a chain *)
Lemma nat_mod_eqb i : (N.of_nat i mod 1000 =? 0) = Nat.eqb (i mod 1000) 0.
Proof.
  pose proof (Nat2N.inj_mod i 1000) as E. change (N.of_nat 1000) with 1000 in E. rewrite <- E.
  destruct (N.eqb_spec (N.of_nat (i mod 1000)) 0), (Nat.eqb_spec (i mod 1000) 0); lia.
Qed.
Lemma nat_div_succ j : Nat.eqb (S j mod 1000) 0 = false -> (S j / 1000 = j / 1000)%nat.
Proof.
  intros E. apply Nat.eqb_neq in E. pose proof (Nat.div_mod (S j) 1000 ltac:(lia)). pose proof (Nat.mod_upper_bound (S j) 1000 ltac:(lia)).
  apply (Nat.div_unique j 1000 (S j / 1000) (S j mod 1000 - 1)); lia.
Qed.
Lemma nat_div_next j : Nat.eqb (S j mod 1000) 0 = true -> (S j / 1000 = S (j / 1000))%nat.
Proof.
  intros E. apply Nat.eqb_eq in E. pose proof (Nat.div_mod (S j) 1000 ltac:(lia)).
  destruct (S j / 1000)%nat as [|q]; [lia|]. f_equal. apply (Nat.div_unique j 1000 q 999); lia.
Qed.
Lemma until_late_hash t x l : until_late t (EvHash x :: l) = EvHash x :: until_late t l.
Proof. reflexivity. Qed.
Lemma until_late_clock t r l : until_late t (EvClock r :: l) = EvClock r :: (if t <=? r then [] else until_late t l).
Proof. cbn [until_late is_late]. destruct (t <=? r); reflexivity. Qed.
Section Events.
Variable h : hashfn.
Hypothesis Hh : hash_ok h.
Variable m : saltmode.
Hypothesis Hm : mode_wf m.
Hypothesis Hsz : hsize h + salt_len m < 2 ^ 32.
Variable clk : nat -> N.
Variable t : N.
Notation SF := (sf_of m).
Notation EX := (salt_len m).
Notation CAP := (hsize h + salt_len m).
Lemma iter_len x j : lenN (iterated (hfun h) m x j) = hsize h.
Proof using Hh. destruct j; cbn [iterated]; apply Hh. Qed.
Lemma string_loop_events x k : forall j p, (t <> 0 -> p = (j / 1000)%nat) -> N.of_nat j + 1 + N.of_nat k < 2 ^ 64 ->
  fst (string_loop_w h clk SF EX t k (N.of_nat j + 1) p (w64 (start_of m + N.of_nat j)) (mkBytes (iterated (hfun h) m x j) CAP)) =
  until_late t (flat_map (string_round (hfun h) m x t clk) (seq (S j) k)).
Proof using Hh Hm Hsz.
  induction k as [|k IH]; intros j p Hp Hi; cbn [string_loop_w seq flat_map]; [reflexivity|]. cbv zeta.
  rewrite w64_add. rewrite (add_salt_ok h Hh m Hm Hsz) by (try rewrite iter_len; lia). rewrite quiet_then. cbn [bdata].
  unfold then_ at 1. cbn [hash_w fst snd]. rewrite (do_hash_ok h Hh m Hm Hsz). unfold TIMEOUT_ITERATIONS. rewrite (w64_small (N.of_nat j + 1 + 1)) by lia.
  replace (N.of_nat j + 1) with (N.of_nat (S j)) by lia. change (hfun h (iterated (hfun h) m x j ++ salt_at m (N.of_nat (S j)))) with (iterated (hfun h) m x (S j)).
  unfold string_round at 1. cbn [input Nat.eqb app]. rewrite until_late_hash. cbn [fst]. f_equal. rewrite nat_mod_eqb, Bool.orb_false_r.
  destruct (N.eqb_spec t 0) as [T|T]; cbn [negb andb orb app].
  - apply IH; [intros; contradiction|lia].
  - destruct (Nat.eqb (S j mod 1000) 0) eqn:E; cbn [negb app].
    + specialize (Hp T). rewrite (nat_div_next _ E). cbn [Nat.sub]. rewrite Nat.sub_0_r, until_late_clock, <- Hp. unfold then_ at 1, peek. cbn [fst snd app]. f_equal.
      destruct (t <=? clk p); [reflexivity|]. apply IH; [intros; rewrite (nat_div_next _ E); congruence|lia].
    + apply IH; [intros; rewrite (nat_div_succ _ E); auto|lia].
Qed.
Lemma string_chain_events n x : 1 <= n -> n < 2 ^ 64 -> fst (string_chain_w h clk SF EX n (start_of m) t x) = string_events (hfun h) m x n t clk.
Proof using Hh Hm Hsz.
  intros L1 L2. unfold string_chain_w, noexcept_w, string_events. cbn [fst].
  assert (start_of m < 2 ^ 64) as Hs by (destruct m; cbn in *; lia).
  pose proof (salt_text_at m 0 Hm) as Ht. rewrite N.add_0_r, (w64_small _ Hs) in Ht. rewrite Ht. unfold then_ at 1. cbn [hash_w fst snd]. rewrite (do_hash_ok h Hh m Hm Hsz).
  replace (N.to_nat n) with (S (N.to_nat (n - 1))) by lia. cbn [seq flat_map]. unfold string_round at 1. cbn [Nat.eqb]. rewrite Bool.orb_true_r. cbn [orb app input fst].
  rewrite until_late_hash. f_equal. change (hfun h (x ++ salt_at m 0)) with (iterated (hfun h) m x 0).
  pose proof (string_loop_events x (N.to_nat (n - 1)) 0 0 (fun _ => eq_refl) ltac:(lia)) as L. change (N.of_nat 0) with 0 in L. rewrite N.add_0_r, (w64_small _ Hs) in L. exact L.
Qed.
Lemma bytes_loop_events x k : forall j p cap, (t <> 0 -> N.of_nat p = (N.of_nat j + 999) / 1000) -> N.of_nat j + N.of_nat k < 2 ^ 64 ->
  forall y, lenN y + EX <= cap -> cap < 2 ^ 64 -> y = match j with O => x | S i => iterated (hfun h) m x i end ->
  fst (bytes_loop_w h clk SF EX t k (N.of_nat j) p (w64 (start_of m + N.of_nat j)) (mkBytes y cap)) =
  until_late t (flat_map (bytes_round (hfun h) m x t clk) (seq j k)).
Proof using Hh Hm Hsz.
  induction k as [|k IH]; intros j p cap Hp Hi y L1 L2 Ey; cbn [bytes_loop_w seq flat_map]; [reflexivity|].
  rewrite (add_salt_ok h Hh m Hm Hsz) by assumption. rewrite quiet_then. cbn [bdata].
  unfold then_ at 1. cbn [hash_w fst snd]. rewrite (do_hash_ok h Hh m Hm Hsz). cbv zeta. rewrite w64_add. unfold TIMEOUT_ITERATIONS. rewrite (w64_small (N.of_nat j + 1)) by lia.
  assert (hfun h (y ++ salt_at m (N.of_nat j)) = iterated (hfun h) m x j) as E1 by (subst y; destruct j; reflexivity). rewrite E1.
  assert (input (hfun h) m x j = y ++ salt_at m (N.of_nat j)) as E2 by (subst y; destruct j; reflexivity).
  unfold bytes_round at 1. rewrite E2. cbn [app]. rewrite until_late_hash. cbn [fst]. f_equal. rewrite nat_mod_eqb. replace (N.of_nat j + 1) with (N.of_nat (S j)) by lia.
  assert (lenN (iterated (hfun h) m x j) + EX <= CAP) as L3 by (rewrite iter_len; lia).
  destruct (N.eqb_spec t 0) as [T|T]; cbn [negb andb orb app].
  - apply IH; try assumption; try reflexivity; [intros; contradiction|lia|lia].
  - specialize (Hp T). destruct (Nat.eqb (j mod 1000) 0) eqn:E; cbn [negb app].
    + assert (p = (j / 1000)%nat) as Ep by (rewrite <- nat_mod_eqb in E; apply N.eqb_eq in E; apply Nat2N.inj; rewrite Nat2N.inj_div; change (N.of_nat 1000) with 1000; lia).
      rewrite until_late_clock, <- Ep. unfold then_ at 1, peek. cbn [fst snd app]. f_equal.
      destruct (t <=? clk p); [reflexivity|]. apply IH; try assumption; try reflexivity; try lia.
    + apply IH; try assumption; try reflexivity; try lia.
Qed.
Lemma bytes_chain_events n d : n < 2 ^ 64 -> getLen d <= bmax d -> bmax d + EX < 2 ^ 64 -> fst (bytes_chain_w h clk SF EX EX n (start_of m) t d) = bytes_events (hfun h) m (bdata d) n t clk.
Proof using Hh Hm Hsz.
  intros L1 L2 L3. unfold bytes_chain_w, noexcept_w, bytes_events, copyExtra. cbn [fst].
  assert (start_of m < 2 ^ 64) as Hs by (destruct m; cbn in *; lia). rewrite <- (w64_small _ Hs) at 1. rewrite <- (N.add_0_r (start_of m)). change 0 with (N.of_nat 0).
  apply bytes_loop_events; try assumption; try reflexivity; unfold getLen in *; lia.
Qed.
End Events.
Section Dispatch.
Variable c : chainhash.
Variable mode : N.
Variable d : chd.
Variable ps : list bytes.
Hypothesis Hval : ch_val c = true.
Hypothesis Hmode : ch_mode c = Some mode.
Hypothesis Hdata : ch_data c = Some d.
Hypothesis Hm : 1 <= mode <= 5.
Hypothesis Hr : rep mode ps d.
Hypothesis Hc : lenN ps = lenN (layout mode).
Notation M := (described mode (concat ps)).
Lemma perform_sw_dispatch h clk pw t : performChainHash_sw h clk c pw t = string_chain_w h clk (sf_of M) (salt_len M) (ch_iters c) (start_of M) t pw.
Proof using Hval Hmode Hdata Hm Hr Hc.
  unfold performChainHash_sw. rewrite (u_getMode c mode Hval Hmode), quiet_then.
  pose proof (complete_parts mode ps d Hm Hr Hc) as Hps. pose proof (complete_len mode ps d Hm Hr Hc) as (H1 & H3 & H4 & H5).
  pose proof (u_num c mode d ps Hval Hdata Hm Hr) as Un. pose proof (u_bytes c mode d ps Hval Hdata Hm Hr) as Ub. rewrite Hps in Un, Ub. pose proof (u_getIters c Hval) as Ui.
  revert Un Ub H1 H3 H4 H5. pattern mode. apply modes5; [exact Hm|..]; intros Un Ub H1 H3 H4 H5; cbn [layout cut] in Un, Ub; cbn [described].
  - rewrite Ui, quiet_then. reflexivity.
  - destruct (Ub 0%nat "S"%string None _ eq_refl eq_refl) as (b & -> & E). rewrite quiet_then, E, Ui, quiet_then. reflexivity.
  - rewrite (Un 0%nat "SN"%string _ _ eq_refl eq_refl) by (rewrite lenN_takeN; lia). rewrite quiet_then, Ui, quiet_then.
    rewrite takeN_all by (rewrite H3; [lia|reflexivity]). reflexivity.
  - rewrite (Un 0%nat "SN"%string _ _ eq_refl eq_refl) by (rewrite lenN_takeN; lia). rewrite quiet_then.
    destruct (Ub 1%nat "S"%string None _ eq_refl eq_refl) as (b & -> & E). rewrite quiet_then, E, Ui, quiet_then. reflexivity.
  - rewrite (Un 0%nat "SN"%string _ _ eq_refl eq_refl) by (rewrite lenN_takeN; lia). rewrite quiet_then.
    rewrite (Un 1%nat "A"%string _ _ eq_refl eq_refl) by (rewrite lenN_takeN; lia). rewrite quiet_then.
    rewrite (Un 2%nat "B"%string _ _ eq_refl eq_refl) by (rewrite lenN_takeN; lia). rewrite quiet_then.
    rewrite (Un 3%nat "C"%string _ _ eq_refl eq_refl) by (rewrite lenN_takeN; lia). rewrite quiet_then.
    rewrite Ui, quiet_then. rewrite !dropN_dropN. change (8 + 8) with 16. change (8 + 16) with 24.
    rewrite (takeN_all 8 (dropN 24 (concat ps))) by (rewrite lenN_dropN, H5; [lia|reflexivity]). reflexivity.
Qed.
Lemma perform_bw_dispatch h clk x t : performChainHash_bw h clk c x t = bytes_chain_w h clk (sf_of M) (salt_len M) (salt_len M) (ch_iters c) (start_of M) t x.
Proof using Hval Hmode Hdata Hm Hr Hc.
  unfold performChainHash_bw. rewrite (u_getMode c mode Hval Hmode), quiet_then.
  pose proof (complete_parts mode ps d Hm Hr Hc) as Hps. pose proof (complete_len mode ps d Hm Hr Hc) as (H1 & H3 & H4 & H5).
  pose proof (u_num c mode d ps Hval Hdata Hm Hr) as Un. pose proof (u_bytes c mode d ps Hval Hdata Hm Hr) as Ub. rewrite Hps in Un, Ub. pose proof (u_getIters c Hval) as Ui.
  revert Un Ub H1 H3 H4 H5. pattern mode. apply modes5; [exact Hm|..]; intros Un Ub H1 H3 H4 H5; cbn [layout cut] in Un, Ub; cbn [described].
  - rewrite Ui, quiet_then. reflexivity.
  - destruct (Ub 0%nat "S"%string None _ eq_refl eq_refl) as (b & -> & E). rewrite quiet_then, E, Ui, quiet_then. reflexivity.
  - rewrite (Un 0%nat "SN"%string _ _ eq_refl eq_refl) by (rewrite lenN_takeN; lia). rewrite quiet_then, Ui, quiet_then.
    rewrite takeN_all by (rewrite H3; [lia|reflexivity]). reflexivity.
  - rewrite (Un 0%nat "SN"%string _ _ eq_refl eq_refl) by (rewrite lenN_takeN; lia). rewrite quiet_then.
    destruct (Ub 1%nat "S"%string None _ eq_refl eq_refl) as (b & -> & E). rewrite quiet_then, E, Ui, quiet_then. reflexivity.
  - rewrite (Un 0%nat "SN"%string _ _ eq_refl eq_refl) by (rewrite lenN_takeN; lia). rewrite quiet_then.
    rewrite (Un 1%nat "A"%string _ _ eq_refl eq_refl) by (rewrite lenN_takeN; lia). rewrite quiet_then.
    rewrite (Un 2%nat "B"%string _ _ eq_refl eq_refl) by (rewrite lenN_takeN; lia). rewrite quiet_then.
    rewrite (Un 3%nat "C"%string _ _ eq_refl eq_refl) by (rewrite lenN_takeN; lia). rewrite quiet_then.
    rewrite Ui, quiet_then. rewrite !dropN_dropN. change (8 + 8) with 16. change (8 + 16) with 24.
    rewrite (takeN_all 8 (dropN 24 (concat ps))) by (rewrite lenN_dropN, H5; [lia|reflexivity]). reflexivity.
Qed.
End Dispatch.
Lemma perform_s_events c x h clk pw t : ch_inv c -> chain_of c = Some x -> hash_ok h ->
  fst (performChainHash_sw h clk c pw t) = string_events (hfun h) (salts x) pw (iterations x) t clk.
Proof.
  intros Hc E Hh. pose proof (chain_of_val _ _ E) as V.
  destruct (usable_rep c Hc V) as (mode & d & ps & E1 & E2 & H1 & Hr & Hl & Hi). unfold chain_of in E. rewrite V, E1, E2 in E. injection E as <-.
  unfold salts, iterations. cbn [fst snd]. destruct (rep_block _ _ _ Hr) as [Ed _]. rewrite Ed. cbn [bdata].
  rewrite (perform_sw_dispatch c mode d ps V E1 E2 H1 Hr Hl h clk pw t).
  destruct (described_fits h mode ps d Hh H1 Hr Hl) as (_ & F1 & F2). apply string_chain_events; try assumption; lia.
Qed.
Lemma perform_b_events c x h clk data t : ch_inv c -> chain_of c = Some x -> hash_ok h -> getLen data <= bmax data -> bmax data <= 530 ->
  fst (performChainHash_bw h clk c data t) = bytes_events (hfun h) (salts x) (bdata data) (iterations x) t clk.
Proof.
  intros Hc E Hh L1 L2. pose proof (chain_of_val _ _ E) as V.
  destruct (usable_rep c Hc V) as (mode & d & ps & E1 & E2 & H1 & Hr & Hl & Hi). unfold chain_of in E. rewrite V, E1, E2 in E. injection E as <-.
  unfold salts, iterations. cbn [fst snd]. destruct (rep_block _ _ _ Hr) as [Ed _]. rewrite Ed. cbn [bdata].
  rewrite (perform_bw_dispatch c mode d ps V E1 E2 H1 Hr Hl h clk data t).
  destruct (described_fits h mode ps d Hh H1 Hr Hl) as (_ & F1 & F2). apply bytes_chain_events; try assumption; lia.
Qed.

(** ** the limit is reached *)
Lemma late_until t l : late t (until_late t l) = late t l.
Proof.
  induction l as [|e l IH]; [reflexivity|]. cbn [until_late late existsb]. destruct (is_late t e) eqn:E; cbn [existsb]; rewrite E; [reflexivity|]. exact IH.
Qed.
Lemma string_late H m x n t clk : late t (string_events H m x n t clk) = true <-> reached clk t (readings_string n).
Proof.
  unfold string_events, reached, readings_string. rewrite late_until. unfold late. rewrite existsb_exists. split.
  - intros (e & I & L). apply in_flat_map in I as (i & I & J). apply in_seq in I. unfold string_round in J. destruct J as [<-|J]; [discriminate|].
    destruct (N.eqb_spec t 0) as [T|T]; [contradiction|]. destruct (Nat.eqb_spec i 0) as [Z|Z]; [contradiction|]. cbn [orb] in J.
    destruct (Nat.eqb_spec (i mod 1000) 0) as [M|M]; [|contradiction]. destruct J as [<-|[]]. cbn [is_late] in L. apply N.leb_le in L. split; [exact T|]. eexists. split; [|exact L]. lia.
  - intros (T & k & K & L). exists (EvClock (clk k)). split; [|cbn [is_late]; apply N.leb_le; exact L]. apply in_flat_map. exists (1000 * S k)%nat. split; [apply in_seq; lia|].
    unfold string_round. right. destruct (N.eqb_spec t 0) as [T'|_]; [contradiction|]. destruct (Nat.eqb_spec (1000 * S k) 0) as [Z|_]; [lia|]. cbn [orb].
    destruct (Nat.eqb_spec ((1000 * S k) mod 1000) 0) as [M|M]; [|lia]. left. f_equal. f_equal. lia.
Qed.
Lemma bytes_late H m x n t clk : late t (bytes_events H m x n t clk) = true <-> reached clk t (readings_bytes n).
Proof.
  unfold bytes_events, reached, readings_bytes. rewrite late_until. unfold late. rewrite existsb_exists. split.
  - intros (e & I & L). apply in_flat_map in I as (i & I & J). apply in_seq in I. unfold bytes_round in J. destruct J as [<-|J]; [discriminate|].
    destruct (N.eqb_spec t 0) as [T|T]; [contradiction|]. cbn [orb] in J.
    destruct (Nat.eqb_spec (i mod 1000) 0) as [M|M]; [|contradiction]. destruct J as [<-|[]]. cbn [is_late] in L. apply N.leb_le in L. split; [exact T|]. eexists. split; [|exact L]. lia.
  - intros (T & k & K & L). exists (EvClock (clk k)). split; [|cbn [is_late]; apply N.leb_le; exact L]. apply in_flat_map. exists (1000 * k)%nat. split; [apply in_seq; lia|].
    unfold bytes_round. right. destruct (N.eqb_spec t 0) as [T'|_]; [contradiction|]. cbn [orb].
    destruct (Nat.eqb_spec ((1000 * k) mod 1000) 0) as [M|M]; [|lia]. left. f_equal. f_equal. lia.
Qed.

(** ** the events of a call *)
Lemma then_ok_lift {A B} (m : logged A) (k : A -> logged (errcode + B)) x : snd m = Ret x -> then_ok (lift_w m) k = (fst m ++ fst (k x), snd (k x)).
Proof. intros E. unfold then_ok, then_, lift_w. cbn [fst snd]. rewrite E. reflexivity. Qed.
Section Calls.
  Variable H : hashes.
  Hypothesis HH : hashes_ok H.
  Lemma check_events w d h pw t : w_hashes w = H -> w_elapsed w < 2 ^ 64 -> t < 2 ^ 64 -> holds d h -> fst (checkPassword_w w d pw t) = verify_events H w h pw t.
  Proof using HH.
    intros EH Le Lt Hd. pose proof (holds_parts d h Hd) as P. destruct Hd as [I C].
    destruct (contents_parts d h C) as (v & s & Ef & Eh & E1 & E2 & Ev & Bv & Es & Bs & Eb & Ee).
    destruct (hash_mode_ok H (h_hmode h) HH (i_range _ _ I)) as (hf & Hg & Hh & Hf).
    unfold checkPassword_w. rewrite P. cbn [lift bind]. rewrite quiet_then_ok. unfold p_getHashMode. rewrite Eh. cbn [lift bind]. rewrite quiet_then_ok. rewrite EH, Hg. cbn [lift bind]. rewrite quiet_then_ok.
    destruct (perform_s _ _ hf (w_clk1 w) pw t (i_ch1 _ _ I) E1 Hh) as [A1 A2].
    pose proof (perform_s_events _ _ hf (w_clk1 w) pw t (i_ch1 _ _ I) E1 Hh) as F1. pose proof (perform_s_res hf (w_clk1 w) (p_ch1 (d_parts d)) pw t) as S1. rewrite Hf in F1.
    unfold verify_events. cbv zeta. unfold first_events. rewrite <- F1. pose proof (string_late (hash_of H (h_hmode h)) (salts (h_ch1 h)) pw (iterations (h_ch1 h)) t (w_clk1 w)) as L1. rewrite <- F1 in L1.
    destruct (reached_dec (w_clk1 w) t (readings_string (iters_of (h_ch1 h)))) as [R1|R1].
    { rewrite (proj2 L1 R1). rewrite (A1 R1) in S1. rewrite (then_ok_lift _ _ _ S1). cbn [fst quiet]. apply app_nil_r. }
    destruct (late t _) eqn:EL; [exfalso; apply R1, L1; reflexivity|]. destruct (A2 R1) as (k & Ek & Bk & Lk & Ck). rewrite Ek in S1.
    rewrite (then_ok_lift _ _ _ S1). cbn [fst]. rewrite peek_then. cbn [fst]. rewrite (w64_small _ Le). f_equal. f_equal.
    pose proof (sub64_mod t (w_elapsed w) Lt Le) as SM. pose proof (sub64_zero t (w_elapsed w) Lt Le) as SZ. rewrite (w64_small _ Le) in SM. rewrite SM, SZ. rewrite (N.eqb_sym t (w_elapsed w)).
    destruct (negb (t =? 0) && (w_elapsed w =? t)); [reflexivity|].
    destruct (perform_b _ _ hf (w_clk2 w) k ((t + 2 ^ 64 - w_elapsed w) mod 2 ^ 64) (i_ch2 _ _ I) E2 Hh ltac:(lia) ltac:(lia)) as [B1 B2].
    pose proof (perform_b_events _ _ hf (w_clk2 w) k ((t + 2 ^ 64 - w_elapsed w) mod 2 ^ 64) (i_ch2 _ _ I) E2 Hh ltac:(lia) ltac:(lia)) as F2. rewrite Hf in F2.
    pose proof (perform_b_res hf (w_clk2 w) (p_ch2 (d_parts d)) k ((t + 2 ^ 64 - w_elapsed w) mod 2 ^ 64)) as S2.
    unfold second_events, key_of. rewrite <- Hf in *. rewrite <- Bk, <- F2.
    destruct (reached_dec (w_clk2 w) ((t + 2 ^ 64 - w_elapsed w) mod 2 ^ 64) (readings_bytes (iters_of (h_ch2 h)))) as [R2|R2].
    - rewrite (B1 R2) in S2. rewrite (then_ok_lift _ _ _ S2). cbn [fst quiet]. apply app_nil_r.
    - destruct (B2 R2) as (v2 & Ev2 & _). rewrite Ev2 in S2. rewrite (then_ok_lift _ _ _ S2). cbn [fst]. unfold p_getValid. rewrite Ev. cbn [lift bind]. rewrite quiet_then_ok.
      destruct (eqBytes _ _); cbn [fst quiet]; apply app_nil_r.
  Qed.
  Lemma create_header_events w pw ds t h : w_hashes w = H -> (forall i k, lenN (w_rnd w i k) = k) -> w_elapsed w < 2 ^ 64 -> t < 2 ^ 64 -> settings_made ds -> set_isComplete ds = true ->
    created H w ds pw h -> fst (createHeaderIters_w w 1 pw ds t) = create_events H w h pw t.
  Proof using HH.
    intros EH R Le Lt64 SM SC Cr. destruct (settings_in_range ds SM SC) as (hm & m1 & m2 & n1 & n2 & F0 & F1 & F2 & F3 & F4 & F5 & R1 & R2 & R3 & R4 & R5).
    pose proof (new_chains_eq w ds m1 n1 m2 n2 R F2 F4 F3 F5 R2 R4 R3 R5) as NC.
    destruct Cr as (_ & Ehm & (m1' & n1' & G1 & G2 & G3) & (m2' & n2' & G4 & G5 & G6) & _).
    assert (h_hmode h = hm) as Xh by congruence. assert (h_ch1 h = new_chain_of w 0 m1 n1) as X1 by (unfold new_chain_of; congruence). assert (h_ch2 h = new_chain_of w 1 m2 n2) as X2 by (unfold new_chain_of; congruence).
    set (x1 := new_chain_of w 0 m1 n1) in *. set (x2 := new_chain_of w 1 m2 n2) in *.
    assert (chain_ok x1) as K1 by (apply new_chain_of_ok; assumption). assert (chain_ok x2) as K2 by (apply new_chain_of_ok; assumption).
    destruct (hash_mode_ok H hm HH R1) as (hf & Hg & Hh & Hf).
    unfold createHeaderIters_w, noexcept_w. cbn [fst]. rewrite SC, F0. cbn [negb set_get lift bind]. rewrite quiet_then_ok. cbn [N.eqb Pos.eqb negb].
    rewrite NC. cbn [try_]. rewrite quiet_then_ok. cbn [fst snd p_setFileDataMode file_mode_valid N.leb N.compare Pos.compare Pos.compare_cont andb p_hmode p_fmode p_valid p_salt p_dec p_enc p_ch1 p_ch2 lift bind].
    rewrite quiet_then_ok. rewrite F1. cbn [set_get lift bind]. rewrite quiet_then_ok. unfold p_setHashMode. rewrite (proj2 (hash_mode_valid_spec hm) R1).
    cbn [lift bind p_hmode p_fmode p_valid p_salt p_dec p_enc p_ch1 p_ch2]. rewrite quiet_then_ok. rewrite EH, Hg. cbn [lift bind]. rewrite quiet_then_ok. cbn [p_ch1 p_ch2].
    destruct (perform_s _ _ hf (w_clk1 w) pw t (to_ch_inv _ K1) (chain_of_to_ch x1) Hh) as [A1 A2].
    pose proof (perform_s_events _ _ hf (w_clk1 w) pw t (to_ch_inv _ K1) (chain_of_to_ch x1) Hh) as Q1. pose proof (perform_s_res hf (w_clk1 w) (to_ch x1) pw t) as S1. rewrite Hf in Q1.
    unfold create_events. cbv zeta. unfold first_events. rewrite Xh, X1, <- Q1. pose proof (string_late (hash_of H hm) (salts x1) pw (iterations x1) t (w_clk1 w)) as L1. rewrite <- Q1 in L1.
    destruct (reached_dec (w_clk1 w) t (readings_string (iters_of x1))) as [T1|T1].
    { rewrite (proj2 L1 T1). rewrite (A1 T1) in S1. rewrite (then_ok_lift _ _ _ S1). cbn [fst quiet]. apply app_nil_r. }
    destruct (late t _) eqn:EL; [exfalso; apply T1, L1; reflexivity|]. destruct (A2 T1) as (k & Ek & Bk & Lk & Ck). rewrite Ek in S1.
    rewrite (then_ok_lift _ _ _ S1). cbn [fst]. rewrite peek_then. cbn [fst]. rewrite (w64_small _ Le). f_equal. f_equal.
    destruct (negb (t =? 0) && (t <=? w_elapsed w)) eqn:ET.
    { apply andb_true_iff in ET as [ET1 ET2]. apply Bool.negb_true_iff in ET1. rewrite ET1, ET2. reflexivity. }
    assert ((if t =? 0 then dret 0 else if t <=? w_elapsed w then dfail ERR_TIMEOUT else dret (sub64 t (w_elapsed w))) = dret (t - w_elapsed w)) as EQ.
    { destruct (N.eqb_spec t 0) as [T0|T0]; [subst t; reflexivity|]. cbn [negb andb] in ET. rewrite ET. apply N.leb_gt in ET. rewrite sub64_le; [reflexivity| |]; change two64 with (2 ^ 64); lia. }
    match goal with |- fst (then_ok (quiet ?m) _) = _ => assert (m = dret (t - w_elapsed w)) as EQ' by exact EQ; rewrite EQ' end. rewrite quiet_then_ok.
    destruct (perform_b _ _ hf (w_clk2 w) k (t - w_elapsed w) (to_ch_inv _ K2) (chain_of_to_ch x2) Hh ltac:(lia) ltac:(lia)) as [B1 B2].
    pose proof (perform_b_events _ _ hf (w_clk2 w) k (t - w_elapsed w) (to_ch_inv _ K2) (chain_of_to_ch x2) Hh ltac:(lia) ltac:(lia)) as Q2. rewrite Hf in Q2.
    pose proof (perform_b_res hf (w_clk2 w) (to_ch x2) k (t - w_elapsed w)) as S2.
    unfold second_events, key_of. rewrite Xh, X1, X2. rewrite <- Hf in *. rewrite <- Bk, <- Q2.
    destruct (reached_dec (w_clk2 w) (t - w_elapsed w) (readings_bytes (iters_of x2))) as [T2|T2].
    - rewrite (B1 T2) in S2. rewrite (then_ok_lift _ _ _ S2). cbn [fst quiet]. apply app_nil_r.
    - destruct (B2 T2) as (v2 & Ev2 & _). rewrite Ev2 in S2. rewrite (then_ok_lift _ _ _ S2). cbn [fst].
      match goal with |- ?l ++ fst ?y = _ => assert (fst y = []) as ->; [|apply app_nil_r] end.
      clear. repeat match goal with |- fst (then_ok (quiet ?m) ?k) = [] =>
        let r := fresh in destruct m as [[?|r]| | |]; [reflexivity|change (fst (then_ok (quiet (dret r)) k) = []); rewrite quiet_then_ok|reflexivity|reflexivity|reflexivity] end. reflexivity.
  Qed.

  Variable bd : build.
  Lemma verify_call mode tr a w f p c hsz l1 l2 h rest pw t : history bd H mode tr a -> world_ok bd H w -> t < 2 ^ 64 -> a_state a = FILE_SELECTED ->
    selected tr = Some (p, c) -> written_as c hsz l1 l2 h rest -> fst (step_w w a f (OVerify pw t)) = verify_events H w h pw t.
  Proof using HH.
    intros Hh (Wb & WH & WR & We) Lt Es Q Wr. pose proof (history_inv _ HH _ _ _ _ Hh) as [Em I]. rewrite Es in I.
    destruct I as (p' & c' & hsz' & l1' & l2' & h' & rest' & Q1 & _ & _ & _ & _ & Wr' & L1 & L2 & Ea). assert (c' = c) by congruence. subst c'.
    destruct (written_unique _ _ _ _ _ _ _ _ _ _ _ (lt63_two64 _ L2) Wr Wr') as [<- <-]. pose proof (lt63_two64 _ L2) as L3.
    assert (holds (decoded (lenN c) h) h) as Hd by (split; [apply decoded_hinv|apply decoded_contents]; try apply Wr; exact L3).
    unfold step_w. rewrite Es. cbn [fst]. unfold verifyPassword_w, noexcept_w. cbn [fst]. rewrite Ea. cbn [a_dh ptr]. rewrite quiet_then. cbv zeta.
    rewrite <- (check_events w _ h pw t WH We Lt Hd). unfold then_. cbn [fst snd].
    destruct (catch_std ERR _) as [[x|x]|e|x|]; cbn [fst quiet]; try reflexivity; apply app_nil_r.
  Qed.
  Lemma create_call mode tr a w f ds pw t h : history bd H mode tr a -> world_ok bd H w -> t < 2 ^ 64 -> a_state a = EMPTY_FILE_SELECTED \/ a_state a = DECRYPTED ->
    settings_made ds -> settings_complete ds -> created H w ds pw h -> fst (step_w w a f (OHeader pw ds t)) = create_events H w h pw t.
  Proof using HH.
    intros Hh (Wb & WH & WR & We) Lt Es SM SC Cr. pose proof (history_inv _ HH _ _ _ _ Hh) as [Em _].
    assert (set_isComplete ds = true) as C.
    { destruct SC as (S1 & S2 & S3 & S4 & S5 & S6). unfold set_isComplete. destruct (s_fmode ds), (s_hmode ds), (s_ch1 ds), (s_ch2 ds), (s_n1 ds), (s_n2 ds); try congruence; reflexivity. }
    unfold step_w. rewrite C, Em. cbn [negb]. destruct Es as [Es|Es]; rewrite Es; cbn [fst]; apply create_header_events; assumption.
  Qed.
End Calls.
