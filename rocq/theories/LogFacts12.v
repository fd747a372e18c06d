(** Lemmas for C98: the log of a password check that does not succeed. *)
From Coq Require Import Strings.Byte Lia.
From Verif Require Import Base BaseFacts BytesModel BytesFacts MiscModel MiscFacts CipherModel CipherSpec CipherFacts PwModel PwSpec PwFacts ChModel ChSpec ChFacts ChFacts2
  HeaderModel HeaderSpec HeaderFacts HeaderFacts2 HeaderFacts3 HeaderFacts4 HeaderFacts5 HeaderFacts8 HeaderFacts9 FileModel FileFacts ApiModel ApiSpec ApiFacts ApiFacts2 ApiFacts3 ApiFacts4 ApiFacts5 ApiFacts7
  LogModel LogSpec LogFacts1 LogFacts6 LogFacts7 LogSpec2.
Open Scope N_scope.
Open Scope list_scope.
Import ListNotations.
Ltac Zify.zify_post_hook ::= Z.div_mod_to_equations.

(** ** The round in which a chain hash gives up *)
Lemma late_spec clk t : t <> 0 -> forall k i p, i + N.of_nat k < 2 ^ 64 ->
  match late clk t k i p with
  | Some r => exists j, r = 1000 * ((i + 999) / 1000 + N.of_nat j) /\ r < i + N.of_nat k /\ t <= clk (p + j)%nat /\ forall q, (q < j)%nat -> clk (p + q)%nat < t
  | None => forall j, 1000 * ((i + 999) / 1000 + N.of_nat j) < i + N.of_nat k -> clk (p + j)%nat < t
  end.
Proof.
  intros T. apply N.eqb_neq in T. induction k as [|k IH]; intros i p L; cbn [late]; [intros j Hj; lia|].
  rewrite T. cbn [negb andb]. change TIMEOUT_ITERATIONS with 1000. rewrite (w64_small (i + 1)) by lia.
  destruct (N.eqb_spec (i mod 1000) 0) as [Z|Z].
  - destruct (N.leb_spec t (clk p)) as [C|C].
    + exists 0%nat. rewrite Nat.add_0_r. split; [lia|]. split; [lia|]. split; [exact C|]. intros q Hq. lia.
    + specialize (IH (i + 1) (S p) ltac:(lia)). replace ((i + 1 + 999) / 1000) with ((i + 999) / 1000 + 1) in IH by lia. destruct (late clk t k (i + 1) (S p)) as [r|].
      * destruct IH as (j & E & Lr & Cj & Q). exists (S j). split; [lia|]. split; [lia|]. split; [rewrite Nat.add_succ_r; exact Cj|].
        intros [|q] Hq; [rewrite Nat.add_0_r; exact C|]. rewrite Nat.add_succ_r. apply Q. lia.
      * intros [|j] Hj; [rewrite Nat.add_0_r; exact C|]. rewrite Nat.add_succ_r. apply IH. lia.
  - specialize (IH (i + 1) p ltac:(lia)). replace ((i + 1 + 999) / 1000) with ((i + 999) / 1000) in IH by lia. destruct (late clk t k (i + 1) p) as [r|].
    + destruct IH as (j & E & Lr & Cj & Q). exists j. split; [exact E|]. split; [lia|]. auto.
    + intros j Hj. apply IH. lia.
Qed.
Lemma late_string clk t n : n < 2 ^ 64 -> reached clk t (readings_string n) -> exists j, first_over clk t j /\ N.of_nat j < readings_string n /\
  late clk t (N.to_nat (n - 1)) 1 0 = Some (1000 * (N.of_nat j + 1)).
Proof.
  intros L (T & k & Hk & Ck). unfold readings_string in *. pose proof (late_spec clk t T (N.to_nat (n - 1)) 1 0%nat ltac:(lia)) as S.
  destruct (late clk t (N.to_nat (n - 1)) 1 0) as [r|].
  - destruct S as (j & E & Lr & Cj & Q). exists j. split; [split; [exact T|split; [exact Cj|exact Q]]|]. split; [lia|]. f_equal. lia.
  - specialize (S k ltac:(lia)). cbn in S. lia.
Qed.
Lemma late_bytes clk t n : n < 2 ^ 64 -> reached clk t (readings_bytes n) -> exists j, first_over clk t j /\ N.of_nat j < readings_bytes n /\
  late clk t (N.to_nat n) 0 0 = Some (1000 * N.of_nat j).
Proof.
  intros L (T & k & Hk & Ck). unfold readings_bytes in *. pose proof (late_spec clk t T (N.to_nat n) 0 0%nat ltac:(lia)) as S.
  destruct (late clk t (N.to_nat n) 0 0) as [r|].
  - destruct S as (j & E & Lr & Cj & Q). exists j. split; [split; [exact T|split; [exact Cj|exact Q]]|]. split; [lia|]. f_equal. lia.
  - specialize (S k ltac:(lia)). cbn in S. lia.
Qed.

Lemma chain_of_shape c x : chain_of c = Some x -> ch_val c = true /\ ch_mode c = Some (fst (fst x)) /\ ch_iters c = iters_of x.
Proof.
  unfold chain_of. destruct (ch_val c); [|discriminate]. destruct (ch_mode c); [|discriminate]. destruct (ch_data c); [|discriminate]. intro Q. injection Q as <-. auto.
Qed.
Lemma chain_limits c x : ch_inv c -> chain_of c = Some x -> 1 <= fst (fst x) <= 5 /\ iters_of x < 2 ^ 64.
Proof.
  intros Hc E. pose proof (chain_of_val _ _ E) as V. destruct (usable_rep c Hc V) as (mode & d & ps & E1 & E2 & H1 & Hr & Hl & Hi).
  unfold chain_of in E. rewrite V, E1, E2 in E. injection E as <-. cbn. split; [exact H1|]. unfold iters_of. cbn. lia.
Qed.
Lemma sites_s m : 1 <= m <= 5 -> nth_error [51; 70; 90; 112; 133] (N.to_nat m - 1) = Some (timeout_site_s m).
Proof. intros Hm. pattern m. apply modes5; [exact Hm|..]; reflexivity. Qed.
Lemma sites_b m : 1 <= m <= 5 -> nth_error [150; 169; 189; 209; 229] (N.to_nat m - 1) = Some (timeout_site_b m).
Proof. intros Hm. pattern m. apply modes5; [exact Hm|..]; reflexivity. Qed.
Lemma perform_sl c x h clk pw t : ch_inv c -> chain_of c = Some x -> hash_ok h ->
  (reached clk t (readings_string (iters_of x)) -> exists l, gave_up1 clk x t l /\ performChainHash_sl h clk c pw t = ([hashing 97 x t; l], Ret TimedOut)) /\
  (~ reached clk t (readings_string (iters_of x)) -> exists b, performChainHash_sl h clk c pw t = ([hashing 97 x t], Ret (Done b)) /\ performChainHash_s h clk c pw t = Ret (Done b) /\
     bdata b = chain_value (hfun h) x pw /\ getLen b = hsize h /\ hsize h <= bmax b <= 530).
Proof.
  intros Hc E Hh. destruct (perform_s c x h clk pw t Hc E Hh) as [A B]. destruct (chain_of_shape _ _ E) as (V & M & I). destruct (chain_limits _ _ Hc E) as [Hm Hi].
  unfold performChainHash_sl, perform_lines, ch_getMode. rewrite V, M. cbn [negb]. split.
  - intros R. destruct (late_string clk t _ Hi R) as (j & F & Lj & El). rewrite (A R). rewrite I, El. eexists. split; [|reflexivity].
    exists j, (timeout_site_s (fst (fst x))). split; [exact F|]. split; [exact Lj|]. split; [apply sites_s, Hm|reflexivity].
  - intros R. destruct (B R) as (b & Eb & Q). rewrite Eb, I. exists b. split; [reflexivity|]. split; [reflexivity|exact Q].
Qed.
Lemma perform_bl c x h clk data t : ch_inv c -> chain_of c = Some x -> hash_ok h -> getLen data <= bmax data -> bmax data <= 530 ->
  (reached clk t (readings_bytes (iters_of x)) -> exists l, gave_up2 clk x t l /\ performChainHash_bl h clk c data t = ([hashing 63 x t; l], Ret TimedOut)) /\
  (~ reached clk t (readings_bytes (iters_of x)) -> exists b, performChainHash_bl h clk c data t = ([hashing 63 x t], Ret (Done b)) /\ performChainHash_b h clk c data t = Ret (Done b)).
Proof.
  intros Hc E Hh L1 L2. destruct (perform_b c x h clk data t Hc E Hh L1 L2) as [A B]. destruct (chain_of_shape _ _ E) as (V & M & I). destruct (chain_limits _ _ Hc E) as [Hm Hi].
  unfold performChainHash_bl, perform_lines, ch_getMode. rewrite V, M. cbn [negb]. split.
  - intros R. destruct (late_bytes clk t _ Hi R) as (j & F & Lj & El). rewrite (A R). rewrite I, El. eexists. split; [|reflexivity].
    exists j, (timeout_site_b (fst (fst x))). split; [exact F|]. split; [exact Lj|]. split; [apply sites_b, Hm|reflexivity].
  - intros R. destruct (B R) as (b & Eb & Q). rewrite Eb, I. exists b. split; reflexivity.
Qed.

Section Hashing.
  Variable H : hashes.
  Hypothesis HH : hashes_ok H.
  Lemma check_failed w d h pw t ls e : w_hashes w = H -> w_elapsed w < 2 ^ 64 -> t < 2 ^ 64 -> holds d h -> checkPassword_l w d pw t = (ls, Ret (inl e)) ->
    unverified w t h (failed (e_code e)) (api_h 387 [Num t] :: api_cpp SVerbose 437 [Num t] :: ls).
  Proof using HH.
    intros EH Le Lt Hd E. pose proof (holds_parts d h Hd) as P. destruct Hd as [I C].
    destruct (contents_parts d h C) as (v & s & Ef & Eh & E1 & E2 & Ev & Bv & Es & Bs & Eb & Ee).
    destruct (hash_mode_ok H (h_hmode h) HH (i_range _ _ I)) as (hf & Hg & Hh & Hf).
    assert (getDataHeaderParts_l d = ([], Ret (d_parts d))) as P2.
    { unfold getDataHeaderParts_l. unfold getDataHeaderParts in P |- *. destruct (d_isComplete d); [reflexivity|discriminate P]. }
    assert (getHash_l (w_hashes w) (h_hmode h) = ([lookup (h_hmode h)], Ret hf)) as G2.
    { destruct (getHash_l (w_hashes w) (h_hmode h)) as [l x] eqn:G. assert (x = Ret hf) as -> by (apply (f_equal snd) in G; cbn [snd] in G; rewrite <- G, EH; exact Hg).
      rewrite (getHash_log _ _ _ _ G). reflexivity. }
    unfold checkPassword_l, p_getHashMode in E. rewrite P2 in E. cbn [lift_l bindr bindl fst snd bind app] in E. rewrite Eh in E. cbn [lift_l bindr bindl fst snd bind app trouble low_lines] in E. rewrite G2 in E.
    cbn [lift_l bindr bindl fst snd bind app] in E.
    destruct (perform_sl _ _ hf (w_clk1 w) pw t (i_ch1 _ _ I) E1 Hh) as [A1 A2].
    destruct (reached_dec (w_clk1 w) t (readings_string (iters_of (h_ch1 h)))) as [R1|R1].
    { destruct (A1 R1) as (l & Gl & Ep). rewrite Ep in E. cbn [lift_l bindr bindl fst snd bind app err] in E. injection E as <- <-. left. exists l. split; [exact Gl|reflexivity]. }
    destruct (A2 R1) as (k & Ek & _ & Bk & Lk & Ck). rewrite Ek in E. cbn [lift_l bindr bindl fst snd bind app] in E. cbv zeta in E.
    rewrite sub64_mod in E by assumption. rewrite sub64_zero in E by assumption. destruct (N.eqb_spec t 0) as [T0|T0]; cbn [negb andb] in E.
    2: destruct (N.eqb_spec t (w_elapsed w)) as [T1|T1].
    2: { cbn in E. injection E as <- <-. right. left. split; [exact T0|]. split; [congruence|reflexivity]. }
    all: destruct (perform_bl _ _ hf (w_clk2 w) k ((t + 2 ^ 64 - w_elapsed w) mod 2 ^ 64) (i_ch2 _ _ I) E2 Hh ltac:(lia) ltac:(lia)) as [B1 B2].
    all: destruct (reached_dec (w_clk2 w) ((t + 2 ^ 64 - w_elapsed w) mod 2 ^ 64) (readings_bytes (iters_of (h_ch2 h)))) as [R2|R2];
      [destruct (B1 R2) as (l & Gl & Ep); rewrite Ep in E; cbn [lift_l bindr bindl fst snd bind app err] in E; injection E as <- <-; right; right; exists l; split; [exact Gl|reflexivity]|].
    all: destruct (B2 R2) as (v2 & Ev2 & _); rewrite Ev2 in E; cbn [lift_l bindr bindl fst snd bind app] in E; unfold p_getValid in E; rewrite Ev in E;
      cbn [trouble low_lines lift_l bindr bindl fst snd bind app] in E; destruct (eqBytes v2 (copyBytes v)); cbn [err fst snd app] in E; [discriminate E|].
    all: injection E as <- <-; reflexivity.
  Qed.
  Lemma check_returns w d h pw t : w_hashes w = H -> w_elapsed w < 2 ^ 64 -> t < 2 ^ 64 -> holds d h -> exists r, snd (checkPassword_l w d pw t) = Ret r.
  Proof using HH.
    intros EH Le Lt Hd. pose proof (check_erase w d pw t) as Er. destruct (check_password H HH w d h pw t EH Le Lt Hd) as [A B].
    assert (exists r, checkPassword w d pw t = Ret r) as (r & E).
    { assert (verify_in_time w t (iters_of (h_ch1 h)) (iters_of (h_ch2 h)) \/ ~ verify_in_time w t (iters_of (h_ch1 h)) (iters_of (h_ch2 h))) as [T|T].
      { unfold verify_in_time. destruct (reached_dec (w_clk1 w) t (readings_string (iters_of (h_ch1 h)))); [right; tauto|].
        destruct (N.eq_dec t 0); destruct (N.eq_dec (w_elapsed w) t);
        destruct (reached_dec (w_clk2 w) ((t + 2 ^ 64 - w_elapsed w) mod 2 ^ 64) (readings_bytes (iters_of (h_ch2 h)))); tauto. }
      - destruct (B T) as [B1 B2]. assert (opens H h pw \/ ~ opens H h pw) as [O|O].
        { unfold opens. destruct (list_eq_dec Byte.byte_eq_dec (h_valid h) (validator H h (key_of H h pw))); auto. }
        + destruct (B1 O) as (k & -> & Bk). eexists. reflexivity.
        + rewrite (B2 O). eexists. reflexivity.
      - rewrite (A T). eexists. reflexivity. }
    rewrite E in Er. unfold erase in Er. destruct (snd (checkPassword_l w d pw t)) as [x| | |]; cbn in Er; try discriminate Er. eauto.
  Qed.

  (** ** createDataHeader *)
  Lemma iters_failed w pw ds t ls e : w_hashes w = H -> (forall i k, lenN (w_rnd w i k) = k) -> w_elapsed w < 2 ^ 64 -> t < 2 ^ 64 -> settings_made ds -> set_isComplete ds = true ->
    createHeaderIters_l w 1 pw ds t = (ls, Ret (inl e)) -> e_code e = ERR_TIMEOUT -> forall s, s = EMPTY_FILE_SELECTED \/ s = DECRYPTED ->
    out_of_time w s ds t (api_h 400 [Num t; opt_num (s_n1 ds); opt_num (s_n2 ds)] :: match s with DECRYPTED => [api_cpp SVerbose 654 (set_fields ds ++ [Num t])] | _ => [] end ++
      ls ++ [api_cpp SError (match s with DECRYPTED => 659 | _ => 509 end) (shown_s e)]).
  Proof using HH.
    intros EH R Le Lt64 SM SC E Et st Hst. destruct (settings_in_range ds SM SC) as (hm & m1 & m2 & n1 & n2 & F0 & F1 & F2 & F3 & F4 & F5 & R1 & R2 & R3 & R4 & R5).
    pose proof SM as SM0. pose proof E as E0. destruct SM as (_ & BM & EM).
    pose proof (new_chains_eq w ds m1 n1 m2 n2 R F2 F4 F3 F5 R2 R4 R3 R5) as NC.
    set (x1 := new_chain_of w 0 m1 n1) in *. set (x2 := new_chain_of w 1 m2 n2) in *.
    assert (chain_ok x1) as K1 by (apply new_chain_of_ok; assumption). assert (chain_ok x2) as K2 by (apply new_chain_of_ok; assumption).
    destruct (hash_mode_ok H hm HH R1) as (hf & Hg & Hh & Hf). pose proof (getHash_size _ _ _ Hg) as [Hs _].
    assert (newChains_l w ds = ([], Ret (to_ch x1, to_ch x2))) as NL.
    { pose proof (newChains_erase w ds) as Er. rewrite NC in Er. destruct (newChains_l w ds) as [l y] eqn:L. cbn [snd] in Er. subst y.
      destruct (newChains_log _ _ _ _ _ L eq_refl eq_refl) as [-> _]. reflexivity. }
    assert (getHash_l (w_hashes w) hm = ([lookup hm], Ret hf)) as G2.
    { destruct (getHash_l (w_hashes w) hm) as [l x] eqn:G. assert (x = Ret hf) as -> by (apply (f_equal snd) in G; cbn [snd] in G; rewrite <- G, EH; exact Hg).
      rewrite (getHash_log _ _ _ _ G). reflexivity. }
    unfold createHeaderIters_l in E. apply noexcept_l_inv in E. rewrite SC, F0 in E. cbn [negb set_get trouble low_lines say lift_l bindr bindl fst snd bind app N.eqb Pos.eqb] in E.
    rewrite NL in E. cbn [try_l lift_l bindr bindl fst snd bind app trouble low_lines p_setFileDataMode file_mode_valid N.leb N.compare Pos.compare Pos.compare_cont andb p_hmode p_fmode p_valid p_salt p_dec p_enc p_ch1 p_ch2] in E.
    rewrite F1 in E. unfold p_setHashMode_l, p_setHashMode in E. cbn [set_get trouble low_lines lift_l bindr bindl fst snd bind app] in E. rewrite (proj2 (hash_mode_valid_spec hm) R1) in E.
    cbn [lift_l bindr bindl fst snd bind app p_hmode p_fmode p_valid p_salt p_dec p_enc p_ch1 p_ch2] in E. rewrite G2 in E. cbn [lift_l bindr bindl fst snd bind app p_ch1 p_ch2] in E.
    exists hm, m1, n1, m2, n2. split; [exact F1|]. split; [exact F2|]. split; [exact F4|]. split; [exact F3|]. split; [exact F5|]. cbv zeta. rewrite F4, F5.
    destruct (perform_sl _ _ hf (w_clk1 w) pw t (to_ch_inv _ K1) (chain_of_to_ch x1) Hh) as [A1 A2]. change (iters_of x1) with n1 in *.
    destruct (reached_dec (w_clk1 w) t (readings_string n1)) as [Q1|Q1].
    { destruct (A1 Q1) as (l & Gl & Ep). rewrite Ep in E. cbn [lift_l bindr bindl fst snd bind app err] in E. injection E as <- <-. left. exists l. split; [exact Gl|]. destruct Hst as [-> | ->]; reflexivity. }
    destruct (A2 Q1) as (k & Ek & _ & Bk & Lk & Ck). rewrite Ek in E. cbn [lift_l bindr bindl fst snd bind app] in E.
    unfold w64 in E. change two64 with (2 ^ 64) in E. rewrite (N.mod_small (w_elapsed w)) in E by exact Le.
    destruct (andb (negb (t =? 0)) (t <=? w_elapsed w)) eqn:Tz.
    { apply andb_true_iff in Tz as [T0 T1]. apply negb_true_iff in T0. rewrite T0, T1 in E. cbn [err bindr bindl fst snd app] in E. injection E as <- <-. right. left.
      apply N.eqb_neq in T0. apply N.leb_le in T1. split; [exact T0|]. split; [exact T1|]. destruct Hst as [-> | ->]; reflexivity. }
    assert ((if t =? 0 then ok 0 else if t <=? w_elapsed w then err [api_line SError 98 []] timed_out else ok (sub64 t (w_elapsed w))) = ok (t - w_elapsed w)) as ET.
    { destruct (N.eqb_spec t 0) as [T0|T0]; [subst t; reflexivity|]. cbn [negb andb] in Tz. rewrite Tz. apply N.leb_gt in Tz. rewrite sub64_le; [reflexivity| |]; change two64 with (2 ^ 64); lia. }
    rewrite ET in E. cbn [ok lift_l bindr bindl fst snd bind app] in E.
    destruct (perform_bl _ _ hf (w_clk2 w) k (t - w_elapsed w) (to_ch_inv _ K2) (chain_of_to_ch x2) Hh ltac:(lia) ltac:(lia)) as [B1 B2]. change (iters_of x2) with n2 in *.
    destruct (reached_dec (w_clk2 w) (t - w_elapsed w) (readings_bytes n2)) as [Q2|Q2].
    { destruct (B1 Q2) as (l & Gl & Ep). rewrite Ep in E. cbn [lift_l bindr bindl fst snd bind app err] in E. injection E as <- <-. right. right. exists l. split; [exact Gl|]. destruct Hst as [-> | ->]; reflexivity. }
    exfalso. assert (create_in_time w t n1 n2) as IT.
    { split; [exact Q1|]. split; [|exact Q2]. intros T0. apply N.eqb_neq in T0. rewrite T0 in Tz. cbn [negb andb] in Tz. apply N.leb_gt in Tz. exact Tz. }
    pose proof (createIters_erase w 1 pw ds t) as Er. rewrite E0 in Er. unfold erase in Er. cbn [snd bind] in Er. rewrite Et in Er.
    destruct (create_header H HH w pw ds t EH R Le Lt64 SM0 SC) as (i1 & i2 & I1 & I2 & _ & C2). rewrite F4 in I1. rewrite F5 in I2. injection I1 as <-. injection I2 as <-.
    destruct (C2 IT) as [D1 D2].
    assert ((lenN (s_dec ds) <= 255 /\ lenN (s_enc ds) <= 255) \/ ~ (lenN (s_dec ds) <= 255 /\ lenN (s_enc ds) <= 255)) as [[L1 L2]|L] by lia.
    - destruct (D2 L1 L2) as (d & k' & h & X & _). rewrite X in Er. discriminate Er.
    - rewrite (D1 L) in Er. discriminate Er.
  Qed.

  Variable bd : build.
  Theorem unverified_log mode tr a w f q t f' a' r : history bd H mode tr a -> world_ok bd H w -> t < 2 ^ 64 -> a_state a = FILE_SELECTED ->
    step w a f (OVerify q t) = (f', Ret (a', r)) -> succeeded r = false ->
    exists h, current H tr h /\ unverified w t h r (lines_of w a f (OVerify q t)).
  Proof using HH.
    intros Hh W Lt Es E S. pose proof (history_inv _ HH _ _ _ _ Hh) as [Em I]. pose proof W as (Wb & WH & WR & We). rewrite Es in I.
    destruct I as (p & c & hsz & l1 & l2 & h & rest & Q1 & Q2 & Q3 & Q4 & C & Wr & L1 & L2 & Ea).
    pose proof (lt63_two64 _ L2) as L3. assert (holds (decoded (lenN c) h) h) as Hd by (split; [apply decoded_hinv|apply decoded_contents]; try apply Wr; exact L3).
    exists h. split; [exact C|]. cbn [step lines_of] in *. rewrite Es in *. injection E as _ E. rewrite <- verify_erase in E.
    unfold verifyPassword_l in *. rewrite Ea in *. cbn [a_dh ptr silent say bindl fst snd app noexcept_l] in *.
    destruct (check_returns w _ h q t WH We Lt Hd) as (x & Ex).
    destruct (checkPassword_l w (decoded (lenN c) h) q t) as [ls y] eqn:L. cbn [snd] in Ex. subst y. cbn [catch_l fst snd bindl app] in *.
    destruct x as [e|k]; cbn [silent bindl fst snd app noexcept] in *.
    - injection E as _ <-. rewrite app_nil_r. apply (check_failed w _ h q t ls e WH We Lt Hd L).
    - injection E as _ <-. discriminate S.
  Qed.

  Theorem out_of_time_log mode tr a w f pw ds t f' a' : history bd H mode tr a -> world_ok bd H w -> op_ok (OHeader pw ds t) ->
    step w a f (OHeader pw ds t) = (f', Ret (a', RErr TIMEOUT ERR_TIMEOUT)) -> out_of_time w (a_state a) ds t (lines_of w a f (OHeader pw ds t)).
  Proof using HH.
    intros Hh W [Sm Lt] E. pose proof (history_inv _ HH _ _ _ _ Hh) as [Em _]. pose proof W as (Wb & WH & WR & We). cbn [step lines_of] in *.
    destruct (set_isComplete ds) eqn:Sc; cbn [negb] in *; [|discriminate E].
    pose proof (createIters_erase w (a_mode a) pw ds t) as Er. rewrite Em in *.
    destruct (createHeaderIters_l w 1 pw ds t) as [ls x] eqn:L. unfold erase in Er. cbn [snd] in Er.
    destruct (a_state a) eqn:Es; try discriminate E; injection E as _ E; rewrite <- Er in E;
      (destruct x as [[e|[d k]]|e|c|]; cbn in E; try discriminate E); injection E as _ E;
      assert (e_code e = ERR_TIMEOUT) as Ec by (unfold failed in E; destruct (e_code e); try discriminate E; reflexivity).
    - pose proof (iters_failed w pw ds t ls e WH WR We Lt Sm Sc L Ec EMPTY_FILE_SELECTED (or_introl eq_refl)) as X.
      unfold headerEmpty_l, onerr. cbn [fst snd bindl silent app]. cbn [app] in X. rewrite app_nil_r. exact X.
    - pose proof (iters_failed w pw ds t ls e WH WR We Lt Sm Sc L Ec DECRYPTED (or_intror eq_refl)) as X.
      unfold headerDecrypted_l, onerr. cbn [fst snd bindl silent app]. cbn [app] in X. rewrite app_nil_r. exact X.
  Qed.
End Hashing.
