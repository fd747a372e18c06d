From Verif Require Import Base BaseFacts BytesModel BytesSpec BytesFacts CipherModel CipherSpec CipherFacts PwModel PwSpec ChModel ChSpec HeaderModel HeaderSpec FileModel ApiModel ApiSpec WorkModel WorkSpec.
From Verif Require Import CworkSpec CworkFacts4 LeakSpec LeakFacts SecSpec QuerySpec QueryFacts QueryFacts2 QueryFacts3 QueryFacts4 QueryFacts5.
Open Scope N_scope.
Open Scope list_scope.

Lemma cut_whole n fuel : forall l, 0 < n -> (length l <= fuel)%nat -> concat (CipherSpec.cut n fuel l) = l /\ Forall (fun p => lenN p <= n) (CipherSpec.cut n fuel l) /\ (length (CipherSpec.cut n fuel l) <= length l)%nat.
Proof.
  induction fuel as [|f IH]; intros l Pn L.
  - destruct l; [|cbn [length] in L; lia]. cbn. repeat split; [constructor|lia].
  - destruct l as [|b l]; [cbn; repeat split; [constructor|lia]|]. change (CipherSpec.cut n (S f) (b :: l)) with (takeN n (b :: l) :: CipherSpec.cut n f (dropN n (b :: l))).
    assert (length (dropN n (b :: l)) <= length l)%nat as Ld.
    { pose proof (lenN_dropN n (b :: l)) as E. rewrite lenN_cons in E. unfold lenN in E. lia. }
    destruct (IH (dropN n (b :: l)) Pn ltac:(cbn [length] in L; lia)) as (I1 & I2 & I3). cbn [concat]. rewrite I1. split; [apply takeN_dropN|]. split.
    + constructor; [rewrite lenN_takeN; lia|exact I2].
    + cbn [length]. lia.
Qed.
Lemma blocks_whole n l : 0 < n -> concat (blocks n l) = l /\ Forall (fun p => lenN p <= n) (blocks n l) /\ lenN (blocks n l) <= lenN l.
Proof. intros Pn. unfold blocks. destruct (cut_whole n (length l) l Pn (Nat.le_refl _)) as (A & B & C). split; [exact A|]. split; [exact B|]. unfold lenN. lia. Qed.

Lemma still_possible h : header_ok h -> h_salt h <> zeros h \/ salt_at (salts (h_ch2 h)) 0 <> [] ->
  forall H, hashes_ok H -> forall Q pw data body, lenN Q < 2 ^ 200 -> lenN data < 2 ^ 64 -> lenN body = lenN data ->
  (exists t, In t (first_texts H h pw) /\ ~ In t Q /\ ~ In t (blocks (digest_len (h_hmode h)) data)) ->
  (forall b, In b (removelast (blocks (digest_len (h_hmode h)) data)) -> hash_of H (h_hmode h) b <> zeros h) ->
  exists H', hashes_ok H' /\ (forall x, In x Q -> hash_of H' (h_hmode h) x = hash_of H (h_hmode h) x) /\ sealed H' h pw data (ser (hdr_len h + lenN data) h ++ body).
Proof.
  intros Hh Salt H HH Q pw data body LQ Ldata Lbody Ms Zb.
  pose proof (mode_ok h Hh) as M. pose proof (counts h Hh) as (C1 & C2).
  set (D := hash_of H (h_hmode h)) in *. set (dn := digest_len (h_hmode h)) in *. set (d := N.to_nat dn).
  assert (N.of_nat d = dn) as Ed by apply N2Nat.id.
  assert (0 < dn) as Pd by (unfold dn; assert (h_hmode h = 1 \/ h_hmode h = 2 \/ h_hmode h = 3) as [->|[->| ->]] by lia; reflexivity).
  assert (lenN (h_salt h) = N.of_nat d) as Lsalt by (rewrite Ed; apply Hh).
  assert (lenN (h_valid h) = N.of_nat d) as Lvalid by (rewrite Ed; apply Hh).
  assert (lenN (zeros h) = N.of_nat d) as Lzero by (unfold zeros, lenN; rewrite repeat_length; reflexivity).
  set (n1 := N.to_nat (iterations (h_ch1 h))). set (n2 := N.to_nat (iterations (h_ch2 h))).
  set (m2 := salts (h_ch2 h)) in *. set (s2 := fun j => salt_at m2 (N.of_nat j)).
  assert (sized d D) as SD by (intros x; rewrite Ed; apply hash_len; assumption).
  destruct (blocks_whole dn data Pd) as (Bc & Bl & Bn).
  set (ps := blocks dn data) in *. pose (B0 := Q ++ ps).
  assert (lenN B0 <= 2 ^ 200 + 2 ^ 64) as LB0 by (unfold B0; rewrite lenN_app; lia).
  assert (2 ^ 200 * 8 < 256 ^ N.of_nat d) as Big.
  { apply N.lt_le_trans with (256 ^ 32); [vm_compute; reflexivity|]. apply N.pow_le_mono_r; [lia|].
    destruct (d_cases h Hh) as [X|[X|X]]; unfold d, dn; rewrite X; lia. }
  assert (2 ^ 64 + 10000000000 < 2 ^ 200 / 64) as B64 by (vm_compute; reflexivity).
  assert (64 * (2 ^ 200 / 64) <= 2 ^ 200) as B200 by (vm_compute; discriminate).
  remember (2 ^ 200 / 64) as wq eqn:Eq. remember (2 ^ 200) as w200 eqn:E200. remember (2 ^ 64) as w64 eqn:E64. clear Eq E200 E64.
  assert (zeros h = repeat x00 d) as Ez by reflexivity.
  clear Pd. clearbody d.
  (* the first text of the chain that was not asked for *)
  destruct (first_missing (all_salts h) D pw B0 n1) as (i & Li & Ni & Bi).
  { destruct Ms as (t & I1 & I2 & I3). rewrite (first_is h H pw) in I1. apply in_map_iff in I1. destruct I1 as (j & <- & I1). apply in_seq in I1.
    exists j. split; [unfold n1; lia|]. unfold B0. rewrite in_app_iff. intros [X|X]; contradiction. }
  set (x := val (all_salts h) D pw i). set (s' := fun j => all_salts h (i + j)).
  assert (x ++ s' 0%nat = text (all_salts h) D pw i) as Ex by (unfold x, s', text; rewrite Nat.add_0_r; reflexivity).
  (* the key *)
  destruct (fresh_two d (fun y => y ++ s2 0%nat) (fun y => bsum (bsum y (h_salt h)) (zeros h)) ((x ++ s' 0%nat) :: B0)) as (key & Lkey & Fa & Fb).
  { intros y y' _ _ E. apply app_inv_tail in E. exact E. }
  { intros y y' Ly Ly' E. apply bsum_inj in E; [|rewrite lenN_bsum; lia|rewrite lenN_bsum; lia]. apply bsum_inj in E; [exact E|lia|lia]. }
  { rewrite lenN_cons. lia. }
  set (T1 := bsum (bsum key (h_salt h)) (zeros h)) in *.
  (* the first chain hash leads to the key *)
  destruct (lead d s' key Lkey (n1 - i) x D B0 [key ++ s2 0%nat; T1]) as (D1 & B1 & S1 & A1 & I1 & V1 & L1 & E1 & K1).
  { lia. }
  { exact SD. }
  { rewrite Ex. exact Ni. }
  { intros [X|[X|[]]]; [apply Fa; left; symmetry; exact X|apply Fb; left; symmetry; exact X]. }
  { rewrite !lenN_cons, lenN_nil. unfold n1. lia. }
  assert (~ In (key ++ s2 0%nat) B1) as Na by (apply V1; [left; reflexivity|intros X; apply Fa; right; exact X]).
  assert (~ In T1 B1) as Nb by (apply V1; [right; left; reflexivity|intros X; apply Fb; right; exact X]).
  assert (forall j, (j <= i)%nat -> val (all_salts h) D1 pw j = val (all_salts h) D pw j) as Pre.
  { apply text_agree. intros j Lj. apply A1, Bi. exact Lj. }
  assert (forall j, val (all_salts h) D1 pw (i + j) = val s' D1 x j) as Sh.
  { intros j. induction j as [|j IHj].
    - replace (i + 0)%nat with i by (symmetry; apply Nat.add_0_r).
      exact (Pre i (Nat.le_refl i)).
    - replace (i + S j)%nat with (S (i + j)) by (symmetry; apply Nat.add_succ_r).
      cbn [val]. rewrite IHj. reflexivity. }
  assert (val (all_salts h) D1 pw n1 = key) as Key1 by (replace n1 with (i + (n1 - i))%nat by lia; rewrite Sh; exact E1).
  assert (chain_in (all_salts h) D1 pw n1 B1) as Ch1.
  { intros j Lj. destruct (Nat.lt_ge_cases j i) as [X|X].
    - unfold text. rewrite Pre by lia. apply I1, Bi. exact X.
    - replace j with (i + (j - i))%nat by lia. unfold text. rewrite Sh. apply (K1 (j - i)%nat). lia. }
  (* the second one to the validator *)
  destruct (lead d s2 (h_valid h) Lvalid n2 key D1 B1 [T1]) as (D2 & B2 & S2 & A2 & I2 & V2 & L2 & E2 & K2).
  { unfold n2. lia. }
  { exact S1. }
  { exact Na. }
  { intros [X|[]]. destruct (list_eq_dec Byte.byte_eq_dec (s2 0%nat) []) as [Z|Z].
    - rewrite Z, app_nil_r in X. unfold T1 in X. rewrite (zero_add h) in X by (rewrite lenN_bsum; fold dn; lia).
      destruct Salt as [Y|Y]; [|contradiction]. revert X. apply (bsum_zero_ne d); [exact Lkey|exact Lsalt|rewrite <- Ez; exact Y].
    - apply (f_equal lenN) in X. unfold T1 in X. rewrite !lenN_bsum, lenN_app in X. destruct (s2 0%nat); [contradiction Z; reflexivity|]. rewrite lenN_cons in X. lia. }
  { rewrite lenN_cons, lenN_nil. unfold n1, n2 in *. lia. }
  assert (~ In T1 B2) as Nb2 by (apply V2; [left; reflexivity|exact Nb]).
  (* and the pads to the encrypted data *)
  destruct (lead_pads d ps body (kstart dn key (h_salt h)) D2 B2) as (D3 & S3 & A3 & E3).
  { rewrite Bc. exact Lbody. }
  { rewrite Ed. exact Bl. }
  { unfold kstart. repeat split; [exact Lkey|exact Lsalt|exact Lzero]. }
  { exact S2. }
  { exact Nb2. }
  { intros b Ib. assert (In b ps) as Ib' by (clear - Ib; induction ps as [|q [|q' r] IH]; [contradiction|contradiction|]; cbn [removelast] in Ib; destruct Ib as [->|Ib]; [left; reflexivity|right; apply IH; exact Ib]).
    assert (In b B0) as IB0 by (unfold B0; apply in_app_iff; right; exact Ib').
    split; [apply I2, I1, IB0|]. rewrite (A2 b) by (apply I1, IB0). rewrite (A1 b IB0), <- Ez. apply Zb. exact Ib. }
  { unfold n1, n2 in *. lia. }
  exists (with_hash (h_hmode h) D3 H).
  assert (hash_of (with_hash (h_hmode h) D3 H) (h_hmode h) = D3) as W by (apply with_hash_of; exact M).
  assert (key_of (with_hash (h_hmode h) D3 H) h pw = key) as Key3.
  { rewrite <- (val_key h Hh), W. fold n1. rewrite <- Key1. rewrite <- (chain_same _ _ D2 _ _ _ Ch1 A2 n1) by lia.
    apply (chain_same (all_salts h) D2 D3 pw n1 B2); [|exact A3|lia].
    intros j Lj. unfold text. rewrite (chain_same _ _ D2 _ _ _ Ch1 A2 j) by lia. apply I2, Ch1. exact Lj. }
  split; [|split; [|split; [exact Hh|split]]].
  - apply with_hash_ok; [exact M|exact HH|]. intros y. rewrite (S3 y). exact Ed.
  - rewrite W. intros y Iy. assert (In y B0) as Iy0 by (unfold B0; apply in_app_iff; left; exact Iy).
    rewrite (A3 y) by (apply I2, I1, Iy0). rewrite (A2 y) by (apply I1, Iy0). apply A1. exact Iy0.
  - unfold opens. rewrite Key3. unfold validator, chain_value. rewrite W. fold m2.
    replace (N.to_nat (snd (fst (h_ch2 h)) - 1)) with (n2 - 1)%nat by (unfold n2, iterations; lia).
    change (described (fst (fst (h_ch2 h))) (snd (h_ch2 h))) with m2.
    rewrite <- rounds_value. replace (S (n2 - 1)) with n2 by (unfold n2; lia). rewrite rounds_val. cbn [snd]. fold s2.
    symmetry. rewrite <- E2. apply (chain_same s2 D2 D3 key n2 B2 K2 A3). lia.
  - f_equal. unfold cipher_of, spec_enc. rewrite Key3, W. fold dn. fold ps. symmetry. exact E3.
Qed.
Lemma program_blind h : header_ok h -> h_salt h <> zeros h \/ salt_at (salts (h_ch2 h)) 0 <> [] ->
  forall (A : Type) (p : program A) H, hashes_ok H -> lenN (asked (hash_of H (h_hmode h)) p) < 2 ^ 200 ->
  forall pw data body, lenN data < 2 ^ 64 -> lenN body = lenN data ->
  (exists t, In t (first_texts H h pw) /\ ~ In t (asked (hash_of H (h_hmode h)) p) /\ ~ In t (blocks (digest_len (h_hmode h)) data)) ->
  (forall b, In b (removelast (blocks (digest_len (h_hmode h)) data)) -> hash_of H (h_hmode h) b <> zeros h) ->
  exists H', hashes_ok H' /\ answer (hash_of H' (h_hmode h)) p = answer (hash_of H (h_hmode h)) p /\
    sealed H' h pw data (ser (hdr_len h + lenN data) h ++ body).
Proof.
  intros Hh Salt A p H HH LQ pw data body Ld Lb Ms Zb.
  destruct (still_possible h Hh Salt H HH (asked (hash_of H (h_hmode h)) p) pw data body LQ Ld Lb Ms Zb) as (H' & HH' & Ag & Se).
  exists H'. split; [exact HH'|]. split; [apply asked_same; exact Ag|exact Se].
Qed.
Lemma all_differ (f : bytes -> bytes) z l : map (fun b => if list_eq_dec Byte.byte_eq_dec (f b) z then true else false) l = repeat false (length l) -> forall b, In b l -> f b <> z.
Proof.
  induction l as [|x l IH]; intros El b I; [contradiction|]. cbn [map length repeat] in El. destruct (list_eq_dec Byte.byte_eq_dec (f x) z) as [|X]; [discriminate El|].
  injection El as El. destruct I as [<-|I]; [exact X|apply IH; assumption].
Qed.
