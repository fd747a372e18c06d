(** What the functions behind createDataHeader, verifyPassword and changeSalt do with a header. *)
From Coq Require Import Strings.Byte.
From Verif Require Import Base BaseFacts BytesModel BytesFacts MiscModel MiscFacts CipherModel CipherSpec CipherFacts PwModel PwSpec PwFacts ChModel ChSpec ChFacts ChFacts2
  HeaderModel HeaderSpec HeaderFacts HeaderFacts2 HeaderFacts3 HeaderFacts4 HeaderFacts5 HeaderFacts8 HeaderFacts9 FileModel ApiModel ApiSpec ApiFacts ApiFacts2.

Definition holds (d : dheader) (h : header) : Prop := hinv (h_hmode h) d /\ contents d = Some h.
Lemma holds_ok d h : holds d h -> header_ok h.
Proof. intros [I C]. apply (contents_ok _ _ _ I C). Qed.
Lemma holds_parts d h : holds d h -> getDataHeaderParts d = Ret (d_parts d).
Proof. intros [I C]. unfold getDataHeaderParts. rewrite (proj2 (complete_contents _ _ I)); eauto. Qed.
Lemma holds_good d h : holds d h -> exists v s, pgood (h_hmode h) (d_parts d) v s /\ bdata v = h_valid h /\ bdata s = h_salt h /\
  lenN (p_dec (d_parts d)) <= 255 /\ lenN (p_enc (d_parts d)) <= 255.
Proof.
  intros [I C]. destruct (contents_parts d h C) as (v & s & Ef & Eh & E1 & E2 & Ev & Bv & Es & Bs & Eb & Ee).
  exists v, s. destruct (i_salt _ _ I) as (s' & Es' & Ls). assert (s' = s) by congruence. subst s'. spl; try assumption.
  - constructor; try assumption.
    + apply (i_range _ _ I).
    + rewrite Ef. f_equal. apply (i_fmode _ _ I). exact Ef.
    + apply (i_valid _ _ I). exact Ev.
    + apply (i_ch1 _ _ I).
    + exact (chain_of_val _ _ E1).
    + apply (i_ch2 _ _ I).
    + exact (chain_of_val _ _ E2).
    + apply (i_blocks _ _ I).
    + apply (i_encs _ _ I).
  - pose proof (i_nb _ _ I) as L. unfold plain_blocks in L. rewrite lenN_map in L. exact L.
  - pose proof (i_ne _ _ I) as L. unfold plain_encs in L. rewrite lenN_map in L. exact L.
Qed.
Lemma wrap_holds m p v s c1 c2 : pgood m p v s -> lenN (p_dec p) <= 255 -> lenN (p_enc p) <= 255 -> chain_of (p_ch1 p) = Some c1 -> chain_of (p_ch2 p) = Some c2 ->
  holds (wrap m p (blen_of (p_dec p) (p_enc p))) (mkHeader 1 m (map db_plain (p_dec p)) c1 c2 (bdata v) (bdata s) (map eb_plain (p_enc p))).
Proof.
  intros G L1 L2 E1 E2. destruct G. unfold holds. cbn [h_hmode]. split.
  - constructor; unfold wrap, plain_blocks, plain_encs; cbn [d_parts d_hsize d_blen d_fsize]; try assumption; try reflexivity.
    + intros x Ex. congruence.
    + intros b Eb. congruence.
    + exists s. split; assumption.
    + rewrite lenN_map. exact L1.
    + rewrite lenN_map. exact L2.
    + unfold blen_of. rewrite lenN_map. reflexivity.
    + discriminate.
  - unfold contents, wrap. cbn [d_parts]. rewrite g_fmode, g_hmode, g_valid, g_salt, E1, E2. reflexivity.
Qed.

(** ** verifyPassword *)
Section Hashing.
  Variable H : hashes.
  Hypothesis HH : hashes_ok H.
  Lemma sub64_mod a b : a < 2 ^ 64 -> b < 2 ^ 64 -> sub64 a (w64 b) = (a + 2 ^ 64 - b) mod 2 ^ 64.
  Proof. intros La Lb. unfold sub64, w64. change two64 with (2 ^ 64). rewrite (N.mod_small b) by exact Lb. reflexivity. Qed.
  Lemma sub64_zero a b : a < 2 ^ 64 -> b < 2 ^ 64 -> ((a + 2 ^ 64 - b) mod 2 ^ 64 =? 0) = (a =? b).
  Proof.
    intros La Lb. destruct (N.eqb_spec a b) as [->|Ne].
    - replace (b + 2 ^ 64 - b) with (1 * 2 ^ 64) by lia. rewrite N.mod_mul by discriminate. reflexivity.
    - apply N.eqb_neq. change (2 ^ 64) with 18446744073709551616 in *. intros E.
      pose proof (N.div_mod (a + 18446744073709551616 - b) 18446744073709551616 ltac:(discriminate)) as D. rewrite E in D.
      assert ((a + 18446744073709551616 - b) / 18446744073709551616 < 2) by (apply N.div_lt_upper_bound; lia). lia.
  Qed.
  Lemma check_password w d h pw t : w_hashes w = H -> w_elapsed w < 2 ^ 64 -> t < 2 ^ 64 -> holds d h ->
    (~ verify_in_time w t (iters_of (h_ch1 h)) (iters_of (h_ch2 h)) -> checkPassword w d pw t = dfail ERR_TIMEOUT) /\
    (verify_in_time w t (iters_of (h_ch1 h)) (iters_of (h_ch2 h)) ->
      (opens H h pw -> exists k, checkPassword w d pw t = dret k /\ bdata k = key_of H h pw) /\
      (~ opens H h pw -> checkPassword w d pw t = dfail ERR_PASSWORD_INVALID)).
  Proof.
    intros EH Le Lt Hd. pose proof (holds_parts d h Hd) as P. destruct Hd as [I C].
    destruct (contents_parts d h C) as (v & s & Ef & Eh & E1 & E2 & Ev & Bv & Es & Bs & Eb & Ee).
    destruct (hash_mode_ok H (h_hmode h) HH (i_range _ _ I)) as (hf & Hg & Hh & Hf).
    remember (checkPassword w d pw t) as r eqn:E. unfold checkPassword, p_getHashMode, lift in E. rewrite P in E. cbn [bind dbind dret] in E. rewrite Eh in E.
    cbn [bind dbind dret] in E. rewrite EH, Hg in E. cbn [bind dbind dret] in E.
    destruct (perform_s _ _ hf (w_clk1 w) pw t (i_ch1 _ _ I) E1 Hh) as [A1 A2]. unfold verify_in_time.
    destruct (reached_dec (w_clk1 w) t (readings_string (iters_of (h_ch1 h)))) as [R1|R1].
    { rewrite (A1 R1) in E. split; [intros _; exact E|]. intros (X & _). contradiction. }
    destruct (A2 R1) as (k & Ek & Bk & Lk & Ck). rewrite Ek in E. cbn [bind dbind dret] in E. cbv zeta in E.
    rewrite sub64_mod in E by assumption. rewrite sub64_zero in E by assumption. destruct (N.eqb_spec t 0) as [T0|T0]; cbn [negb andb] in E.
    2: destruct (N.eqb_spec t (w_elapsed w)) as [T1|T1].
    2: { split; [intros _; exact E|]. intros (_ & X & _). exfalso. apply X; congruence. }
    all: destruct (perform_b _ _ hf (w_clk2 w) k ((t + 2 ^ 64 - w_elapsed w) mod 2 ^ 64) (i_ch2 _ _ I) E2 Hh ltac:(lia) ltac:(lia)) as [B1 B2].
    all: destruct (reached_dec (w_clk2 w) ((t + 2 ^ 64 - w_elapsed w) mod 2 ^ 64) (readings_bytes (iters_of (h_ch2 h)))) as [R2|R2];
      [rewrite (B1 R2) in E; split; [intros _; exact E|]; intros (_ & _ & X); contradiction|].
    all: destruct (B2 R2) as (v2 & Ev2 & Bv2 & Lv2); rewrite Ev2 in E; cbn [bind dbind dret] in E; unfold p_getValid in E; rewrite Ev in E; cbn [bind dbind dret] in E.
    all: split; [intros X; exfalso; apply X; spl; try assumption; intros; congruence|]; intros _.
    all: assert (eqBytes v2 (copyBytes v) = true <-> opens H h pw) as Q by
      (rewrite eqBytes_iff; unfold opens, validator, key_of; rewrite <- Bv, <- Hf, Bv2, Bk; destruct v as [vd vm]; cbn [copyBytes bdata]; split; congruence).
    all: destruct (eqBytes v2 (copyBytes v)); split; intros O; try (apply Q in O; discriminate); try (exfalso; apply O, Q; reflexivity).
    all: try exact E.
    all: exists (copyBytes k); split; [exact E|]; unfold key_of; rewrite <- Hf, <- Bk; destruct k; reflexivity.
  Qed.

  (** ** createDataHeader *)
  Lemma settings_in_range ds : settings_made ds -> set_isComplete ds = true -> exists hm m1 m2 n1 n2,
    s_fmode ds = Some 1 /\ s_hmode ds = Some hm /\ s_ch1 ds = Some m1 /\ s_ch2 ds = Some m2 /\ s_n1 ds = Some n1 /\ s_n2 ds = Some n2 /\
    1 <= hm <= 3 /\ 1 <= m1 <= 5 /\ 1 <= m2 <= 5 /\ 1 <= n1 <= 1000000000 /\ 1 <= n2 <= 1000000000.
  Proof.
    intros ((ops & E) & _) C.
    assert (forall i v, nth_error (slots ds) i = Some (Some v) -> exists o, slot_of o = i /\ value_of o = v /\ in_range 1000000000 o) as K.
    { intros i v X. rewrite E in X. apply slots_run in X. exact (last_set_range _ _ _ _ X). }
    unfold set_isComplete in C. rewrite !andb_true_iff in C.
    destruct (s_fmode ds) as [fm|] eqn:F; [|exfalso; cbn in C; intuition congruence]. destruct (s_hmode ds) as [hm|] eqn:Fh; [|exfalso; cbn in C; intuition congruence].
    destruct (s_ch1 ds) as [m1|] eqn:F1; [|exfalso; cbn in C; intuition congruence]. destruct (s_ch2 ds) as [m2|] eqn:F2; [|exfalso; cbn in C; intuition congruence].
    destruct (s_n1 ds) as [n1|] eqn:F3; [|exfalso; cbn in C; intuition congruence]. destruct (s_n2 ds) as [n2|] eqn:F4; [|exfalso; cbn in C; intuition congruence].
    assert (slots ds = [Some fm; Some hm; Some m1; Some m2; Some n1; Some n2]) as S by (unfold slots; congruence). rewrite S in K.
    destruct (K 0%nat fm eq_refl) as (o0 & A0 & B0 & C0). destruct (K 1%nat hm eq_refl) as (o1 & A1 & B1 & C1).
    destruct (K 2%nat m1 eq_refl) as (o2 & A2 & B2 & C2). destruct (K 3%nat m2 eq_refl) as (o3 & A3 & B3 & C3).
    destruct (K 4%nat n1 eq_refl) as (o4 & A4 & B4 & C4). destruct (K 5%nat n2 eq_refl) as (o5 & A5 & B5 & C5).
    destruct o0; try discriminate. destruct o1; try discriminate. destruct o2; try discriminate. destruct o3; try discriminate. destruct o4; try discriminate. destruct o5; try discriminate.
    cbn in *. subst. exists hm, m1, m2, n1, n2. spl; try lia; reflexivity.
  Qed.
  Lemma create_header w pw ds t : w_hashes w = H -> (forall i k, lenN (w_rnd w i k) = k) -> w_elapsed w < 2 ^ 64 -> t < 2 ^ 64 -> settings_made ds -> set_isComplete ds = true ->
    exists it1 it2, s_n1 ds = Some it1 /\ s_n2 ds = Some it2 /\
    (~ create_in_time w t it1 it2 -> createHeaderIters w 1 pw ds t = dfail ERR_TIMEOUT) /\
    (create_in_time w t it1 it2 ->
      (~ (lenN (s_dec ds) <= 255 /\ lenN (s_enc ds) <= 255) -> createHeaderIters w 1 pw ds t = dfail ERR) /\
      (lenN (s_dec ds) <= 255 -> lenN (s_enc ds) <= 255 -> exists d k h, createHeaderIters w 1 pw ds t = dret (d, k) /\
        holds d h /\ bytes_ok d /\ created H w ds pw h /\ bdata k = key_of H h pw)).
  Proof.
    intros EH R Le Lt64 SM SC. destruct (settings_in_range ds SM SC) as (hm & m1 & m2 & n1 & n2 & F0 & F1 & F2 & F3 & F4 & F5 & R1 & R2 & R3 & R4 & R5).
    destruct SM as (_ & BM & EM). exists n1, n2. split; [exact F4|]. split; [exact F5|].
    pose proof (new_chains_eq w ds m1 n1 m2 n2 R F2 F4 F3 F5 R2 R4 R3 R5) as NC.
    set (x1 := new_chain_of w 0 m1 n1) in *. set (x2 := new_chain_of w 1 m2 n2) in *.
    assert (chain_ok x1) as K1 by (apply new_chain_of_ok; assumption). assert (chain_ok x2) as K2 by (apply new_chain_of_ok; assumption).
    destruct (hash_mode_ok H hm HH R1) as (hf & Hg & Hh & Hf). pose proof (getHash_size _ _ _ Hg) as [Hs _].
    remember (createHeaderIters w 1 pw ds t) as r eqn:E. unfold createHeaderIters, lift in E. rewrite SC, F0 in E. cbn [negb set_get bind dbind dret N.eqb Pos.eqb] in E.
    rewrite NC in E. cbn [try_ bind dbind dret p_setFileDataMode file_mode_valid N.leb N.compare Pos.compare Pos.compare_cont andb p_hmode p_fmode p_valid p_salt p_dec p_enc p_ch1 p_ch2] in E.
    rewrite F1 in E. unfold p_setHashMode in E. cbn [set_get bind dbind dret] in E. rewrite (proj2 (hash_mode_valid_spec hm) R1) in E.
    cbn [bind dbind dret p_hmode p_fmode p_valid p_salt p_dec p_enc p_ch1 p_ch2] in E. rewrite EH, Hg in E. cbn [bind dbind dret] in E.
    destruct (perform_s _ _ hf (w_clk1 w) pw t (to_ch_inv _ K1) (chain_of_to_ch x1) Hh) as [A1 A2]. change (iters_of x1) with n1 in *. unfold create_in_time.
    destruct (reached_dec (w_clk1 w) t (readings_string n1)) as [Q1|Q1].
    { rewrite (A1 Q1) in E. split; [intros _; exact E|]. intros (X & _). contradiction. }
    destruct (A2 Q1) as (k & Ek & Bk & Lk & Ck). rewrite Ek in E. cbn [bind dbind dret] in E.
    unfold w64 in E. change two64 with (2 ^ 64) in E. rewrite (N.mod_small (w_elapsed w)) in E by exact Le.
    assert ((t <> 0 /\ t <= w_elapsed w /\ r = dfail ERR_TIMEOUT) \/ (t <> 0 -> w_elapsed w < t)) as [(T0 & T1 & T2)|T].
    { destruct (N.eqb_spec t 0) as [T0|T0]; [right; lia|]. destruct (N.leb_spec t (w_elapsed w)) as [T1|T1]; [left|right; lia]. cbn [dbind dfail noexcept] in E. auto. }
    { split; [intros _; exact T2|]. intros (_ & X & _). specialize (X T0). lia. }
    assert ((if t =? 0 then dret 0 else if t <=? w_elapsed w then dfail ERR_TIMEOUT else dret (sub64 t (w_elapsed w))) = dret (t - w_elapsed w)) as ET.
    { destruct (N.eqb_spec t 0) as [T0|T0]; [subst t; reflexivity|]. specialize (T T0). destruct (N.leb_spec t (w_elapsed w)); [lia|]. rewrite sub64_le; [reflexivity| |]; change two64 with (2 ^ 64); lia. }
    rewrite ET in E. cbn [bind dbind dret] in E.
    destruct (perform_b _ _ hf (w_clk2 w) k (t - w_elapsed w) (to_ch_inv _ K2) (chain_of_to_ch x2) Hh ltac:(lia) ltac:(lia)) as [B1 B2]. change (iters_of x2) with n2 in *.
    destruct (reached_dec (w_clk2 w) (t - w_elapsed w) (readings_bytes n2)) as [Q2|Q2].
    { rewrite (B1 Q2) in E. split; [intros _; exact E|]. intros (_ & _ & X). contradiction. }
    destruct (B2 Q2) as (v & Ev & Bv & Lv). rewrite Ev in E. unfold p_setValid, p_setSalt, p_getHashSize in E.
    cbn [bind dbind dret p_hmode p_fmode p_valid p_salt p_dec p_enc p_ch1 p_ch2] in E.
    change (hash_size_of hm) with (digest_len hm) in E. rewrite Lv, Hs, N.eqb_refl in E. cbn [bind dbind dret p_hmode p_fmode p_valid p_salt p_dec p_enc p_ch1 p_ch2] in E.
    rewrite fillrandom_ok in E by (first [apply R | cbn [bmax]; destruct (digest_cases _ R1) as [->|[->| ->]]; reflexivity]).
    cbn [bind dbind dret p_hmode p_fmode p_valid p_salt p_dec p_enc p_ch1 p_ch2] in E.
    change (hash_size_of hm) with (digest_len hm) in E. rewrite fillrandom_len in E by (first [apply R | apply N.le_0_l]). cbn [bmax] in E. rewrite N.eqb_refl in E.
    cbn [bind dbind dret p_hmode p_fmode p_valid p_salt p_dec p_enc p_ch1 p_ch2] in E.
    set (s := copyBytes (filled (w_rnd w 2) (mkBytes [] (digest_len hm)))) in *.
    assert (bdata s = w_rnd w 2 (digest_len hm)) as Bs.
    { subst s. unfold filled, copyBytes, getLen. cbn [bdata bmax]. rewrite app_nil_l. f_equal. change (lenN (@nil byte)) with 0. lia. }
    assert (pgood hm (mkParts (Some hm) (Some 1) (Some (copyBytes v)) (Some s) (s_dec ds) (s_enc ds) (to_ch x1) (to_ch x2)) (copyBytes v) s) as G.
    { constructor; cbn [p_hmode p_fmode p_valid p_salt p_dec p_enc p_ch1 p_ch2]; try reflexivity; try assumption; try (apply to_ch_inv; assumption).
      - rewrite <- Hs. exact Lv.
      - unfold getLen. rewrite Bs. apply R.
      - apply Forall_map. eapply Forall_impl; [|exact BM]. intros b Hb. exact (block_made_ok b Hb).
      - apply Forall_map. eapply Forall_impl; [|exact EM]. intros b Hb. exact (enc_made_ok b Hb). }
    destruct (set_parts _ _ _ _ (w_rnd w 3) G (R 3%nat)) as [S1 S2]. cbn [p_dec p_enc] in S1, S2.
    split; [intros X; exfalso; apply X; spl; assumption|]. intros _. split.
    - intros X. rewrite (S2 X) in E. exact E.
    - intros L1 L2. rewrite (S1 L1 L2) in E. cbn [dbind dret noexcept] in E.
      eexists _, _, _. split; [exact E|]. split; [eapply (wrap_holds hm _ (copyBytes v) s x1 x2 G L1 L2); reflexivity|]. split; [left; reflexivity|].
      split.
      + unfold created. cbn [h_fmode h_hmode h_ch1 h_ch2 h_salt h_blocks h_encs p_dec p_enc]. spl; try reflexivity; try assumption.
        * exists m1, n1. spl; try assumption. reflexivity.
        * exists m2, n2. spl; try assumption. reflexivity.
        * unfold opens, validator, key_of. cbn [h_valid h_hmode h_ch1 h_ch2]. rewrite <- Hf, <- Bk, <- Bv. destruct v; reflexivity.
      + unfold key_of. cbn [h_hmode h_ch1]. rewrite <- Hf, <- Bk. destruct k; reflexivity.
  Qed.

  (** ** changeSalt *)
  Lemma new_salt w d h : (forall i k, lenN (w_rnd w i k) = k) -> holds d h ->
    exists d', (p <- getDataHeaderParts d ;; s <- p_getSalt p ;; b <- newBytes (Z.of_N (getLen s)) ;; b <- fillrandom (w_rnd w 0) b ;; p <- p_setSalt b p ;;
               setHeaderParts (w_rnd w 1) p) = dret d' /\ bytes_ok d' /\ d_fsize d' = None /\ holds d' (with_salt (w_rnd w 0 (digest_len (h_hmode h))) h).
  Proof.
    intros R Hd. rewrite (holds_parts d h Hd). pose proof (holds_ok d h Hd) as Hok. destruct (holds_good d h Hd) as (v & s & G & Bv & Bs & L1 & L2). destruct Hd as [I C].
    destruct (contents_parts d h C) as (v' & s' & Ef & Eh & E1 & E2 & _ & _ & _ & _ & Eb & Ee).
    cbn [bind]. unfold p_getSalt. rewrite (g_salt _ _ _ _ G). cbn [bind]. unfold newBytes. destruct (Z.ltb_spec (Z.of_N (getLen (copyBytes s))) 0); [lia|]. cbn [bind].
    rewrite N2Z.id. change (getLen (copyBytes s)) with (getLen s). rewrite (g_slen _ _ _ _ G).
    assert (1 <= h_hmode h <= 3) as Hm by apply Hok.
    rewrite fillrandom_ok by (first [apply R | cbn [bmax]; destruct (digest_cases _ Hm) as [->|[->| ->]]; reflexivity]). cbn [bind].
    unfold p_setSalt, p_getHashSize. rewrite Eh. cbn [bind].
    rewrite fillrandom_len by (first [apply R | apply N.le_0_l]). cbn [bmax]. rewrite hash_size_digest, N.eqb_refl. cbn [bind].
    set (s2 := copyBytes (filled (w_rnd w 0) (mkBytes [] (digest_len (h_hmode h))))) in *.
    assert (bdata s2 = w_rnd w 0 (digest_len (h_hmode h))) as Bs2.
    { subst s2. unfold filled, copyBytes, getLen. cbn [bdata bmax]. rewrite app_nil_l. f_equal. change (lenN (@nil byte)) with 0. lia. }
    set (p2 := mkParts (Some (h_hmode h)) (p_fmode (d_parts d)) (p_valid (d_parts d)) (Some s2) (p_dec (d_parts d)) (p_enc (d_parts d)) (p_ch1 (d_parts d)) (p_ch2 (d_parts d))).
    assert (pgood (h_hmode h) p2 v s2) as G2.
    { destruct G. constructor; cbn [p2 p_hmode p_fmode p_valid p_salt p_dec p_enc p_ch1 p_ch2]; try reflexivity; try assumption. unfold getLen. rewrite Bs2. apply R. }
    destruct (set_parts _ _ _ _ (w_rnd w 1) G2 (R 1%nat)) as [S1 _]. rewrite (S1 L1 L2). eexists. split; [reflexivity|]. split; [left; reflexivity|]. split; [reflexivity|].
    pose proof (wrap_holds _ p2 v s2 _ _ G2 L1 L2 E1 E2) as W. rewrite Bs2, Bv in W. cbn [p2 p_dec p_enc] in W.
    change (map db_plain (p_dec (d_parts d))) with (plain_blocks d) in W. change (map eb_plain (p_enc (d_parts d))) with (plain_encs d) in W. rewrite Eb, Ee in W.
    unfold with_salt. destruct Hok as (-> & _). exact W.
  Qed.
End Hashing.
