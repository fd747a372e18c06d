(** Lemmas for C122. *)
From Coq Require Import Strings.String.
From Verif Require Import Base BaseFacts BytesModel BytesSpec BytesFacts BytesFacts2 MiscModel CipherModel PwModel ChModel ChSpec ChFacts HeaderModel HeaderSpec HeaderFacts HeaderFacts2 HeaderFacts3 HeaderFacts4 HeaderFacts5 FileModel ApiModel ApiSpec TextModel
  RefSpec RefSpec2 RefFacts RefFacts2 FileFacts ApiFacts4 MsgModel MsgSpec MsgFacts1 MsgFacts2 MsgFacts3 LackSpec.
Open Scope N_scope.
Open Scope list_scope.

(** a failure for want of data has this text *)
Definition wants (P : bytes -> Prop) (x : failure) : Prop := x_code x = ERR_NOT_ENOUGH_DATA -> P (x_info x).
Lemma try_wants {A} h (m : outcome A) P : (forall e c i, h e = Some (c, i) -> c <> ERR_NOT_ENOUGH_DATA) -> ok (ftry h m) (wants P) (fun a => m = Ret a).
Proof. intros K. apply ok_try. intros e c i _ E C. cbn in C. destruct (K e c i E C). Qed.
Lemma std_code c i e c' i' : c <> ERR_NOT_ENOUGH_DATA -> h_std c i e = Some (c', i') -> c' <> ERR_NOT_ENOUGH_DATA.
Proof. intros N0 E. destruct e; cbn in E; try discriminate E; injection E as <- _; exact N0. Qed.
Lemma invalid_code c i e c' i' : c <> ERR_NOT_ENOUGH_DATA -> h_invalid c i e = Some (c', i') -> c' <> ERR_NOT_ENOUGH_DATA.
Proof. intros N0 E. destruct e; cbn in E; try discriminate E; injection E as <- _; exact N0. Qed.
Lemma wants_weak {A} (m : fres A) (P P' : bytes -> Prop) (Q Q' : A -> Prop) : ok m (wants P) Q -> (forall i, P i -> P' i) -> (forall a, Q a -> Q' a) -> ok m (wants P') Q'.
Proof. intros K HP HQ. apply (ok_weak _ _ _ _ _ K); [|exact HQ]. intros x X C. apply HP, X, C. Qed.

(** ** Blocks *)
Definition blocks_want (n : nat) (s : bytes) (i : bytes) : Prop :=
  exists bs r, s = concat (map ser_block bs) ++ r /\ Forall block_ok bs /\ lenN bs < N.of_nat n /\ block_lacks r i.
Lemma blocks_lack n : forall d s, ok (f_blocks n d s) (wants (blocks_want n s))
  (fun x => d_hsize (fst x) = d_hsize d /\ exists bs, s = concat (map ser_block bs) ++ snd x /\ Forall block_ok bs /\ lenN bs = N.of_nat n).
Proof.
  induction n as [|n IH]; intros d s; cbn [f_blocks].
  { cbn. split; [reflexivity|]. exists []. repeat split; constructor. }
  assert (forall i, block_lacks s i -> blocks_want (S n) s i) as Now.
  { intros i K. exists [], s. split; [reflexivity|]. split; [apply Forall_nil|]. split; [change (lenN (@nil (N * bytes))) with 0; lia|exact K]. }
  destruct (read1_cases s) as [(ty & s1 & T & ->)| ->].
  2:{ unfold f_read1. cbn. intros _. apply Now. left. split; reflexivity. }
  unfold f_read1. rewrite read1_u8 by exact T. cbn [fneed fbind fret].
  destruct (read1_cases s1) as [(l & s2 & T2 & ->)| ->].
  2:{ cbn. intros _. apply Now. right. left. split; reflexivity. }
  rewrite read1_u8 by exact T2. cbn [fneed fbind fret]. unfold f_readBytes. rewrite readBytes_N by (unfold two32; lia).
  destruct (read_n_cases l l s2 ltac:(lia)) as [(x & s3 & L & ->)|[E L]].
  2:{ rewrite E. cbn. intros _. apply Now. right. right. exists ty, l, s2. auto 8. }
  rewrite read_n_eq by lia. cbn [fneed fbind fret].
  eapply ok_bind; [apply ok_lift|]. intros d' Ed.
  assert (d_hsize d' = d_hsize d) as Hd.
  { destruct (newDataBlock ty (mkBytes x l)) as [b|e|c|]; cbn [bind] in Ed; try discriminate Ed. unfold addDataBlock in Ed. destruct (_ <=? _); [discriminate Ed|]. injection Ed as <-. reflexivity. }
  assert (block_ok (ty, x)) as Gb by (split; cbn [fst snd]; lia).
  assert (forall bs r, u8 ty ++ u8 l ++ x ++ concat (map ser_block bs) ++ r = concat (map ser_block ((ty, x) :: bs)) ++ r) as Eq.
  { intros bs r. cbn [map concat]. unfold ser_block at 2. cbn [fst snd]. rewrite <- !app_assoc, L. reflexivity. }
  apply (wants_weak _ _ _ _ _ (IH d' s3)).
  - intros i (bs & r & -> & F & Lb & K). exists ((ty, x) :: bs), r. rewrite Eq. split; [reflexivity|]. split; [constructor; assumption|]. split; [rewrite lenN_cons; lia|exact K].
  - intros [d2 s4] [H2 (bs & E & F & Lb)]. cbn [fst snd] in *. split; [congruence|]. exists ((ty, x) :: bs). rewrite E, Eq. split; [reflexivity|]. split; [constructor; assumption|]. rewrite lenN_cons. lia.
Qed.
Definition encs_want (n : nat) (s : bytes) (i : bytes) : Prop :=
  exists es r, s = concat (map ser_enc es) ++ r /\ Forall enc_ok es /\ lenN es < N.of_nat n /\ enc_lacks r i.
Lemma encs_lack n : forall d s, ok (f_encs n d s) (wants (encs_want n s)) (fun _ => True).
Proof.
  induction n as [|n IH]; intros d s; cbn [f_encs]; [exact Logic.I|].
  assert (forall i, enc_lacks s i -> encs_want (S n) s i) as Now.
  { intros i K. exists [], s. split; [reflexivity|]. split; [apply Forall_nil|]. split; [change (lenN (@nil (N * N * bytes))) with 0; lia|exact K]. }
  destruct (read1_cases s) as [(ty & s1 & T & ->)| ->].
  2:{ unfold f_read1. cbn. intros _. apply Now. left. split; reflexivity. }
  unfold f_read1. rewrite read1_u8 by exact T. cbn [fneed fbind fret].
  destruct (read1_cases s1) as [(l & s2 & T2 & ->)| ->].
  2:{ cbn. intros _. apply Now. right. left. split; reflexivity. }
  rewrite read1_u8 by exact T2. cbn [fneed fbind fret]. unfold f_readBytes. change 255%Z with (Z.of_N 255). rewrite readBytes_N by (unfold two32; lia).
  destruct (read_n_cases 255 255 s2 ltac:(lia)) as [(x & s3 & L & ->)|[E L]].
  2:{ rewrite E. cbn. intros _. apply Now. right. right. split; [|reflexivity]. rewrite !lenN_app. change (lenN (u8 ty)) with 1. change (lenN (u8 l)) with 1. lia. }
  rewrite read_n_eq by lia. cbn [fneed fbind fret].
  eapply ok_bind; [apply ok_lift|]. intros d' _.
  assert (forall es r, u8 ty ++ u8 l ++ x ++ concat (map ser_enc es) ++ r = concat (map ser_enc ((ty, l, x) :: es)) ++ r) as Eq.
  { intros es r. cbn [map concat]. unfold ser_enc at 2. cbn [fst snd]. rewrite <- !app_assoc. reflexivity. }
  apply (wants_weak _ _ _ _ _ (IH d' s3)); [|auto].
  intros i (es & r & -> & F & Lb & K). exists ((ty, l, x) :: es), r. rewrite Eq. split; [reflexivity|]. split; [constructor; [|exact F]; unfold enc_ok; cbn [fst snd]; auto|].
  split; [rewrite lenN_cons; lia|exact K].
Qed.

(** ** Chain hashes *)
Definition numbered (k : bool) : bytes := if k then str "1" else str "2".
Definition texts_of (k : bool) : chain_texts := if k then texts1 else texts2.
Lemma parts_short bd tx nls : forall lb dl c s, ok (f_parts bd tx nls lb dl c s) (wants (fun i => i = t_short tx)) (fun _ => True).
Proof.
  induction nls as [|[nm len] r IH]; intros lb dl c s; cbn [f_parts]; [exact Logic.I|].
  destruct (negb (len =? 0)); (eapply ok_bind; [apply ok_need; intros _ _; reflexivity|]); intros [b s'] _;
    (eapply ok_bind; [apply ok_part; [intros _ _; reflexivity|intros x [C|[C|C]] _ K; rewrite C in K; discriminate K]|]); intros c' _; [apply IH|exact Logic.I].
Qed.
Lemma chain_lack bd code k d s : code <> ERR_NOT_ENOUGH_DATA -> ok (f_chain bd (texts_of k) code (set_of k) d s) (wants (chain_lacks (numbered k) s))
  (fun x => d_hsize (fst x) = d_hsize d /\ exists c lb, s = ser_chain lb c ++ snd x /\ chain_shape c lb).
Proof.
  intros Nc. destruct (take_chain_cases s) as [(c & lb & r & Sh & ->)|(e & K)].
  - pose proof (chain_strip bd (texts_of k) code (set_of k) d (ser_chain lb c ++ r)) as S0. rewrite (chain_fwd bd code k d c lb r Sh) in S0.
    assert (forall d' y, strip y = chain_res bd code c lb d' r -> (exists x, y = Ret (inl x) /\ x_code x = code) \/ y = Ret (inr (d', r)) \/ exists z, y = Crash z) as Q.
    { intros d' y Y. unfold chain_res, dret, dfail in Y.
      destruct y as [[x|x]|e|z|]; cbn in Y; destruct bd; try destruct (_ =? _); try destruct (iters_ok _); try discriminate Y; eauto; injection Y as Y; subst; eauto. }
    destruct (Q _ _ S0) as [(x & -> & C)|[-> |[z ->]]]; cbn; [intros C2; congruence| |exact Logic.I].
    split; [destruct k; reflexivity|]. exists c, lb. auto.
  - pose proof (chain_strip bd (texts_of k) code (set_of k) d s) as S0. destruct (K bd code) as [Kt Ks]. rewrite Ks in S0.
    destruct (f_chain bd (texts_of k) code (set_of k) d s) as [[x|x]|x|x|] eqn:Ef; cbn in S0; try discriminate S0. injection S0 as S0. cbn. intros C.
    rewrite C in S0. subst e. unfold f_chain in Ef.
    destruct (read1_cases s) as [(m & s1 & Hm & ->)| ->].
    2:{ cbn in Ef. injection Ef as <-. left. split; [reflexivity|]. destruct k; reflexivity. }
    unfold f_read1 in Ef. rewrite read1_u8 in Ef by exact Hm. cbn [fneed fbind fret] in Ef.
    destruct (ch_mode_valid m) eqn:V.
    2:{ unfold newFormat in Ef. rewrite V in Ef. cbn in Ef. injection Ef as <-. discriminate C. }
    unfold newFormat in Ef. rewrite V in Ef. cbn [ftry fbind fret] in Ef. apply ch_mode_valid_spec in V.
    destruct (read8_cases s1) as [(it & s2 & Hi & ->)|[E L]].
    2:{ right. left. exists m, s1. split; [reflexivity|]. split; [exact V|]. split; [exact L|].
        assert (readBytes 8 8 s1 = None) as R by (change 8%Z with (Z.of_N 8); rewrite (readBytes_N 8 8 _ eq_refl); unfold read_n; destruct (N.leb_spec 8 (lenN s1)); [lia|reflexivity]).
        unfold f_read8, f_readBytes in Ef. rewrite R in Ef. cbn in Ef. injection Ef as <-. destruct k; reflexivity. }
    rewrite f_read8_u64 in Ef by exact Hi. cbn [fbind fret] in Ef.
    destruct (read1_cases s2) as [(lb & s3 & Hl & ->)| ->].
    2:{ cbn in Ef. injection Ef as <-. right. right. left. exists m, (u64 it). split; [rewrite app_nil_r; reflexivity|]. split; [exact V|]. split; [apply u64_len|]. destruct k; reflexivity. }
    rewrite read1_u8 in Ef by exact Hl. cbn [fneed fbind fret] in Ef. right. right. right. exists m, it, lb, s3.
    split; [reflexivity|]. split; [exact V|]. split; [exact Hi|]. split; [exact Hl|].
    assert (x_info x = t_short (texts_of k)) as Ei.
    { pose proof (parts_short bd (texts_of k) (nameLens m) lb 0 (newChd m) s3) as Ps.
      destruct (f_parts bd (texts_of k) (nameLens m) lb 0 (newChd m) s3) as [[y|[[dl c] s4]]|y|y|]; cbn [fbind] in Ef; try discriminate Ef.
      - injection Ef as ->. exact (Ps C).
      - exfalso. assert (ok (_ <+ fassert bd (cd_len c =? lb) ;; _ <+ fassert bd (dl =? lb) ;; d0 <+ ftry (h_invalid_or code reading_info ERR (t_other (texts_of k))) (ch <- newChainHash m it (Some c) ;; set_of k ch d) ;; fret (d0, s4)) (wants (fun _ => False)) (fun _ => True)) as O.
        { eapply ok_bind; [apply ok_assert|]. intros _ _. eapply ok_bind; [apply ok_assert|]. intros _ _. eapply ok_bind; [|intros; exact Logic.I].
          apply try_wants. intros e c0 i E. destruct e; cbn in E; try discriminate E; injection E as <- _; first [exact Nc|discriminate]. }
        rewrite Ef in O. exact (O C). }
    split; [|rewrite Ei; destruct k; reflexivity].
    destruct (N.lt_ge_cases (lenN s3) (data_length m lb)) as [Lt|Ge]; [left; exact Lt|right].
    unfold take_chain in Kt. rewrite take_1 in Kt by exact Hm. cbn [also] in Kt. assert ((1 <=? m) && (m <=? 5) = true) as Vm by (rewrite andb_true_iff, !N.leb_le; exact V). rewrite Vm in Kt. cbn [check also] in Kt.
    rewrite take_8 in Kt by exact Hi. cbn [also] in Kt. rewrite take_1 in Kt by exact Hl. cbn [also] in Kt. destruct (negb ((m =? 4) && (lb <? 8))) eqn:C4.
    + cbn [check also] in Kt. unfold take_n in Kt. destruct (N.leb_spec (data_length m lb) (lenN s3)) as [_|X]; [|lia]. cbn [also] in Kt. exfalso.
      unfold insist, check in Kt. destruct bd; [destruct (_ =? lb) in Kt|]; cbn [also] in Kt; try discriminate Kt;
        destruct ((1 <=? it) && (it <=? 1000000000)); cbn [also] in Kt; try discriminate Kt; injection Kt as Kt; exact (Nc Kt).
    + apply negb_false_iff, andb_true_iff in C4. destruct C4 as [A B]. apply N.eqb_eq in A. apply N.ltb_lt in B. auto.
Qed.

(** ** The whole file *)
(** a file that ends before the number of encrypted blocks is found to be too short *)
Definition uncounted (file : bytes) : Prop := exists hs hm n bs c1 l1 c2 l2 v,
  file = pre (lenN file) hs hm n bs ++ ser_chain l1 c1 ++ ser_chain l2 c2 ++ v /\ hs < two64 /\ hs <= lenN file /\ 1 <= hm <= 3 /\ n < 256 /\ Forall block_ok bs /\ lenN bs = n /\
  chain_shape c1 l1 /\ chain_shape c2 l2 /\ lenN v = 2 * digest_len hm.
Lemma take_blocks_all bs r : Forall block_ok bs -> take_blocks (length bs) (concat (map ser_block bs) ++ r) = Gives (bs, r) \/ take_blocks (length bs) (concat (map ser_block bs) ++ r) = Dies Terminate.
Proof.
  induction 1 as [|[ty x] bs [B1 B2] F IH]; [left; reflexivity|]. cbn [fst snd] in *. cbn [length take_blocks map concat]. unfold ser_block at 1 3. cbn [fst snd]. rewrite <- !app_assoc.
  rewrite take_1 by exact B1. cbn [also]. rewrite take_1 by lia. cbn [also]. rewrite take_n_app. cbn [also]. destruct (lenN x =? 0); [right; reflexivity|].
  destruct IH as [-> | ->]; [left|right]; reflexivity.
Qed.
Lemma uncounted_code bd file : lenN file < two64 -> uncounted file -> read_file bd file <> Rejects ERR_NOT_ENOUGH_DATA.
Proof.
  intros L (hs & hm & n & bs & c1 & l1 & c2 & l2 & v & E & Lh & Hh & Vh & Vn & F & Lb & S1 & S2 & Lv). unfold read_file. rewrite E at 1. unfold pre. rewrite <- !app_assoc.
  rewrite take_8 by exact L. cbn [also]. rewrite take_8 by exact Lh. cbn [also]. rewrite N.eqb_refl. cbn [check also]. assert (hs <=? lenN file = true) as -> by (apply N.leb_le; exact Hh). cbn [check also].
  rewrite take_1 by lia. cbn [also]. rewrite take_1 by lia. cbn [also]. assert ((1 <=? hm) && (hm <=? 3) = true) as -> by (rewrite andb_true_iff, !N.leb_le; exact Vh). cbn [check also N.eqb Pos.eqb].
  rewrite take_1 by exact Vn. cbn [also]. replace (N.to_nat n) with (length bs) by (rewrite <- Lb; unfold lenN; rewrite Nat2N.id; reflexivity).
  destruct (take_blocks_all bs (ser_chain l1 c1 ++ ser_chain l2 c2 ++ v) F) as [-> | ->]; cbn [also]; [|discriminate].
  rewrite (take_chain_fwd bd _ c1 l1 _ S1). unfold chain_ver. destruct bd; [destruct (lenN (snd c1) =? l1)|]; try (cbn [also]; discriminate); destruct (iters_ok (snd (fst c1))); cbn [also]; try discriminate;
    rewrite (take_chain_fwd _ _ c2 l2 _ S2); unfold chain_ver; try destruct (lenN (snd c2) =? l2); try (cbn [also]; discriminate); destruct (iters_ok (snd (fst c2))); cbn [also]; try discriminate;
    (rewrite <- (takeN_dropN (digest_len hm) v) at 1; rewrite take_n_eq by (rewrite lenN_takeN; lia); cbn [also];
     unfold take_n; rewrite lenN_dropN; destruct (N.leb_spec (digest_len hm) (lenN v - digest_len hm)) as [_|X]; [|lia]; cbn [also]; rewrite !lenN_dropN;
     replace (lenN v - digest_len hm - digest_len hm) with 0 by lia; cbn [N.eqb negb check also]; discriminate).
Qed.
Lemma decode_lack file bd rnd hs fm hm n rest : (forall k, lenN (rnd k) = k) -> lenN file < two64 ->
  file = u64 (lenN file) ++ u64 hs ++ fm :: hm :: n :: rest -> hs < two64 -> hs <= lenN file ->
  ok (f_decode bd rnd file) (wants (fun i => ends_in file i \/ uncounted file)) (fun _ => True).
Proof.
  intros Hr L E Hh Hl. unfold f_decode. apply ok_noexcept.
  rewrite E at 1. rewrite f_read8_u64 by exact L. cbn [fbind fret]. rewrite f_read8_u64 by exact Hh. cbn [fbind fret].
  rewrite N.eqb_refl. cbn [negb]. destruct (N.ltb_spec (lenN file) hs) as [G|G]; [lia|].
  unfold f_read1 at 1 2 3. cbn [read1 fneed fbind fret].
  eapply ok_bind; [apply try_wants; intros e c i K; refine (invalid_code _ _ _ _ _ _ K); discriminate|]. intros d1 Ed1.
  eapply ok_bind; [apply try_wants; intros e c i K; refine (invalid_code _ _ _ _ _ _ K); discriminate|]. intros d2 Ed2. cbn [read1 fneed fbind fret].
  assert (1 <= b2n hm <= 3) as Vh.
  { unfold newDataHeader, p_setHashMode in Ed1. destruct (hash_mode_valid (b2n hm)) eqn:V; [apply hash_mode_valid_spec; exact V|discriminate Ed1]. }
  assert (b2n fm = 1) as Vf.
  { unfold d_setFileDataMode, p_setFileDataMode in Ed2. destruct (N.eqb_spec (b2n fm) 1) as [X|X]; [exact X|]. exfalso. revert Ed2. generalize (d_parts d1). intros p0. destruct (b2n fm) as [|[q|q|]]; try discriminate; contradiction. }
  assert (d_hsize d2 = digest_len (b2n hm)) as H2.
  { assert (d_hsize d2 = d_hsize d1) as ->. { unfold d_setFileDataMode in Ed2. destruct (p_setFileDataMode _ _); cbn [bind] in Ed2; try discriminate Ed2. injection Ed2 as <-. reflexivity. }
    unfold newDataHeader in Ed1. destruct (p_setHashMode _ _) as [p1| | |]; cbn [bind] in Ed1; try discriminate Ed1. destruct (fillrandom _ _) as [sl| | |]; cbn [bind] in Ed1; try discriminate Ed1.
    destruct (p_setSalt _ _) as [p2| | |]; cbn [bind] in Ed1; try discriminate Ed1. injection Ed1 as <-. cbn [d_hsize]. rewrite hash_size_digest. apply N.mod_small. destruct (digest_cases _ Vh) as [->|[->| ->]]; lia. }
  assert (forall bs r, rest = concat (map ser_block bs) ++ r -> file = pre (lenN file) hs (b2n hm) (b2n n) bs ++ r) as Pre.
  { intros bs r Er. rewrite E at 1. unfold pre, u8. rewrite !n2b_b2n. change (n2b 1) with (n2b 1). rewrite <- Vf, n2b_b2n, <- !app_assoc. cbn [app]. rewrite Er. reflexivity. }
  pose proof (b2n_lt n) as Ln.
  eapply ok_bind; [apply (wants_weak _ _ _ _ _ (blocks_lack (N.to_nat (b2n n)) d2 rest)); [|intros a A; exact A]|].
  { intros i (bs & r & Er & F & Lb & K). left. exists hs, (b2n hm), (b2n n), bs, r. rewrite N2Nat.id in Lb. split; [apply Pre, Er|]. auto 8. }
  intros [d3 s3] [H3 (bs & Er & F & Lb)]. cbn [fst snd] in *. rewrite N2Nat.id in Lb.
  assert (forall i, (chain_lacks (str "1") s3 i \/ exists c1 l1 r1, s3 = ser_chain l1 c1 ++ r1 /\ chain_shape c1 l1 /\
       (chain_lacks (str "2") r1 i \/ exists c2 l2 r2, r1 = ser_chain l2 c2 ++ r2 /\ chain_shape c2 l2 /\ tail_lacks (digest_len (b2n hm)) r2 i)) -> ends_in file i) as In3.
  { intros i K. exists hs, (b2n hm), (b2n n), bs, s3. split; [apply Pre, Er|]. auto 8. }
  eapply ok_bind; [apply (wants_weak _ _ _ _ _ (chain_lack bd ERR_CHAINHASH1_INVALID true d3 s3 ltac:(discriminate))); [|intros a A; exact A]|].
  { intros i K. left. apply In3. left. exact K. }
  intros [d4 s4] [H4 (c1 & l1 & E4 & Sh1)]. cbn [fst snd] in *.
  eapply ok_bind; [apply (wants_weak _ _ _ _ _ (chain_lack bd ERR_CHAINHASH2_INVALID false d4 s4 ltac:(discriminate))); [|intros a A; exact A]|].
  { intros i K. left. apply In3. right. exists c1, l1, s4. auto. }
  intros [d5 s5] [H5 (c2 & l2 & E5 & Sh2)]. cbn [fst snd] in *.
  assert (forall i, tail_lacks (digest_len (b2n hm)) s5 i -> ends_in file i) as In5.
  { intros i K. apply In3. right. exists c1, l1, s4. split; [exact E4|]. split; [exact Sh1|]. right. exists c2, l2, s5. auto. }
  assert (d_hsize d5 = digest_len (b2n hm)) as H5' by congruence. clear H2 H3 H4 H5.
  assert (digest_len (b2n hm) < two32) as Ld by (destruct (digest_cases _ Vh) as [->|[->| ->]]; unfold two32; lia).
  rewrite H5'. unfold f_readBytes. rewrite readBytes_N by exact Ld.
  destruct (read_n_cases (digest_len (b2n hm)) (digest_len (b2n hm)) s5 ltac:(lia)) as [(v & s6 & Lv & ->)|[Ev Lv]].
  2:{ rewrite Ev. cbn. intros _. left. apply In5. left. auto. }
  rewrite read_n_eq by lia. cbn [fneed fbind fret].
  eapply ok_bind; [apply try_wants; intros e c i K; refine (std_code _ _ _ _ _ _ K); discriminate|]. intros d6 Ed6.
  assert (d_hsize d6 = digest_len (b2n hm)) as H6.
  { unfold setValidPasswordHashBytes in Ed6. destruct (p_setValid _ _); cbn [bind] in Ed6; try discriminate Ed6. injection Ed6 as <-. exact H5'. }
  rewrite H6. rewrite readBytes_N by exact Ld.
  destruct (read_n_cases (digest_len (b2n hm)) (digest_len (b2n hm)) s6 ltac:(lia)) as [(sa & s7 & La & ->)|[Ev La]].
  2:{ rewrite Ev. cbn. intros _. left. apply In5. right. left. split; [|reflexivity]. rewrite lenN_app. lia. }
  rewrite read_n_eq by lia. cbn [fneed fbind fret].
  eapply ok_bind; [apply try_wants; intros e c i K; refine (std_code _ _ _ _ _ _ K); discriminate|]. intros d7 _.
  eapply ok_bind; [apply try_wants; intros e c i K; refine (invalid_code _ _ _ _ _ _ K); discriminate|]. intros d8 _.
  destruct (read1_cases s7) as [(m & s8 & Hm & ->)| ->].
  2:{ cbn. intros _. right. exists hs, (b2n hm), (b2n n), bs, c1, l1, c2, l2, (v ++ sa). rewrite app_nil_r in E5. split; [rewrite <- E5, <- E4; apply Pre, Er|].
      rewrite lenN_app. repeat (split; [first [assumption|lia]|]). lia. }
  unfold f_read1. rewrite read1_u8 by exact Hm. cbn [fneed fbind fret].
  eapply ok_bind; [apply (wants_weak _ _ _ _ _ (encs_lack (N.to_nat m) d8 s8)); [|intros a A; exact A]|].
  { intros i (es & r & Er8 & F8 & L8 & K). left. apply In5. right. right. exists (v ++ sa), m, es, r. rewrite N2Nat.id in L8. split; [rewrite lenN_app; lia|]. split; [rewrite Er8, <- app_assoc; reflexivity|]. auto. }
  intros [d9 s9] _. eapply ok_bind; [apply try_wants; intros e c i K; refine (std_code _ _ _ _ _ _ K); discriminate|].
  intros d10 _. eapply ok_bind; [apply ok_lift|]. intros l _. eapply ok_bind; [apply ok_assert|]. intros _ _. eapply ok_bind; [apply ok_assert|]. intros _ _. exact Logic.I.
Qed.

Lemma select_lack w a f p x : (forall i k, lenN (w_rnd w i k) = k) -> lenN (stream_of w f p) < two64 -> a_state a = INIT ->
  told w a f (OSelect p) = Some x -> x_code x = ERR_NOT_ENOUGH_DATA -> ends_in (stream_of w f p) (x_info x).
Proof.
  intros Hr L S0 T F. unfold told in T. rewrite S0 in T. unfold f_selectFile in T.
  pose proof (handler_fine w f p a (OSelect p) eq_refl (fun x A B C => proj1 (creation_fine a p x A B C))) as K.
  assert (forall h, f_getFileHandler w f p = fret h -> fh_update p (stream_of w f p) = Ret h) as U.
  { intros h E. unfold f_getFileHandler in E. destruct (f_isValidPath w f p true) as [[y|y]|e|c|]; cbn in E; try discriminate E.
    unfold newFileHandler in E. destruct (isValidPath w f p true) as [[z|z]|e|c|]; cbn in E; try discriminate E; try (destruct e; discriminate E).
    destruct (fh_update p (stream_of w f p)) as [h'|e|c|]; cbn in E; try discriminate E.
    - injection E as ->. reflexivity.
    - destruct e; discriminate E. }
  assert (forall y, f_getFileHandler w f p = Ret (inl y) -> about_path (x_code y) = true \/ x_code y = ERR_FILEHANDLER_CREATION) as X.
  { intros y E. unfold f_getFileHandler in E. unfold f_isValidPath in E. destruct (isValidPath w f p true) as [[c|z]|e|c|] eqn:V; cbn in E; try discriminate E.
    - injection E as <-. left. exact (valid_codes _ _ _ _ _ V).
    - destruct (newFileHandler w f p) as [h'|e|c|]; cbn in E; try discriminate E. destruct e; cbn in E; try discriminate E; injection E as <-; right; reflexivity. }
  destruct (f_getFileHandler w f p) as [[y|h]|e|c|]; cbn in T; try discriminate T.
  - injection T as ->. destruct (X x eq_refl) as [Y|Y]; exfalso; rewrite F in Y; discriminate Y.
  - cbn in K. specialize (U h eq_refl). destruct (fh_empty h) eqn:Em; [discriminate T|]. unfold f_getDataHeader in T. rewrite K in T.
    destruct (update_shape _ _ _ U Em L) as (hs & fm & hm & n & rest & E & Hh & Hl).
    pose proof (decode_lack (stream_of w f p) (w_build w) (w_rnd w 0) hs fm hm n rest (Hr 0%nat) L E Hh Hl) as D.
    pose proof (decode_strip (w_build w) (w_rnd w 0) (stream_of w f p)) as Ds. rewrite (reader_refines (w_build w) (w_rnd w 0) _ (Hr 0%nat) L) in Ds.
    destruct (f_decode (w_build w) (w_rnd w 0) (stream_of w f p)) as [[y|[d s]]|e|c|] eqn:Ed; cbn in T; try discriminate T.
    injection T as ->. cbn in D. destruct (D F) as [D1|D1]; [exact D1|]. exfalso. apply (uncounted_code (w_build w) _ L D1).
    destruct (read_file (w_build w) (stream_of w f p)) as [[h0 r0]|e|c]; cbn in Ds; try discriminate Ds. injection Ds as Ds. congruence.
Qed.

(** ** The field is determined by the file *)
(** the field in which a block ends, or what follows the block *)
Definition f_block (r : bytes) : bytes + bytes :=
  match r with
  | [] => inl (str "Data block type")
  | [_] => inl (str "Data block len")
  | _ :: len :: x => if lenN x <? b2n len then inl (str "Data block data") else inr (dropN (b2n len) x)
  end.
Definition f_chain_end (k r : bytes) : bytes + bytes :=
  match r with
  | [] => inl (str "Chainhash" ++ k ++ str " mode")
  | m :: x =>
      if lenN x <? 8 then inl (str "Chainhash" ++ k ++ str " iters")
      else match dropN 8 x with
           | [] => inl (str "Chainhash" ++ k ++ str " blocklen")
           | lb :: x => if (lenN x <? data_length (b2n m) (b2n lb)) || (b2n m =? 4) && (b2n lb <? 8) then inl (str "Chainhash data block " ++ k)
                        else inr (dropN (data_length (b2n m) (b2n lb)) x)
           end
  end.
Definition f_enc (r : bytes) : bytes + bytes :=
  match r with
  | [] => inl (str "Enc datablock type")
  | [_] => inl (str "Enc datablock len")
  | _ :: _ :: x => if lenN x <? 255 then inl (str "Enc datablock data") else inr (dropN 255 x)
  end.
Fixpoint f_many (g : bytes -> bytes + bytes) (n : nat) (r : bytes) : bytes + bytes :=
  match n with O => inr r | S n => match g r with inl i => inl i | inr r => f_many g n r end end.
Definition next (x : bytes + bytes) (g : bytes -> bytes + bytes) : bytes + bytes := match x with inl i => inl i | inr r => g r end.
Definition f_tail (n : N) (r : bytes) : bytes + bytes :=
  if lenN r <? n then inl (str "Password validator hash") else if lenN r <? 2 * n then inl (str "Encrypted salt")
  else match dropN (2 * n) r with [] => inr [] | m :: r => f_many f_enc (N.to_nat (b2n m)) r end.
Definition f_file (file : bytes) : bytes + bytes :=
  match dropN 17 file with
  | hm :: n :: r =>
      next (f_many f_block (N.to_nat (b2n n)) r) (fun r => next (f_chain_end (str "1") r) (fun r => next (f_chain_end (str "2") r) (f_tail (digest_len (b2n hm)))))
  | _ => inr []
  end.
Lemma many_end {A} (ser : A -> bytes) g (P : A -> Prop) lacks : (forall b r, P b -> g (ser b ++ r) = inr r) -> (forall r i, lacks r i -> g r = inl i) ->
  forall bs n r i, Forall P bs -> (length bs < n)%nat -> lacks r i -> f_many g n (concat (map ser bs) ++ r) = inl i.
Proof.
  intros G1 G2. induction bs as [|b bs IH]; intros n r i F L K; destruct n as [|n]; cbn [length] in L; try lia; cbn [f_many map concat].
  - cbn [app]. rewrite (G2 r i K). reflexivity.
  - inversion F as [|? ? Pb Fb]; subst. rewrite <- app_assoc, (G1 _ _ Pb). apply IH; [exact Fb|lia|exact K].
Qed.
Lemma many_all {A} (ser : A -> bytes) g (P : A -> Prop) : (forall b r, P b -> g (ser b ++ r) = inr r) -> forall bs r, Forall P bs -> f_many g (length bs) (concat (map ser bs) ++ r) = inr r.
Proof.
  intros G1. induction bs as [|b bs IH]; intros r F; [reflexivity|]. inversion F as [|? ? Pb Fb]; subst. cbn [length f_many map concat]. rewrite <- app_assoc, (G1 _ _ Pb). apply IH, Fb.
Qed.
Lemma block_all b r : block_ok b -> f_block (ser_block b ++ r) = inr r.
Proof.
  destruct b as [ty x]. intros [B1 B2]. cbn [fst snd] in *. unfold ser_block, u8. cbn [fst snd app f_block]. rewrite b2n_n2b_small by lia. rewrite lenN_app.
  destruct (N.ltb_spec (lenN x + lenN r) (lenN x)); [lia|]. rewrite dropN_app_exact. reflexivity.
Qed.
Lemma enc_all b r : enc_ok b -> f_enc (ser_enc b ++ r) = inr r.
Proof.
  destruct b as [[ty l] x]. intros (B1 & B2 & B3). cbn [fst snd] in *. unfold ser_enc, u8. cbn [fst snd app f_enc]. rewrite lenN_app, B3.
  destruct (N.ltb_spec (255 + lenN r) 255); [lia|]. rewrite <- B3, dropN_app_exact. reflexivity.
Qed.
Lemma one_byte (r : bytes) : lenN r = 1 -> exists b, r = [b].
Proof. destruct r as [|b [|c r]]; [discriminate|exists b; reflexivity|]. unfold lenN. cbn [length]. lia. Qed.
Lemma block_end r i : block_lacks r i -> f_block r = inl i.
Proof.
  intros [[-> ->]|[[L ->]|(ty & len & x & -> & _ & Hl & L & ->)]]; [reflexivity|destruct (one_byte r L) as [b ->]; reflexivity|].
  unfold u8. cbn [app f_block]. rewrite b2n_n2b_small by exact Hl. destruct (N.ltb_spec (lenN x) len); [reflexivity|lia].
Qed.
Lemma enc_end r i : enc_lacks r i -> f_enc r = inl i.
Proof.
  intros [[-> ->]|[[L ->]|[L ->]]]; [reflexivity|destruct (one_byte r L) as [b ->]; reflexivity|].
  destruct r as [|a [|b x]]; try (unfold lenN in L; cbn [length] in L; lia). cbn [f_enc]. destruct (N.ltb_spec (lenN x) 255) as [_|G]; [reflexivity|]. unfold lenN in *. cbn [length] in L. lia.
Qed.
Lemma drop_u64 v (r : bytes) : dropN 8 (u64 v ++ r) = r.
Proof. rewrite dropN_app_ge by (rewrite u64_len; lia). rewrite u64_len. reflexivity. Qed.
Lemma chain_all k c lb r : chain_shape c lb -> f_chain_end k (ser_chain lb c ++ r) = inr r.
Proof.
  destruct c as [[m it] x]. intros (Hm & Hi & F & Lb & L). cbn [fst snd] in *. destruct (fits_length m x lb Hm F Lb) as [E1 E2].
  unfold ser_chain, u8. cbn [fst snd app f_chain_end]. rewrite <- !app_assoc. rewrite lenN_app, u64_len. match goal with |- context [8 + ?q <? 8] => destruct (N.ltb_spec (8 + q) 8); [lia|] end.
  rewrite drop_u64. cbn [app]. rewrite !b2n_n2b_small by lia. rewrite E1, lenN_app. destruct (N.ltb_spec (lenN x + lenN r) (lenN x)); [lia|].
  apply negb_true_iff in E2. rewrite E2. cbn [orb]. rewrite dropN_app_exact. reflexivity.
Qed.
Lemma chain_end k r i : chain_lacks k r i -> f_chain_end k r = inl i.
Proof.
  intros [[-> ->]|[(m & x & -> & _ & L & ->)|[(m & x & -> & _ & L & ->)|(m & it & lb & x & -> & Hm & Hi & Hl & K & ->)]]]; unfold u8; cbn [app f_chain_end].
  - reflexivity.
  - destruct (N.ltb_spec (lenN x) 8); [reflexivity|lia].
  - rewrite L. cbn [N.ltb N.compare Pos.compare Pos.compare_cont]. rewrite <- L, dropN_all by lia. reflexivity.
  - rewrite lenN_app, u64_len. match goal with |- context [8 + ?q <? 8] => destruct (N.ltb_spec (8 + q) 8); [lia|] end. rewrite drop_u64. cbn [app]. rewrite !b2n_n2b_small by lia.
    destruct K as [K|[-> K]].
    + apply N.ltb_lt in K. rewrite K. reflexivity.
    + apply N.ltb_lt in K. rewrite K, orb_true_r. reflexivity.
Qed.
Lemma tail_end n r i : tail_lacks n r i -> f_tail n r = inl i.
Proof.
  unfold f_tail. intros [[L ->]|[[L ->]|(v & m & es & r' & Lv & -> & F & Le & Hm & K)]].
  - destruct (N.ltb_spec (lenN r) n); [reflexivity|lia].
  - destruct (N.ltb_spec (lenN r) n); [lia|]. destruct (N.ltb_spec (lenN r) (2 * n)); [reflexivity|lia].
  - rewrite lenN_app, Lv. destruct (N.ltb_spec (2 * n + lenN (u8 m ++ concat (map ser_enc es) ++ r')) n); [lia|].
    destruct (N.ltb_spec (2 * n + lenN (u8 m ++ concat (map ser_enc es) ++ r')) (2 * n)); [lia|]. rewrite <- Lv, dropN_app_exact. unfold u8. cbn [app]. rewrite b2n_n2b_small by exact Hm.
    apply (many_end ser_enc f_enc enc_ok enc_lacks enc_all enc_end); [exact F| |exact K]. unfold lenN in Le. lia.
Qed.
Lemma file_end file i : ends_in file i -> f_file file = inl i.
Proof.
  intros (hs & hm & n & bs & r & E & _ & Vh & Vn & F & K). unfold f_file. rewrite E. unfold pre. rewrite <- !app_assoc.
  replace (dropN 17 _) with (u8 hm ++ u8 n ++ concat (map ser_block bs) ++ r).
  2:{ symmetry. rewrite dropN_app_ge by (rewrite u64_len; lia). rewrite u64_len. rewrite dropN_app_ge by (rewrite u64_len; lia). rewrite u64_len. reflexivity. }
  unfold u8. cbn [app]. rewrite !b2n_n2b_small by lia. destruct K as [[L K]|[L K]].
  - rewrite (many_end ser_block f_block block_ok block_lacks block_all block_end bs _ r i F); [reflexivity|unfold lenN in L; lia|exact K].
  - replace (N.to_nat n) with (length bs) by (unfold lenN in L; lia). rewrite (many_all ser_block f_block block_ok block_all bs r F). cbn [next].
    destruct K as [K|(c1 & l1 & r1 & -> & S1 & K)]; [rewrite (chain_end _ _ _ K); reflexivity|]. rewrite (chain_all _ _ _ _ S1). cbn [next].
    destruct K as [K|(c2 & l2 & r2 & -> & S2 & K)]; [rewrite (chain_end _ _ _ K); reflexivity|]. rewrite (chain_all _ _ _ _ S2). cbn [next]. apply tail_end, K.
Qed.
Lemma one_field file i j : ends_in file i -> ends_in file j -> i = j.
Proof. intros A B. apply file_end in A, B. congruence. Qed.

(** ** A file that is only too short *)
Lemma take_one (b : byte) r : take_num 1 (b :: r) = Gives (b2n b, r).
Proof. rewrite <- (n2b_b2n b) at 1. exact (take_1 (b2n b) r (b2n_lt b)). Qed.
Lemma take_block_end r i n : block_lacks r i -> take_blocks (S n) r = Rejects ERR_NOT_ENOUGH_DATA.
Proof.
  intros [[-> ->]|[[L ->]|(ty & len & x & -> & Ht & Hl & L & ->)]]; cbn [take_blocks]; [reflexivity| |].
  - destruct (one_byte r L) as [b ->]. rewrite take_one. reflexivity.
  - rewrite take_1 by exact Ht. cbn [also]. rewrite take_1 by exact Hl. cbn [also]. rewrite take_n_short by exact L. reflexivity.
Qed.
Lemma take_enc_end r i n : enc_lacks r i -> take_encs (S n) r = Rejects ERR_NOT_ENOUGH_DATA.
Proof.
  intros [[-> ->]|[[L ->]|[L ->]]]; cbn [take_encs]; [reflexivity| |].
  - destruct (one_byte r L) as [b ->]. rewrite take_one. reflexivity.
  - destruct r as [|a [|b x]]; try (unfold lenN in L; cbn [length] in L; lia). rewrite take_one. cbn [also]. rewrite take_one. cbn [also]. rewrite take_n_short; [reflexivity|]. unfold lenN in *. cbn [length] in L. lia.
Qed.
Lemma take_blocks_good bs r : Forall good bs -> take_blocks (length bs) (concat (map ser_block bs) ++ r) = Gives (bs, r).
Proof.
  induction 1 as [|[ty x] bs [[B1 B2] Ne] F IH]; [reflexivity|]. cbn [fst snd] in *. cbn [length take_blocks map concat]. unfold ser_block at 1. cbn [fst snd]. rewrite <- !app_assoc.
  rewrite take_1 by exact B1. cbn [also]. rewrite take_1 by lia. cbn [also]. rewrite take_n_app. cbn [also]. destruct (N.eqb_spec (lenN x) 0) as [E|_]; [destruct x; [contradiction|discriminate E]|].
  rewrite IH. reflexivity.
Qed.
Lemma take_blocks_short bs n r i : Forall good bs -> (length bs < n)%nat -> block_lacks r i -> take_blocks n (concat (map ser_block bs) ++ r) = Rejects ERR_NOT_ENOUGH_DATA.
Proof.
  intros F. revert n. induction F as [|[ty x] bs [[B1 B2] Ne] F IH]; intros n L K; destruct n as [|n]; cbn [length] in L; try lia; [exact (take_block_end r i n K)|].
  cbn [fst snd] in *. cbn [take_blocks map concat]. unfold ser_block at 1. cbn [fst snd]. rewrite <- !app_assoc.
  rewrite take_1 by exact B1. cbn [also]. rewrite take_1 by lia. cbn [also]. rewrite take_n_app. cbn [also]. destruct (N.eqb_spec (lenN x) 0) as [E|_]; [destruct x; [contradiction|discriminate E]|].
  rewrite IH by (try lia; exact K). reflexivity.
Qed.
Lemma take_encs_short bs n r i : Forall enc_ok bs -> (length bs < n)%nat -> enc_lacks r i -> take_encs n (concat (map ser_enc bs) ++ r) = Rejects ERR_NOT_ENOUGH_DATA.
Proof.
  intros F. revert n. induction F as [|[[ty l] x] bs (B1 & B2 & B3) F IH]; intros n L K; destruct n as [|n]; cbn [length] in L; try lia; [exact (take_enc_end r i n K)|].
  cbn [fst snd] in *. cbn [take_encs map concat]. unfold ser_enc at 1. cbn [fst snd]. rewrite <- !app_assoc.
  rewrite take_1 by exact B1. cbn [also]. rewrite take_1 by exact B2. cbn [also]. rewrite take_n_eq by exact B3. cbn [also]. rewrite IH by (try lia; exact K). reflexivity.
Qed.
Lemma take_chain_end bd code k r i : chain_lacks k r i -> take_chain bd code r = Rejects ERR_NOT_ENOUGH_DATA.
Proof.
  intros [[-> ->]|[(m & x & -> & Hm & L & ->)|[(m & x & -> & Hm & L & ->)|(m & it & lb & x & -> & Hm & Hi & Hl & K & ->)]]]; unfold take_chain; [reflexivity|..];
    rewrite take_1 by lia; cbn [also]; assert ((1 <=? m) && (m <=? 5) = true) as -> by (rewrite andb_true_iff, !N.leb_le; exact Hm); cbn [check also].
  - rewrite take_8_none by exact L. reflexivity.
  - unfold take_num at 1, take_n at 1. rewrite L. cbn [N.leb N.compare Pos.compare Pos.compare_cont also]. rewrite dropN_all by lia. reflexivity.
  - rewrite take_8 by exact Hi. cbn [also]. rewrite take_1 by exact Hl. cbn [also]. destruct K as [K|[-> K]].
    + destruct (negb _); cbn [check also]; [|reflexivity]. rewrite take_n_short by exact K. reflexivity.
    + apply N.ltb_lt in K. rewrite K. reflexivity.
Qed.
Lemma take_chain_good bd code c r : chain_ok c -> take_chain bd code (ser_chain (lenN (snd c)) c ++ r) = Gives (c, r).
Proof.
  intros Ok. rewrite (take_chain_fwd bd code c _ r (shape_own c Ok)). unfold chain_ver. rewrite N.eqb_refl. destruct Ok as (_ & Hi & _). rewrite <- iters_ok_eq.
  assert ((1 <=? snd (fst c)) && (snd (fst c) <=? 1000000000) = true) as -> by (rewrite andb_true_iff, !N.leb_le; exact Hi). destruct bd; reflexivity.
Qed.
Lemma lack_code bd file i : lenN file < two64 -> only_ends_in file i -> read_file bd file = Rejects ERR_NOT_ENOUGH_DATA.
Proof.
  intros L (hs & hm & n & bs & r & E & Hh & Vh & Vn & F & K). unfold read_file. rewrite E at 1. unfold pre. rewrite <- !app_assoc.
  rewrite take_8 by exact L. cbn [also]. rewrite take_8 by lia. cbn [also]. rewrite N.eqb_refl. cbn [check also]. assert (hs <=? lenN file = true) as -> by (apply N.leb_le; exact Hh). cbn [check also].
  rewrite take_1 by lia. cbn [also]. rewrite take_1 by lia. cbn [also]. assert ((1 <=? hm) && (hm <=? 3) = true) as -> by (rewrite andb_true_iff, !N.leb_le; exact Vh). cbn [check also N.eqb Pos.eqb].
  rewrite take_1 by exact Vn. cbn [also]. destruct K as [[Lb K]|[Lb K]].
  { rewrite (take_blocks_short bs _ r i F); [reflexivity|unfold lenN in Lb; lia|exact K]. }
  replace (N.to_nat n) with (length bs) by (unfold lenN in Lb; lia). rewrite (take_blocks_good bs _ F). cbn [also].
  destruct K as [K|(c1 & l1 & r1 & -> & [S1 ->] & K)]; [rewrite (take_chain_end bd _ _ _ _ K); reflexivity|]. rewrite (take_chain_good bd _ c1 _ S1). cbn [also].
  destruct K as [K|(c2 & l2 & r2 & -> & [S2 ->] & K)]; [rewrite (take_chain_end bd _ _ _ _ K); reflexivity|]. rewrite (take_chain_good bd _ c2 _ S2). cbn [also].
  destruct K as [[Lr ->]|[[Lr ->]|(v & m & es & r' & Lv & -> & Fe & Le & Hm & K)]].
  - rewrite take_n_short by exact Lr. reflexivity.
  - unfold take_n at 1. destruct (N.leb_spec (digest_len hm) (lenN r2)) as [_|X]; [|lia]. cbn [also]. rewrite take_n_short by (rewrite lenN_dropN; lia). reflexivity.
  - rewrite <- (takeN_dropN (digest_len hm) v). rewrite <- app_assoc. rewrite take_n_eq by (rewrite lenN_takeN; lia). cbn [also]. rewrite take_n_eq by (rewrite lenN_dropN; lia). cbn [also].
    assert (lenN (u8 m ++ concat (map ser_enc es) ++ r') =? 0 = false) as -> by (apply N.eqb_neq; rewrite lenN_app; change (lenN (u8 m)) with 1; lia). cbn [negb check also].
    rewrite take_1 by exact Hm. cbn [also]. rewrite (take_encs_short es _ r' i Fe); [reflexivity|unfold lenN in Le; lia|exact K].
Qed.
Lemma only_is file i : only_ends_in file i -> ends_in file i.
Proof.
  intros (hs & hm & n & bs & r & E & Hh & Vh & Vn & F & K). exists hs, hm, n, bs, r. split; [exact E|]. split; [exact Hh|]. split; [exact Vh|]. split; [exact Vn|].
  split; [eapply Forall_impl; [|exact F]; intros b [B _]; exact B|].
  destruct K as [K|[Lb K]]; [left; exact K|right; split; [exact Lb|]].
  destruct K as [K|(c1 & l1 & r1 & -> & [S1 ->] & K)]; [left; exact K|right]. exists c1, (lenN (snd c1)), r1. split; [reflexivity|]. split; [apply shape_own, S1|].
  destruct K as [K|(c2 & l2 & r2 & -> & [S2 ->] & K)]; [left; exact K|right]. exists c2, (lenN (snd c2)), r2. split; [reflexivity|]. split; [apply shape_own, S2|exact K].
Qed.
Lemma select_short bd H w a f p c i : world_ok bd H w -> fs_ok f -> a_state a = INIT -> enc_path p -> w_stat w p = true -> w_read w p = true -> f (w_loc w p) = Some c ->
  104 <= be_val (takeN 8 (dropN 8 c)) -> only_ends_in c i -> exists x, told w a f (OSelect p) = Some x /\ x_code x = ERR_NOT_ENOUGH_DATA /\ x_info x = i.
Proof.
  intros W Hf S0 Ep St Rd Fc Lo K. assert (openable w f p c) as O by (split; [exact Ep|]; split; [exact St|]; split; [exact Fc|exact Rd]).
  assert (lenN c < two64) as L by (apply lt63_two64; exact (Hf _ _ Fc)).
  assert (told w a f (OSelect p) = told w (fresh 1) f (OSelect p)) as Ef by (unfold told; rewrite S0; reflexivity).
  assert (sized c = true) as Sz.
  { destruct K as (hs & hm & n & bs & r & E & Hh & _). unfold sized, header_size. apply orb_true_iff. right.
    assert (takeN 8 c = u64 (lenN c) /\ takeN 8 (dropN 8 c) = u64 hs) as [E1 E2].
    { rewrite E at 1 3. unfold pre. rewrite <- !app_assoc. rewrite drop_u64. split; rewrite takeN_app_le by (rewrite u64_len; lia); apply takeN_all; rewrite u64_len; lia. }
    rewrite E2 in *. rewrite u64_val in * by lia. rewrite E1, u64_val by exact L. rewrite N.eqb_refl, !andb_true_iff, !N.leb_le. repeat split; try lia. }
  pose proof (select_ref bd H w f p W Hf) as Sr. unfold looked_at, opened_sized in Sr. rewrite (proj2 (opened_gives w f p c) O) in Sr. cbn [also] in Sr. rewrite Sz in Sr. cbn [also] in Sr.
  assert (lenN c =? 0 = false) as Z.
  { apply N.eqb_neq. destruct K as (hs & hm & n & bs & r & E & _). rewrite E. unfold pre. rewrite !lenN_app, !u64_len. lia. }
  rewrite Z, (lack_code (w_build w) c i L K) in Sr. cbn [also] in Sr.
  pose proof (told_code w (fresh 1) f (OSelect p)) as T. unfold step in T. cbn [a_state fresh snd fst] in T. rewrite Sr in T. cbn in T. change (failed_with (f_selectFile w f p)) with (told w (fresh 1) f (OSelect p)) in T.
  destruct (told w (fresh 1) f (OSelect p)) as [x|] eqn:Tx; [|discriminate T]. injection T as T. exists x. rewrite Ef. split; [reflexivity|]. split; [exact T|].
  assert (stream_of w f p = c) as Es by exact (openable_stream _ _ _ _ O).
  apply (one_field c); [|apply only_is, K]. rewrite <- Es. destruct W as (_ & _ & R & _). refine (select_lack w (fresh 1) f p x R _ eq_refl Tx T). rewrite Es. exact L.
Qed.
