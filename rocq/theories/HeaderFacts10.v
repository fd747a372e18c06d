(** Proofs about the password check, the data size, the in-memory decoder and setHeaderParts. *)
From Verif Require Import Base BaseFacts BytesModel BytesFacts MiscModel MiscFacts CipherModel CipherFacts PwModel PwSpec PwFacts ChModel ChSpec ChFacts ChFacts2
  HeaderModel HeaderSpec HeaderFacts HeaderFacts2 HeaderFacts3 HeaderFacts4 HeaderFacts5 HeaderFacts6 HeaderFacts7 HeaderFacts9.
Ltac Zify.zify_post_hook ::= Z.div_mod_to_equations.

(** C24 *)
Lemma check_spec mode H clk pw d h : hinv mode d -> contents d = Some h -> hashes_ok H ->
  bdata pw <> [] -> getLen pw <= bmax pw -> bmax pw + 275 < 2 ^ 64 ->
  checkPwHash H clk pw (d_parts d) =
    if eqb_bytes (h_valid h) (chain_value (hash_of H (h_hmode h)) (h_ch2 h) (bdata pw)) then Ret tt else Throw InvalidArgument.
Proof.
  intros I C HH Hp L1 L2. destruct (contents_parts d h C) as (v & s & P1 & P2 & P3 & P4 & P5 & P6 & P7 & P8 & _).
  pose proof (contents_ok mode d h I C) as [Hh M]. unfold checkPwHash. unfold isEmpty, getLen. destruct (bdata pw) as [|x0 x] eqn:Ep; [contradiction|].
  rewrite lenN_cons. destruct (N.eqb_spec (1 + lenN x) 0); [lia|]. unfold p_getHashMode. rewrite P2. cbn [bind].
  destruct (hash_mode_ok H (h_hmode h) HH) as (hf & -> & Hok & Hfun); [rewrite M; apply (i_range _ _ I)|]. cbn [bind].
  unfold p_getValid. rewrite P5. cbn [bind]. destruct (chain_bytes _ _ hf clk pw (i_ch2 _ _ I) P4 Hok L1 L2) as (b & -> & Eb). cbn [bind].
  rewrite <- P6, <- Ep, <- Hfun, <- Eb. unfold eqBytes, getLen, copyBytes. cbn [bdata].
  destruct (N.eqb_spec (lenN (bdata v)) (lenN (bdata b))) as [L|L]; [reflexivity|].
  destruct (eqb_bytes (bdata v) (bdata b)) eqn:E; [|reflexivity]. apply eqb_bytes_spec in E. exfalso. apply L. congruence.
Qed.
Lemma calc_check bd H clk pw d h : hbuilt bd d -> contents d = Some h -> hashes_ok H ->
  bdata pw <> [] -> getLen pw <= bmax pw -> bmax pw + 275 < 2 ^ 64 ->
  forall n, d_fsize d = Some n -> hdr_len h <= n ->
  (chain_value (hash_of H (h_hmode h)) (h_ch2 h) (bdata pw) = h_valid h -> exists d', calcHeaderBytes H clk pw d = (d', Ret tt) /\ contents d' = Some h) /\
  (chain_value (hash_of H (h_hmode h)) (h_ch2 h) (bdata pw) <> h_valid h -> calcHeaderBytes H clk pw d = (d, Throw InvalidArgument)).
Proof.
  intros Hd C HH Hp L1 L2 n F L. destruct (hbuilt_inv bd d Hd) as (mode & I & B). rewrite (calc_spec mode H clk pw d h I C), F.
  destruct (N.ltb_spec n (hdr_len h)); [lia|]. rewrite (check_spec mode H clk pw d h I C HH Hp L1 L2). split; intros E.
  - rewrite E, eqb_bytes_refl. eexists. split; [reflexivity|]. exact C.
  - destruct (eqb_bytes (h_valid h) _) eqn:X; [apply eqb_bytes_spec in X; congruence|reflexivity].
Qed.
Lemma calc_accepts bd H clk pw d d' h : hbuilt bd d -> contents d = Some h -> hashes_ok H ->
  bdata pw <> [] -> getLen pw <= bmax pw -> bmax pw + 275 < 2 ^ 64 ->
  calcHeaderBytes H clk pw d = (d', Ret tt) -> chain_value (hash_of H (h_hmode h)) (h_ch2 h) (bdata pw) = h_valid h.
Proof.
  intros Hd C HH Hp L1 L2 E. destruct (calc_bytes bd H clk pw d d' Hd E) as (h' & n & b & C' & _ & F & _ & L & _).
  assert (h' = h) by congruence. subst h'. destruct (calc_check bd H clk pw d h Hd C HH Hp L1 L2 n F L) as [_ B].
  destruct (eqb_bytes (chain_value (hash_of H (h_hmode h)) (h_ch2 h) (bdata pw)) (h_valid h)) eqn:X; [apply eqb_bytes_spec in X; exact X|].
  apply eqb_bytes_false in X. rewrite (B X) in E. discriminate.
Qed.

(** C27 *)
Lemma data_size bd d h n : hbuilt bd d -> contents d = Some h ->
  exists d', setDataSize n d = Ret d' /\ contents d' = Some h /\ d_fsize d' = Some ((n + hdr_len h) mod 2 ^ 32) /\
    (d_fsize d' = Some (n + hdr_len h) <-> n + hdr_len h < 2 ^ 32).
Proof.
  intros Hd C. destruct (hbuilt_inv bd d Hd) as (mode & I & B). unfold setDataSize.
  assert (d_isComplete d = true) as -> by (apply (complete_contents mode d I); eauto). cbn [negb].
  pose proof (header_length mode _ h (hinv_bytes mode d (clearBytes (d_bytes d)) I)) as L. rewrite contents_bytes in L. rewrite (L C). cbn [bind].
  eexists. split; [reflexivity|]. split; [exact C|]. cbn [d_fsize].
  assert (w32 (w32 n + hdr_len h) = (n + hdr_len h) mod 2 ^ 32) as ->.
  { unfold w32. change two32 with (2 ^ 32). apply N.add_mod_idemp_l. discriminate. }
  split; [reflexivity|]. split.
  - intros E. assert ((n + hdr_len h) mod 2 ^ 32 = n + hdr_len h) as X by congruence. pose proof (N.mod_lt (n + hdr_len h) (2 ^ 32) ltac:(discriminate)). lia.
  - intros X. f_equal. apply N.mod_small. exact X.
Qed.

(** C22 *)
Lemma found_split f i x : found f i x <-> i <= lenN f /\ exists r, dropN i f = x ++ r.
Proof.
  split.
  - intros (p & r & -> & <-). rewrite dropN_app_exact. split; [rewrite lenN_app; lia|eauto].
  - intros [L (r & E)]. exists (takeN i f), r. rewrite <- E, takeN_dropN. split; [reflexivity|]. rewrite lenN_takeN. lia.
Qed.
Lemma layout_view fs hsz l1 l2 h body : header_ok h ->
  let f := layout_with fs hsz l1 l2 h ++ body in
  found f 0 (pre fs hsz (h_hmode h) (lenN (h_blocks h)) (h_blocks h)) /\ found f (pos1 h) (ser_chain l1 (h_ch1 h)) /\
  dropN (pos2 h) f = free_salt (h_ch1 h) ++ ser_chain l2 (h_ch2 h) ++ tail_of h ++ body /\
  (free_salt (h_ch1 h) = [] -> dropN (pos3 h) f = free_salt (h_ch2 h) ++ tail_of h ++ body).
Proof.
  intros Hh f. assert (f = pre fs hsz (h_hmode h) (lenN (h_blocks h)) (h_blocks h) ++ ser_chain l1 (h_ch1 h) ++ ser_chain l2 (h_ch2 h) ++ tail_of h ++ body) as Ef.
  { unfold f. rewrite (layout_pre _ _ _ _ _ _ (proj1 Hh)). unfold tail_of. rewrite <- !app_assoc. reflexivity. }
  assert (lenN (pre fs hsz (h_hmode h) (lenN (h_blocks h)) (h_blocks h)) = pos1 h) as Lp.
  { unfold pre, pos1. rewrite !lenN_app, !u64_len, !u8_len. lia. }
  assert (forall c lb, ser_chain lb c = takeN (stepped c) (ser_chain lb c) ++ dropN (stepped c) (ser_chain lb c)) as Sp by (intros; symmetry; apply takeN_dropN).
  assert (forall c lb, chain_ok c -> exists p, ser_chain lb c = p ++ free_salt c /\ lenN p = stepped c) as Sc.
  { intros [[m it] x] lb (M & _ & Ft). cbn [fst snd] in M, Ft. unfold ser_chain, stepped, free_salt. cbn [fst snd].
    destruct (N.eq_dec m 2) as [->|M2]; [|destruct (N.eq_dec m 4) as [->|M4]].
    - exists (u8 2 ++ u64 it ++ u8 lb). rewrite <- !app_assoc. split; [reflexivity|]. rewrite !lenN_app, !u8_len, u64_len. lia.
    - cbn [data_fits] in Ft. exists (u8 4 ++ u64 it ++ u8 lb ++ takeN 8 x). rewrite <- !app_assoc, takeN_dropN. split; [reflexivity|].
      rewrite !lenN_app, !u8_len, u64_len, lenN_takeN. rewrite lenN_dropN. lia.
    - exists (u8 m ++ u64 it ++ u8 lb ++ x). assert (m = 1 \/ m = 3 \/ m = 5) as [->|[->| ->]] by lia; rewrite app_nil_r; (split; [reflexivity|]);
        rewrite !lenN_app, !u8_len, u64_len; change (lenN (@nil byte)) with 0; lia. }
  pose proof Hh as (_ & _ & _ & _ & C1 & C2 & _). destruct (Sc (h_ch1 h) l1 C1) as (p1 & E1 & L1). destruct (Sc (h_ch2 h) l2 C2) as (p2 & E2 & L2). spl.
  - exists [], (ser_chain l1 (h_ch1 h) ++ ser_chain l2 (h_ch2 h) ++ tail_of h ++ body). split; [exact Ef|reflexivity].
  - exists (pre fs hsz (h_hmode h) (lenN (h_blocks h)) (h_blocks h)), (ser_chain l2 (h_ch2 h) ++ tail_of h ++ body). auto.
  - rewrite Ef, E1. rewrite <- app_assoc. unfold pos2. rewrite dropN_app_ge by lia. rewrite Lp. rewrite dropN_app_ge by lia.
    replace (pos1 h + stepped (h_ch1 h) - pos1 h - lenN p1) with 0 by lia. rewrite dropN_0. reflexivity.
  - intros E0. rewrite Ef, E1, E0, app_nil_r. unfold pos3, pos2. rewrite dropN_app_ge by lia. rewrite Lp. rewrite dropN_app_ge by lia.
    rewrite E2 at 1. rewrite <- app_assoc. rewrite dropN_app_ge by lia. replace (_ - lenN p2) with 0 by lia. rewrite dropN_0. reflexivity.
Qed.

Lemma decoded_inj fs h fs' h' : header_ok h -> header_ok h' -> decoded fs h = decoded fs' h' -> fs = fs' /\ h = h'.
Proof.
  intros Hh Hh' E. pose proof (decoded_contents fs h Hh) as C. rewrite E, (decoded_contents fs' h' Hh') in C.
  split; [|congruence]. assert (d_fsize (decoded fs h) = d_fsize (decoded fs' h')) as F by (rewrite E; reflexivity). injection F as ->. reflexivity.
Qed.
(** both builds read back what has no salt of free length *)
Lemma mem_reads_back bd rnd fs h body cap : (forall k, lenN (rnd k) = k) -> header_ok h -> no_empty_block h ->
  free_salt (h_ch1 h) = [] -> free_salt (h_ch2 h) = [] -> hdr_len h < 65536 -> hdr_len h <= fs -> fs < two64 -> hdr_len h + lenN body < two64 ->
  decode_mem bd rnd (mkBytes (ser fs h ++ body) cap) = Ret (inr (decoded fs h)).
Proof.
  intros Hr Hh Hn F1 F2 Hs Hf Hf' Hb. pose proof (pos4_len h Hh) as P. rewrite F1, F2 in P. change (lenN (@nil byte)) with 0 in P.
  pose proof (layout_view fs (hdr_len h) (lenN (snd (h_ch1 h))) (lenN (snd (h_ch2 h))) h body Hh) as (V1 & V2 & V3 & V4).
  assert (getLen (mkBytes (ser fs h ++ body) cap) = hdr_len h + lenN body) as L by (unfold getLen; cbn [bdata]; rewrite lenN_app, (ser_len _ _ Hh); reflexivity).
  pose proof Hh as (_ & _ & _ & _ & (_ & _ & D1) & (_ & _ & D2) & _). apply data_fits_len in D1, D2.
  rewrite (mem_fwd bd rnd _ fs (hdr_len h) (lenN (snd (h_ch1 h))) (lenN (snd (h_ch2 h))) h); try assumption; try lia.
  - unfold mem_final. destruct bd; [|reflexivity]. assert (pos4 h = hdr_len h) as -> by lia. rewrite N.eqb_refl. reflexivity.
  - intros _. reflexivity.
  - intros _. reflexivity.
  - unfold mem_view. cbn [bdata]. fold (ser fs h) in V1, V2, V3, V4. spl; [exact V1|exact V2| |].
    + apply found_split. pose proof (tail_len h Hh). rewrite V3, F1. unfold getLen in L. cbn [bdata] in L. split; [rewrite L; unfold pos4, pos3 in P; lia|]. cbn [app]. eauto.
    + apply found_split. rewrite (V4 F1), F2. unfold getLen in L. cbn [bdata] in L. split; [rewrite L; unfold pos4 in P; lia|]. cbn [app]. eauto.
Qed.
(** a debug build accepts nothing else *)
Lemma mem_debug rnd f d : (forall k, lenN (rnd k) = k) -> getLen f < two64 ->
  (decode_mem Debug rnd f = Ret (inr d) <->
   exists fs h body, header_ok h /\ no_empty_block h /\ free_salt (h_ch1 h) = [] /\ free_salt (h_ch2 h) = [] /\ hdr_len h < 65536 /\
     hdr_len h <= fs /\ fs < two64 /\ bdata f = ser fs h ++ body /\ d = decoded fs h).
Proof.
  intros Hr Hl. split.
  - intros E. destruct (mem_inv Debug rnd f d Hr E) as (fs & hsz & l1 & l2 & h & Hf & Hs & Hh & Hn & Hf' & -> & L1 & L1' & L2 & L2' & Bd & Vw).
    destruct (Bd eq_refl) as (E1 & E2 & E3 & E4). pose proof (pos4_len h Hh) as P.
    assert (w16 (pos4 h) <= pos4 h) as W by (apply N.mod_le; lia). pose proof (w16_lt (pos4 h)) as W'.
    assert (lenN (free_salt (h_ch1 h)) = 0) as Z1 by lia. assert (lenN (free_salt (h_ch2 h)) = 0) as Z2 by lia. apply lenN_0 in Z1, Z2.
    assert (pos4 h <= 65536) as P4 by lia. destruct (Vw P4) as (V1 & V2 & V3 & V4).
    exists fs, h. assert (found (bdata f) 0 (ser fs h)) as (p & body & Ef & Lp).
    { unfold ser. rewrite <- (app_nil_r (layout_with _ _ _ _ _)), (layout_pre _ _ _ _ _ _ (proj1 Hh)). rewrite app_nil_r.
      assert (hsz = hdr_len h) as X by exact E3. subst hsz.
      rewrite found_app. split; [exact V1|]. assert (lenN (pre fs (hdr_len h) (h_hmode h) (lenN (h_blocks h)) (h_blocks h)) = pos1 h) as ->.
      { unfold pre, pos1. rewrite !lenN_app, !u64_len, !u8_len. lia. }
      rewrite N.add_0_l. pose proof Hh as (_ & _ & _ & _ & C1 & C2 & _). rewrite found_app. split; [rewrite <- E1; exact V2|].
      rewrite ser_chain_len. pose proof (stepped_len _ C1) as S1. rewrite Z1 in S1. change (lenN (@nil byte)) with 0 in S1.
      replace (pos1 h + (10 + lenN (snd (h_ch1 h)))) with (pos2 h) by (unfold pos2; lia). rewrite found_app. split; [rewrite <- E2; exact V3|].
      rewrite ser_chain_len. pose proof (stepped_len _ C2) as S2. rewrite Z2 in S2. change (lenN (@nil byte)) with 0 in S2.
      replace (pos2 h + (10 + lenN (snd (h_ch2 h)))) with (pos3 h) by (unfold pos3; lia). exact V4. }
    apply lenN_0 in Lp. subst p. exists body. spl; try assumption; try lia; reflexivity.
  - intros (fs & h & body & Hh & Hn & F1 & F2 & Hs & Hf & Hf' & Ef & ->). destruct f as [fd cap]. cbn [bdata] in Ef. subst fd.
    apply mem_reads_back; try assumption. unfold getLen in Hl. cbn [bdata] in Hl. rewrite lenN_app, (ser_len _ _ Hh) in Hl. exact Hl.
Qed.
(** a release build returns the header exactly if what follows a salt is found again inside it *)
Lemma mem_release rnd fs h body cap : (forall k, lenN (rnd k) = k) -> header_ok h -> no_empty_block h ->
  hdr_len h < 65536 -> hdr_len h <= fs -> fs < two64 -> hdr_len h + lenN body < two64 ->
  ((exists d, decode_mem Release rnd (mkBytes (ser fs h ++ body) cap) = Ret (inr d) /\ contents d = Some h) <->
   exists l2, l2 < 256 /\ lb_ok (fst (fst (h_ch2 h))) (snd (h_ch2 h)) l2 /\
     found (ser fs h ++ body) (pos2 h) (ser_chain l2 (h_ch2 h)) /\ found (ser fs h ++ body) (pos3 h) (tail_of h)).
Proof.
  intros Hr Hh Hn Hs Hf Hf' Hb. pose proof (pos4_len h Hh) as P.
  pose proof (layout_view fs (hdr_len h) (lenN (snd (h_ch1 h))) (lenN (snd (h_ch2 h))) h body Hh) as (V1 & V2 & _).
  fold (ser fs h) in V1, V2.
  assert (getLen (mkBytes (ser fs h ++ body) cap) = hdr_len h + lenN body) as L by (unfold getLen; cbn [bdata]; rewrite lenN_app, (ser_len _ _ Hh); reflexivity).
  split.
  - intros (d & E & C). destruct (mem_inv Release rnd _ d Hr E) as (fs' & hsz & l1 & l2 & h' & _ & _ & Hh' & _ & _ & -> & _ & _ & L2 & L2' & _ & Vw).
    rewrite (decoded_contents fs' h' Hh') in C. injection C as ->. assert (pos4 h <= 65536) as P4 by lia. destruct (Vw P4) as (_ & _ & V3 & V4). cbn [bdata] in V3, V4. eauto.
  - intros (l2 & L2' & L2 & V3 & V4). exists (decoded fs h). split; [|apply decoded_contents; exact Hh].
    pose proof Hh as (_ & _ & _ & _ & (_ & _ & D1) & (_ & _ & D2) & _). apply data_fits_len in D1, D2.
    rewrite (mem_fwd Release rnd _ fs (hdr_len h) (lenN (snd (h_ch1 h))) l2 h); try assumption; try lia.
    + reflexivity.
    + intros _. reflexivity.
    + unfold mem_view. cbn [bdata]. auto.
    + left. reflexivity.
Qed.
(** so a salt has to imitate what follows it *)
Lemma prefix_of (x y a b : bytes) n : x ++ a = y ++ b -> lenN y = n -> lenN x + lenN a >= n -> takeN n (x ++ a) = y.
Proof. intros E L _. rewrite E, <- L. apply takeN_app_exact. Qed.
Lemma mem_imitate rnd fs h body cap d : (forall k, lenN (rnd k) = k) -> header_ok h -> no_empty_block h ->
  hdr_len h < 65536 -> hdr_len h <= fs -> fs < two64 -> hdr_len h + lenN body < two64 ->
  decode_mem Release rnd (mkBytes (ser fs h ++ body) cap) = Ret (inr d) -> contents d = Some h ->
  let '(m2, i2, _) := h_ch2 h in
  takeN 9 (free_salt (h_ch1 h) ++ u8 m2 ++ u64 i2) = u8 m2 ++ u64 i2 /\
  (free_salt (h_ch1 h) = [] -> takeN (2 * digest_len (h_hmode h)) (free_salt (h_ch2 h) ++ h_valid h ++ h_salt h) = h_valid h ++ h_salt h).
Proof.
  intros Hr Hh Hn Hs Hf Hf' Hb E C.
  destruct (proj1 (mem_release rnd fs h body cap Hr Hh Hn Hs Hf Hf' Hb) (ex_intro _ d (conj E C))) as (l2 & L2' & L2 & V3 & V4).
  pose proof (layout_view fs (hdr_len h) (lenN (snd (h_ch1 h))) (lenN (snd (h_ch2 h))) h body Hh) as (_ & _ & W3 & W4). fold (ser fs h) in W3, W4.
  apply found_split in V3, V4. destruct V3 as [_ (r3 & V3)]. destruct V4 as [_ (r4 & V4)]. rewrite W3 in V3.
  destruct (h_ch2 h) as [[m2 i2] x2] eqn:Ec. unfold ser_chain in V3. cbn [fst snd] in V3. split.
  - rewrite <- !app_assoc in V3. assert (lenN (u8 m2 ++ u64 i2) = 9) as L9 by (rewrite lenN_app, u8_len, u64_len; reflexivity).
    assert (takeN 9 (free_salt (h_ch1 h) ++ u8 m2 ++ u64 i2 ++ u8 (lenN x2) ++ x2 ++ tail_of h ++ body) = u8 m2 ++ u64 i2) as T.
    { rewrite V3. rewrite <- L9. rewrite app_assoc. apply takeN_app_exact. }
    rewrite <- T at 2. replace (free_salt (h_ch1 h) ++ u8 m2 ++ u64 i2 ++ u8 (lenN x2) ++ x2 ++ tail_of h ++ body)
      with ((free_salt (h_ch1 h) ++ u8 m2 ++ u64 i2) ++ u8 (lenN x2) ++ x2 ++ tail_of h ++ body) by (rewrite <- !app_assoc; reflexivity).
    symmetry. apply takeN_app_le. rewrite lenN_app, L9. lia.
  - intros F0. rewrite (W4 F0) in V4. unfold tail_of in V4. rewrite <- !app_assoc in V4. pose proof Hh as (_ & _ & _ & _ & _ & _ & A7 & A8 & _).
    assert (lenN (h_valid h ++ h_salt h) = 2 * digest_len (h_hmode h)) as L9 by (rewrite lenN_app; lia).
    set (z := u8 (lenN (h_encs h)) ++ concat (map ser_enc (h_encs h)) ++ body) in *.
    assert (takeN (2 * digest_len (h_hmode h)) (free_salt (m2, i2, x2) ++ h_valid h ++ h_salt h ++ z) = h_valid h ++ h_salt h) as T.
    { rewrite V4. rewrite <- L9. rewrite app_assoc. apply takeN_app_exact. }
    rewrite <- T at 2. replace (free_salt (m2, i2, x2) ++ h_valid h ++ h_salt h ++ z)
      with ((free_salt (m2, i2, x2) ++ h_valid h ++ h_salt h) ++ z) by (rewrite <- !app_assoc; reflexivity).
    symmetry. apply takeN_app_le. rewrite lenN_app, L9. lia.
Qed.
