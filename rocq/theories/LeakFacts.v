(** Lemmas for C93. *)
From Verif Require Import Base BaseFacts BytesModel BytesFacts MiscModel MiscFacts CipherModel CipherSpec CipherFacts CipherFacts2 PwModel PwSpec PwFacts ChModel ChSpec ChFacts ChFacts2
  HeaderModel HeaderSpec HeaderFacts HeaderFacts2 HeaderFacts3 HeaderFacts4 HeaderFacts5 HeaderFacts8 HeaderFacts9 FileModel ApiModel ApiSpec FileFacts FileFacts2 ApiFacts ApiFacts2 ApiFacts3 ApiFacts4 ApiFacts5 ApiFacts6 ApiFacts7 ApiFacts8 ApiFacts9 SecSpec SecFacts
  RefSpec RefFacts RefSpec2 RefFacts2 LeakSpec.

(** ** chains without salt *)
Lemma plain_iter D x n : iterated D NoSalt x n = Nat.iter (S n) D x.
Proof. induction n as [|n IH]; cbn [iterated salt_at]; rewrite app_nil_r; [reflexivity|]. rewrite IH. reflexivity. Qed.
Lemma plain_value D c x : plain_mode c = true -> 1 <= iterations c -> chain_value D c x = again D (iterations c) x.
Proof.
  unfold plain_mode, chain_value, again, iterations. destruct c as [[m n] b]. cbn [fst snd]. intros E L. apply N.eqb_eq in E. subst m.
  change (described 1 b) with NoSalt. rewrite plain_iter. f_equal. lia.
Qed.
Lemma again_add D a b x : again D a (again D b x) = again D (a + b) x.
Proof.
  unfold again. rewrite N2Nat.inj_add. induction (N.to_nat a) as [|k IH]; [reflexivity|]. cbn [Nat.add Nat.iter nat_rect]. f_equal. exact IH.
Qed.
Lemma iters_ok h : header_ok h -> 1 <= iterations (h_ch1 h) /\ 1 <= iterations (h_ch2 h).
Proof. intros (_ & _ & _ & _ & (_ & A & _) & (_ & B & _) & _). unfold iterations. lia. Qed.
Lemma valid_again H h pw : header_ok h -> opens H h pw -> unsalted h = true -> h_valid h = again (hash_of H (h_hmode h)) (check_rounds h) pw.
Proof.
  intros Hok O U. destruct (iters_ok h Hok) as [A B]. unfold unsalted in U. apply andb_true_iff in U as [U1 U2].
  rewrite O. unfold validator, key_of. rewrite (plain_value _ _ _ U1 A), (plain_value _ _ _ U2 B), again_add. unfold check_rounds. f_equal. lia.
Qed.

(** ** reading *)
Lemma read_own bd c h rest : header_ok h -> no_empty_block h -> c = ser (hdr_len h + lenN rest) h ++ rest -> lenN c < two64 -> read_file bd c = Gives (h, rest).
Proof.
  intros Hok Ne -> L. assert (lenN (ser (hdr_len h + lenN rest) h ++ rest) = hdr_len h + lenN rest) as Lc by (rewrite lenN_app, ser_len by exact Hok; reflexivity).
  pose (rnd := fun k : N => takeN k (repeat x00 (N.to_nat k))).
  assert (forall k, lenN (rnd k) = k) as Hr by (intros k; unfold rnd; rewrite lenN_takeN; unfold lenN; rewrite repeat_length; lia).
  pose proof (reader_refines bd rnd _ Hr L) as E. rewrite Lc in L, E. rewrite (decode_ser rnd Hr bd _ h rest Hok Ne eq_refl L) in E.
  destruct (read_file bd (ser (hdr_len h + lenN rest) h ++ rest)) as [[h' r]|e|x] eqn:R; cbn [ans] in E; try discriminate.
  pose proof (decoded_contents (hdr_len h + lenN rest) h Hok) as C.
  pose proof (obj_contents (Some (hdr_len h + lenN rest)) h' (read_fmode _ _ _ _ R)) as C'. change (contents (decoded (hdr_len h + lenN rest) h') = Some h') in C'.
  apply (f_equal (fun o => match o with Ret (inr (d, r)) => (contents d, r) | _ => (None, []) end)) in E. cbv beta iota delta [dret] in E. rewrite C, C' in E. congruence.
Qed.
Section Leak.
  Variable H : hashes.
  Hypothesis HH : hashes_ok H.
  Variable bd : build.
  Lemma read_sealed h pw data c : sealed H h pw data c -> no_empty_block h -> lenN data < 2 ^ 31 -> read_file bd c = Gives (h, cipher_of H h pw data).
  Proof.
    intros S Ne L. destruct (sealed_written H HH h pw data c S Ne L) as (Lc & _ & L3 & _). destruct S as (Hok & O & E).
    apply read_own; [exact Hok|exact Ne| |exact (lt63_two64 _ L3)]. rewrite (cipher_len H HH) by exact Hok. exact E.
  Qed.
  Lemma decrypt_own h pw data : header_ok h -> decrypt_with H (key_of H h pw) h (cipher_of H h pw data) = data.
  Proof.
    intros Hok. destruct (header_hash H HH h Hok) as (hf & (Hp & Hl & Hn) & Hf & Hs). unfold decrypt_with, cipher_of. rewrite <- Hf, <- Hs.
    rewrite <- (crypt_spec_enc hf Hp Hl Hn), <- (crypt_spec_dec hf Hp Hl Hn). apply (dec_enc hf Hp Hl Hn).
  Qed.
  Theorem old_opens_new ha hb pw da db ca cb : sealed H ha pw da ca -> sealed H hb pw db cb -> no_empty_block ha -> no_empty_block hb -> lenN da < 2 ^ 31 -> lenN db < 2 ^ 31 ->
    unsalted ha = true -> plain_mode (h_ch1 hb) = true -> h_hmode ha = h_hmode hb -> check_rounds ha <= iterations (h_ch1 hb) -> crack bd H ca cb = Some db.
  Proof.
    intros Sa Sb Na Nb La Lb U P E L. unfold crack. rewrite (read_sealed ha pw da ca Sa Na La), (read_sealed hb pw db cb Sb Nb Lb), U, P, E, N.eqb_refl.
    apply N.leb_le in L as L'. rewrite L'. cbn [andb]. f_equal. destruct Sa as (Hoka & Oa & _), Sb as (Hokb & Ob & _).
    rewrite (valid_again H ha pw Hoka Oa U), E, again_add. replace (iterations (h_ch1 hb) - check_rounds ha + check_rounds ha) with (iterations (h_ch1 hb)) by lia.
    rewrite <- (plain_value _ _ _ P) by apply (iters_ok hb Hokb). apply decrypt_own. exact Hokb.
  Qed.
  Theorem more_rounds h0 h pw data0 data c0 c w ds : sealed H h0 pw data0 c0 -> no_empty_block h0 -> lenN data0 < 2 ^ 31 -> unsalted h0 = true ->
    settings_readable ds -> created H w ds pw h -> sealed H h pw data c -> lenN data < 2 ^ 31 ->
    s_ch1 ds = Some 1 -> s_hmode ds = Some (h_hmode h0) -> (forall n, s_n1 ds = Some n -> check_rounds h0 <= n) -> crack bd H c0 c = Some data.
  Proof.
    intros S0 N0 L0 U (_ & _ & _ & _ & Ne) (_ & C2 & (m & n & M1 & M2 & M3) & _ & _ & C6 & _) S L E1 E2 R.
    apply (old_opens_new h0 h pw data0 data c0 c); try assumption.
    - unfold no_empty_block. rewrite C6. apply Forall_map. exact Ne.
    - rewrite M3. unfold plain_mode. cbn. assert (m = 1) as -> by congruence. reflexivity.
    - congruence.
    - rewrite M3. unfold iterations. cbn. apply R. exact M2.
  Qed.
  Theorem same_password_linked ha hb pw da db ca cb : sealed H ha pw da ca -> sealed H hb pw db cb -> no_empty_block ha -> no_empty_block hb -> lenN da < 2 ^ 31 -> lenN db < 2 ^ 31 ->
    unsalted ha = true -> unsalted hb = true -> h_hmode ha = h_hmode hb -> check_rounds ha <= check_rounds hb -> linked bd H ca cb = true.
  Proof.
    intros Sa Sb Na Nb La Lb U P E L. unfold linked. rewrite (read_sealed ha pw da ca Sa Na La), (read_sealed hb pw db cb Sb Nb Lb), U, P, E, N.eqb_refl.
    apply N.leb_le in L as L'. rewrite L'. cbn [andb]. destruct Sa as (Hoka & Oa & _), Sb as (Hokb & Ob & _).
    rewrite (valid_again H ha pw Hoka Oa U), (valid_again H hb pw Hokb Ob P), E, again_add. replace (check_rounds hb - check_rounds ha + check_rounds ha) with (check_rounds hb) by lia.
    apply eqb_bytes_refl.
  Qed.

  Lemma hash_len m x : 1 <= m <= 3 -> lenN (hash_of H m x) = digest_len m.
  Proof. destruct HH as (A & B & C). intros M. assert (m = 1 \/ m = 2 \/ m = 3) as [-> | [-> | ->]] by lia; [apply A|apply B|apply C]. Qed.
  (** ** planting *)
  Lemma planted_ok h : header_ok h -> check_rounds h <= 1000000000 -> header_ok (planted H h).
  Proof.
    intros Hok L. pose proof (iters_ok h Hok) as [A B]. destruct Hok as (H1 & H2 & H3 & H4 & H5 & H6 & H7 & H8 & H9 & H10).
    unfold planted, header_ok. cbn [h_fmode h_hmode h_blocks h_ch1 h_ch2 h_valid h_salt h_encs]. unfold check_rounds in *.
    split; [exact H1|]. split; [exact H2|]. split; [exact H3|]. split; [exact H4|].
    split; [split; [cbn; lia|split; [cbn; lia|reflexivity]]|]. split; [split; [cbn; lia|split; [cbn; lia|reflexivity]]|].
    split; [apply hash_len; exact H2|]. split; [exact H8|]. split; assumption.
  Qed.
  Lemma planted_key h pw : header_ok h -> opens H h pw -> unsalted h = true -> key_of H (planted H h) pw = h_valid h.
  Proof.
    intros Hok O U. pose proof (iters_ok h Hok) as [A B]. unfold key_of, planted. cbn [h_hmode h_ch1].
    rewrite plain_value; [|reflexivity|unfold iterations; cbn; unfold check_rounds; lia]. rewrite (valid_again H h pw Hok O U). reflexivity.
  Qed.
  Lemma planted_opens h pw : header_ok h -> opens H h pw -> unsalted h = true -> opens H (planted H h) pw.
  Proof.
    intros Hok O U. unfold opens, validator. rewrite (planted_key h pw Hok O U). unfold planted. cbn [h_hmode h_ch2 h_valid].
    rewrite plain_value; [reflexivity|reflexivity|unfold iterations; cbn; lia].
  Qed.
  Theorem plant_sealed h pw data c data' : sealed H h pw data c -> no_empty_block h -> lenN data < 2 ^ 31 -> unsalted h = true -> check_rounds h <= 1000000000 ->
    exists c', plant bd H c data' = Some c' /\ sealed H (planted H h) pw data' c'.
  Proof.
    intros S Ne L U R. unfold plant. rewrite (read_sealed h pw data c S Ne L). destruct S as (Hok & O & _). eexists. split; [reflexivity|].
    split; [apply planted_ok; assumption|]. split; [apply planted_opens; assumption|]. unfold cipher_of. rewrite (planted_key h pw Hok O U). reflexivity.
  Qed.
  Theorem tap_sealed h pw data c new c2 : sealed H h pw data c -> no_empty_block h -> lenN data < 2 ^ 31 -> unsalted h = true ->
    sealed H (planted H h) pw new c2 -> lenN new < 2 ^ 31 -> tap bd H c c2 = Some new.
  Proof.
    intros S Ne L U S2 L2. unfold tap. rewrite (read_sealed h pw data c S Ne L), (read_sealed (planted H h) pw new c2 S2 Ne L2). f_equal.
    destruct S as (Hok & O & _). rewrite <- (planted_key h pw Hok O U). apply decrypt_own. apply S2.
  Qed.
  Theorem planted_session ws p l f h pw data c data' c' new t : (forall i, at_hand bd H (ws i) p l) -> enc_path p ->
    sealed H h pw data c -> no_empty_block h -> lenN data < 2 ^ 31 -> unsalted h = true -> check_rounds h <= 1000000000 ->
    plant bd H c data' = Some c' -> f l = Some c' -> lenN data' < 2 ^ 31 ->
    t < 2 ^ 64 -> verify_in_time (ws 1%nat) t (check_rounds h) 1 -> patient (ws 2%nat) (lenN data') ->
    getLen new < 2 ^ 31 -> patient (ws 3%nat) (getLen new) -> hdr_len (planted H h) + getLen new <= w_room (ws 4%nat) ->
    exists b c2 a' f', calls [(ws 0%nat, OSelect p); (ws 1%nat, OVerify pw t); (ws 2%nat, ODecrypt); (ws 3%nat, OEncrypt (text new)); (ws 4%nat, OWrite)] (fresh 1) f =
        Some ([ROk; ROk; RData (mkFD (Some 1) (Some b)); ROk; ROk], a', f') /\ bdata b = data' /\ f' l = Some c2 /\ tap bd H c c2 = Some (bdata new).
  Proof.
    intros A Ep S Ne L U R P F L' Lt T Pa Ln Pn Rm. destruct (plant_sealed h pw data c data' S Ne L U R) as (c1 & P1 & S1). assert (c1 = c') as -> by congruence.
    destruct (resave H HH bd ws p l f (planted H h) pw data' c' new t A Ep F S1 Ne L' Lt T Pa Ln Pn Rm) as (b & c2 & a' & f' & E & B & F' & S2).
    exists b, c2, a', f'. spl; try assumption. apply (tap_sealed h pw data c (bdata new) c2 S Ne L U S2). exact Ln.
  Qed.

  (** ** zero salts *)
  Lemma zip_zero (x : bytes) k : lenN x = N.of_nat k -> bsum x (repeat x00 k) = x.
  Proof.
    rewrite bsum_zipb. revert k. induction x as [|a x IH]; intros [|k] L; rewrite ?lenN_cons, ?lenN_nil in L; try lia; [reflexivity|].
    cbn [repeat zipb]. rewrite IH by lia. f_equal. unfold addb. apply b2n_inj. rewrite b2n_n2b. pose proof (b2n_lt a). cbn. lia.
  Qed.
  Lemma key_len h pw : header_ok h -> lenN (key_of H h pw) = digest_len (h_hmode h).
  Proof. intros Hok. unfold key_of, chain_value. rewrite round_value. apply hash_len. apply Hok. Qed.
  Lemma zero_add h x : lenN x = digest_len (h_hmode h) -> bsum x (zeros h) = x.
  Proof. intros L. unfold zeros. apply zip_zero. lia. Qed.
  Theorem unzip_sealed h pw data c : sealed H h pw data c -> no_empty_block h -> lenN data < 2 ^ 31 -> h_salt h = zeros h -> plain_mode (h_ch2 h) = true -> iterations (h_ch2 h) = 1 ->
    unzip bd H c = Some data.
  Proof.
    intros S Ne L Z P I. unfold unzip. rewrite (read_sealed h pw data c S Ne L). destruct S as (Hok & O & _).
    pose proof (decrypt_own h pw data Hok) as E. unfold decrypt_with, spec_dec in E. rewrite Z in E.
    assert (h_valid h = hash_of H (h_hmode h) (key_of H h pw)) as V.
    { rewrite O. unfold validator. rewrite (plain_value _ _ _ P) by lia. rewrite I. reflexivity. }
    destruct (blocks (digest_len (h_hmode h)) (cipher_of H h pw data)) as [|x r]; cbn [dec_blocks] in E; [rewrite <- E; reflexivity|].
    f_equal. rewrite <- E. unfold kstart, kafter, kpad, knext_salt. fold (zeros h). unfold knext_key. rewrite (zero_add h (key_of H h pw)) by (apply key_len; exact Hok).
    rewrite (zero_add h (key_of H h pw)) by (apply key_len; exact Hok). rewrite <- V. reflexivity.
  Qed.
  Lemma salted_ok h s : header_ok h -> lenN s = digest_len (h_hmode h) -> header_ok (with_salt s h).
  Proof. intros (H1 & H2 & H3 & H4 & H5 & H6 & H7 & H8 & H9 & H10) L. unfold with_salt, header_ok. cbn. auto 15. Qed.
  Lemma zeros_len h : lenN (zeros h) = digest_len (h_hmode h).
  Proof. unfold zeros, lenN. rewrite repeat_length. lia. Qed.
  Theorem set_zero_sealed h pw data c : sealed H h pw data c -> no_empty_block h -> lenN data < 2 ^ 31 -> let h0 := with_salt (zeros h) h in
    exists c' data', set_zero bd c = Some c' /\ sealed H h0 pw data' c' /\ lenN data' = lenN data.
  Proof.
    intros S Ne L h0. unfold set_zero. rewrite (read_sealed h pw data c S Ne L). destruct (sealed_written H HH h pw data c S Ne L) as (Lc & _). destruct S as (Hok & O & _).
    destruct (any_body H HH h0 pw (cipher_of H h pw data) (salted_ok h _ Hok (zeros_len h)) O) as (S0 & L0). do 2 eexists. split; [reflexivity|].
    rewrite (cipher_len H HH) in L0 by exact Hok. rewrite (cipher_len H HH) in S0 by exact Hok. split; [|exact L0]. rewrite Lc. exact S0.
  Qed.
  Theorem zero_session ws p l f h pw data c c' new t : (forall i, at_hand bd H (ws i) p l) -> enc_path p ->
    sealed H h pw data c -> no_empty_block h -> lenN data < 2 ^ 31 -> plain_mode (h_ch2 h) = true -> iterations (h_ch2 h) = 1 ->
    set_zero bd c = Some c' -> f l = Some c' ->
    t < 2 ^ 64 -> verify_in_time (ws 1%nat) t (iterations (h_ch1 h)) 1 -> patient (ws 2%nat) (lenN data) ->
    getLen new < 2 ^ 31 -> patient (ws 3%nat) (getLen new) -> hdr_len h + getLen new <= w_room (ws 4%nat) ->
    exists b c2 a' f', calls [(ws 0%nat, OSelect p); (ws 1%nat, OVerify pw t); (ws 2%nat, ODecrypt); (ws 3%nat, OEncrypt (text new)); (ws 4%nat, OWrite)] (fresh 1) f =
        Some ([ROk; ROk; RData (mkFD (Some 1) (Some b)); ROk; ROk], a', f') /\ lenN (bdata b) = lenN data /\ f' l = Some c2 /\ unzip bd H c2 = Some (bdata new).
  Proof.
    intros A Ep S Ne L P I Z F Lt T Pa Ln Pn Rm. destruct (set_zero_sealed h pw data c S Ne L) as (c1 & d1 & Z1 & S1 & L1). assert (c1 = c') as -> by congruence.
    rewrite <- I in T. rewrite <- L1 in L, Pa.
    destruct (resave H HH bd ws p l f (with_salt (zeros h) h) pw d1 c' new t A Ep F S1 Ne L Lt T Pa Ln Pn Rm) as (b & c2 & a' & f' & E & B & F' & S2).
    exists b, c2, a', f'. spl; try assumption; [congruence|]. apply (unzip_sealed (with_salt (zeros h) h) pw (bdata new) c2 S2 Ne Ln); [reflexivity|exact P|exact I].
  Qed.
End Leak.
