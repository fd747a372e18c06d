(** A random generator that may fail. *)
From Coq Require Import Strings.Byte.
From Verif Require Import Base BaseFacts BytesModel BytesSpec BytesFacts MiscModel MiscFacts CipherModel CipherSpec CipherFacts CipherFacts2 PwModel PwSpec PwFacts ChModel ChSpec ChFacts ChFacts2
  HeaderModel HeaderSpec HeaderFacts HeaderFacts2 HeaderFacts3 HeaderFacts4 HeaderFacts5 HeaderFacts8 HeaderFacts9 FileModel ApiModel ApiSpec ApiSpec2 FileFacts ApiFacts ApiFacts2 ApiFacts3 ApiFacts4 ApiFacts5 ApiFacts6 ApiFacts7 ApiFacts10 ApiFacts11 ApiFacts12
  RefSpec RefFacts RefSpec2 RefFacts2 RefFacts3 RefFacts4 RndSpec.
Ltac Zify.zify_post_hook ::= Z.div_mod_to_equations.

(** ** single draws *)
Lemma mended_len rnd k : lenN (mended rnd k) = k.
Proof. unfold mended. destruct (N.eqb_spec (lenN (rnd k)) k) as [E|E]; [exact E|]. unfold lenN. rewrite repeat_length. lia. Qed.
Lemma mended_same rnd k : (lenN (rnd k) =? k) = true -> mended rnd k = rnd k.
Proof. unfold mended. intros ->. reflexivity. Qed.
Lemma random_mended rnd k : (lenN (rnd k) =? k) = true -> random_bytes rnd k = random_bytes (mended rnd) k.
Proof. intros E. unfold random_bytes. rewrite (mended_same _ _ E). reflexivity. Qed.
Lemma random_fails rnd k : (lenN (rnd k) =? k) = false -> k < 2147483648 -> random_bytes rnd k = Throw RuntimeError.
Proof. intros E L. unfold random_bytes. rewrite E. destruct (N.leb_spec 2147483648 k); [lia|reflexivity]. Qed.
Lemma fill_mended rnd b : (lenN (rnd (bmax b - getLen b)) =? bmax b - getLen b) = true -> fillrandom rnd b = fillrandom (mended rnd) b.
Proof. intros E. unfold fillrandom. rewrite (random_mended _ _ E). reflexivity. Qed.
Lemma fill_fails rnd b : (lenN (rnd (bmax b - getLen b)) =? bmax b - getLen b) = false -> bmax b < 2147483648 -> fillrandom rnd b = Crash Terminate.
Proof. intros E L. unfold fillrandom. rewrite random_fails by (assumption || lia). reflexivity. Qed.
Lemma digest_small hm : 1 <= hm <= 3 -> digest_len hm < 256.
Proof. intros V. destruct (digest_cases _ V) as [->|[->| ->]]; lia. Qed.
Lemma new_mended rnd hm : 1 <= hm <= 3 -> (lenN (rnd (digest_len hm)) =? digest_len hm) = true -> newDataHeader rnd hm = newDataHeader (mended rnd) hm.
Proof.
  intros V E. unfold newDataHeader. destruct (p_setHashMode hm parts_empty) as [p|e|c|]; cbn [bind]; try reflexivity.
  rewrite hash_size_digest. assert (w8 (digest_len hm) = digest_len hm) as -> by (unfold w8; apply N.mod_small, digest_small, V). cbv zeta.
  rewrite fill_mended; [reflexivity|]. cbn [bmax getLen bdata]. change (getLen (mkBytes [] (digest_len hm))) with 0. rewrite N.sub_0_r. exact E.
Qed.
Lemma new_fails rnd hm : 1 <= hm <= 3 -> (lenN (rnd (digest_len hm)) =? digest_len hm) = false -> newDataHeader rnd hm = Crash Terminate.
Proof.
  intros V E. unfold newDataHeader, p_setHashMode. rewrite (proj2 (hash_mode_valid_spec hm) V). cbn [bind].
  rewrite hash_size_digest. assert (w8 (digest_len hm) = digest_len hm) as -> by (unfold w8; apply N.mod_small, digest_small, V). cbv zeta.
  rewrite fill_fails; [reflexivity| |]; cbn [bmax].
  - change (getLen (mkBytes [] (digest_len hm))) with 0. rewrite N.sub_0_r. exact E.
  - pose proof (digest_small hm V). lia.
Qed.

(** ** reading a header *)
Lemma decode_any bd rnd c : sized c = true -> lenN c <> 0 -> lenN c < two64 ->
  if (1 <=? hash_byte c) && (hash_byte c <=? 3) && negb (lenN (rnd (digest_len (hash_byte c))) =? digest_len (hash_byte c))
  then decode_stream bd rnd c = Crash Terminate else decode_stream bd rnd c = decode_stream bd (mended rnd) c.
Proof.
  intros Sz Nz L. unfold sized in Sz. destruct (N.eqb_spec (lenN c) 0); [contradiction|]. cbn [orb] in Sz. rewrite !andb_true_iff, !N.leb_le, N.eqb_eq in Sz.
  destruct Sz as (((L16 & Efs) & Lh) & Lhs).
  destruct (read8_cases c) as [(fs & s1 & Hfs & E1)|[_ X]]; [|lia].
  destruct (read8_cases s1) as [(hsz & s2 & Hhs & E2)|[_ X]]; [|apply (f_equal lenN) in E1; rewrite lenN_app, u64_len in E1; lia].
  subst s1. assert (lenN c = 16 + lenN s2) as Lc by (rewrite E1, !lenN_app, !u64_len; lia).
  destruct (read1_cases s2) as [(fm & s3 & Hfm & ->)| ->]; [|exfalso; change (lenN (@nil byte)) with 0 in Lc; lia].
  assert (lenN (u8 fm ++ s3) = 1 + lenN s3) as Ls by (rewrite lenN_app; reflexivity).
  destruct (read1_cases s3) as [(hm & s4 & Hhm & ->)| ->]; [|exfalso; change (lenN (@nil byte)) with 0 in Ls; lia].
  assert (hash_byte c = hm) as Hb.
  { unfold hash_byte. rewrite E1. assert (u64 fs ++ u64 hsz ++ u8 fm ++ u8 hm ++ s4 = (u64 fs ++ u64 hsz ++ u8 fm) ++ u8 hm ++ s4) as -> by (rewrite <- !app_assoc; reflexivity).
    replace 17 with (lenN (u64 fs ++ u64 hsz ++ u8 fm)) by (rewrite !lenN_app, !u64_len; reflexivity). rewrite dropN_app_exact.
    change 1 with (lenN (u8 hm)). rewrite takeN_app_exact. unfold be_val, u8. cbn [fold_left]. rewrite b2n_n2b_small by exact Hhm. reflexivity. }
  assert (fs = lenN c /\ hsz = header_size c) as [Ef Eh].
  { rewrite <- Efs. unfold header_size. rewrite E1 at 1 2. split.
    - assert (takeN 8 (u64 fs ++ u64 hsz ++ u8 fm ++ u8 hm ++ s4) = u64 fs) as -> by (rewrite <- (u64_len fs); apply takeN_app_exact). symmetry. apply u64_val, Hfs.
    - assert (dropN 8 (u64 fs ++ u64 hsz ++ u8 fm ++ u8 hm ++ s4) = u64 hsz ++ u8 fm ++ u8 hm ++ s4) as -> by (rewrite <- (u64_len fs); apply dropN_app_exact).
      assert (takeN 8 (u64 hsz ++ u8 fm ++ u8 hm ++ s4) = u64 hsz) as -> by (rewrite <- (u64_len hsz); apply takeN_app_exact). symmetry. apply u64_val, Hhs. }
  rewrite Hb.
  assert (forall r, decode_stream bd r c = noexcept (
      d <~ try_ (only_invalid ERR_HASHMODE_INVALID) (newDataHeader r hm) ;;
      d <~ try_ (only_invalid ERR_FILEMODE_INVALID) (d_setFileDataMode fm d) ;;
      '(count, s) <~ need ERR_NOT_ENOUGH_DATA (read1 s4) ;;
      tail0 bd c (lenN c) hsz count d s)) as K.
  { intros r. transitivity (noexcept ('(file_size, s) <~ read8 (u64 fs ++ u64 hsz ++ u8 fm ++ u8 hm ++ s4) ;;
    '(header_size, s) <~ read8 s ;;
    if negb (lenN c =? file_size) then dfail ERR_FILESIZE_INVALID
    else if file_size <? header_size then dfail ERR_HEADERSIZE_FILESIZE_MISMATCH
    else
      '(fmode, s) <~ need ERR_NOT_ENOUGH_DATA (read1 s) ;;
      '(hmode, s) <~ need ERR_NOT_ENOUGH_DATA (read1 s) ;;
      d <~ try_ (only_invalid ERR_HASHMODE_INVALID) (newDataHeader r hmode) ;;
      d <~ try_ (only_invalid ERR_FILEMODE_INVALID) (d_setFileDataMode fmode d) ;;
      '(count, s) <~ need ERR_NOT_ENOUGH_DATA (read1 s) ;;
      tail0 bd c file_size header_size count d s)); [rewrite <- E1; reflexivity|].
    rewrite read8_u64 by exact Hfs. cbn [dbind dret]. rewrite read8_u64 by exact Hhs. cbn [dbind dret]. rewrite Ef, N.eqb_refl. cbn [negb].
    destruct (N.ltb_spec (lenN c) hsz); [lia|]. rewrite read1_u8 by exact Hfm. cbn [need dbind dret]. rewrite read1_u8 by exact Hhm. reflexivity. }
  rewrite !K. destruct ((1 <=? hm) && (hm <=? 3)) eqn:Vb; cbn [andb].
  - assert (1 <= hm <= 3) as V' by (rewrite andb_true_iff, !N.leb_le in Vb; exact Vb).
    destruct (lenN (rnd (digest_len hm)) =? digest_len hm) eqn:D; cbn [negb].
    + rewrite (new_mended rnd hm V' D). reflexivity.
    + rewrite (new_fails rnd hm V' D). reflexivity.
  - unfold newDataHeader, p_setHashMode. destruct (hash_mode_valid hm) eqn:V'; [|reflexivity].
    apply hash_mode_valid_spec in V'. rewrite (proj2 (andb_true_iff _ _)) in Vb by (rewrite !N.leb_le; exact V'). discriminate.
Qed.
Lemma parts_any rnd p hm : p_hmode p = Some hm -> 1 <= hm <= 3 ->
  if lenN (rnd (digest_len hm)) =? digest_len hm then setHeaderParts rnd p = setHeaderParts (mended rnd) p else setHeaderParts rnd p = Crash Terminate.
Proof.
  intros E V. unfold setHeaderParts, p_getHashMode. rewrite E. cbn [bind]. destruct (lenN (rnd (digest_len hm)) =? digest_len hm) eqn:D.
  - rewrite (new_mended rnd hm V D). reflexivity.
  - rewrite (new_fails rnd hm V D). reflexivity.
Qed.
Lemma generate_any rnd m : 1 <= m <= 5 ->
  if lenN (rnd (mode_size m)) =? mode_size m then cd_generate rnd (newChd m) = cd_generate (mended rnd) (newChd m)
  else cd_generate rnd (newChd m) = if (m =? 2) || (m =? 4) then Crash Terminate else Throw RuntimeError.
Proof.
  intros Hm. destruct (lenN (rnd (mode_size m)) =? mode_size m) eqn:E; revert E; pattern m; apply modes5; try exact Hm; cbn [mode_size]; intros E; unfold cd_generate, newChd;
    cbn [isEmpty cd_block cd_star cd_size cd_mode negb star_of]; cbn.
  all: try (rewrite fill_mended by exact E; reflexivity).
  all: try (unfold addrandom; cbn; rewrite random_mended by exact E; reflexivity).
  all: try (rewrite fill_fails by (exact E || reflexivity); reflexivity).
  all: try (unfold addrandom; cbn; rewrite random_fails by (exact E || reflexivity); reflexivity).
  - unfold addrandom, random_bytes. rewrite (mended_same rnd 0 E). reflexivity.
  - unfold addrandom, random_bytes. rewrite E. reflexivity.
Qed.

Section Any.
  Variable H : hashes.
  Hypothesis HH : hashes_ok H.
  Variable bd : build.
  Lemma working_ok w : world_any bd H w -> world_ok bd H (working w).
  Proof. intros (A & B & C). split; [exact A|]. split; [exact B|]. split; [|exact C]. intros i k. apply mended_len. Qed.

  (** ** files *)
  Lemma header_any w f i p c : openable w f p c -> lenN c < two64 -> sized c = true -> lenN c <> 0 ->
    if (1 <=? hash_byte c) && (hash_byte c <=? 3) && negb (delivers w i (digest_len (hash_byte c)))
    then fh_getDataHeader w f i (mkFH p (header_size c) (lenN c) false) = Crash Terminate
    else fh_getDataHeader w f i (mkFH p (header_size c) (lenN c) false) = fh_getDataHeader (working w) f i (mkFH p (header_size c) (lenN c) false).
  Proof.
    intros O L Sz Nz. pose proof (decode_any (w_build w) (w_rnd w i) c Sz Nz L) as D. unfold delivers, fh_getDataHeader. cbn [fh_path].
    assert (stream_of (working w) f p = stream_of w f p) as -> by reflexivity. rewrite (openable_stream _ _ _ _ O).
    change (w_rnd (working w) i) with (mended (w_rnd w i)). change (w_build (working w)) with (w_build w).
    destruct (_ && _); rewrite D; reflexivity.
  Qed.
  Lemma opened_sized_gives w f p c : fs_ok f -> opened_sized w f p = Gives c -> openable w f p c /\ lenN c < two64 /\ sized c = true.
  Proof.
    intros Hf O. unfold opened_sized in O. destruct (opened w f p) as [x|e|k] eqn:O1; cbn [also] in O; try discriminate. destruct (sized x) eqn:S; [|discriminate]. injection O as ->.
    apply opened_gives in O1. split; [exact O1|]. split; [|exact S]. apply lt63_two64. destruct O1 as (_ & _ & F & _). exact (Hf _ _ F).
  Qed.
  Lemma select_any w f p a : fs_ok f ->
    if file_fault w f 0 p then selectFile w a f p = Crash Terminate else selectFile w a f p = selectFile (working w) a f p.
  Proof.
    intros Hf. unfold file_fault, selectFile. assert (getFileHandler (working w) f p = getFileHandler w f p) as -> by reflexivity. rewrite (handler_ref w f p Hf).
    destruct (opened_sized w f p) as [c|e|k] eqn:O; cbn [ansd]; try reflexivity. destruct (opened_sized_gives _ _ _ _ Hf O) as (O1 & L & Sz).
    unfold to_fh. destruct (N.eqb_spec (lenN c) 0) as [Z|Z]; cbn [negb andb]; unfold dret; cbn [bind fh_empty]; [reflexivity|].
    pose proof (header_any w f 0 p c O1 L Sz Z) as D. destruct (_ && negb (delivers w 0 _)); rewrite D; reflexivity.
  Qed.
  Lemma loop_any w f dir : world_any bd H w -> fs_ok f -> forall l i, N.of_nat i < 2 ^ 31 ->
    if list_fault w f i dir l then relevant_loop w f i 1 dir (map fst (filter keep l)) [] = Crash Terminate
    else relevant_loop w f i 1 dir (map fst (filter keep l)) [] = relevant_loop (working w) f i 1 dir (map fst (filter keep l)) [].
  Proof.
    intros W Hf. induction l as [|[n b] l IH0]; intros i Li; [reflexivity|]. cbn [filter list_fault]. rewrite keep_name. cbn [fst snd].
    destruct (b && enc_name n); [|apply IH0, Li].
    assert (if (N.of_nat i + 1 <? 2 ^ 31) && list_fault w f (S i) dir l then count_up i (relevant_loop w f (S i) 1 dir (map fst (filter keep l)) []) = Crash Terminate
      else count_up i (relevant_loop w f (S i) 1 dir (map fst (filter keep l)) []) = count_up i (relevant_loop (working w) f (S i) 1 dir (map fst (filter keep l)) [])) as IH.
    { unfold count_up. destruct (next_index i Li) as [[Ei Ei']|(Ni & Ls & Es)].
      - apply N.eqb_eq in Ei. rewrite Ei, Ei'. reflexivity.
      - apply N.eqb_neq in Ni. rewrite Ni. rewrite <- Es. apply N.ltb_lt in Ls as Lb. rewrite Lb. apply IH0, Ls. }
    cbn [map fst relevant_loop]. unfold file_fault, looked_at.
    assert (getFileHandler (working w) f (join dir n) = getFileHandler w f (join dir n)) as -> by reflexivity. rewrite (handler_ref w f (join dir n) Hf).
    destruct (opened_sized w f (join dir n)) as [c|e|k] eqn:O; cbn [also ansd orb]; try reflexivity; [|exact IH].
    destruct (opened_sized_gives _ _ _ _ Hf O) as (O1 & L & Sz).
    unfold to_fh. destruct (N.eqb_spec (lenN c) 0) as [Z|Z]; unfold dret; cbn [bind fh_empty negb andb orb also]; [exact IH|].
    pose proof (header_any w f i _ c O1 L Sz Z) as D. unfold fh_isDataHeader. destruct (_ && negb (delivers w i _)); cbn [orb].
    - rewrite D. reflexivity.
    - rewrite D. assert (openable (working w) f (join dir n) c) as O2 by exact O1. rewrite (header_ref bd H (working w) f (join dir n) c i (working_ok w W) O2 L).
      change (w_build (working w)) with (w_build w).
      destruct (read_file (w_build w) c) as [[h r]|e|k] eqn:R; cbn [also ansd dbind dret dfail bind noexcept]; [|exact IH|reflexivity].
      destruct (read_holds _ _ _ _ L R) as [Hd _]. rewrite (holds_parts _ _ Hd). cbn [bind]. unfold dret. cbn [dbind].
      destruct (p_getFileDataMode (d_parts (decoded (lenN c) h))) as [m| | |] eqn:M; try discriminate M.
      unfold lift. cbn [bind dret dbind]. destruct (m =? 1); cbn; exact IH.
  Qed.

  (** ** new headers *)
  Definition with_rnd (w : world) (r : nat -> N -> bytes) : world :=
    mkWorld (w_loc w) (w_stat w) (w_read w) (w_write w) (w_create w) (w_remove w) (w_dir w) (w_room w) r (w_elapsed w) (w_clk1 w) (w_clk2 w) (w_hashes w) (w_build w) (w_fuel w).
  Lemma with_own w : with_rnd w (w_rnd w) = w.
  Proof. destruct w. reflexivity. Qed.
  Lemma chains_any w ds : settings_made ds -> all_set ds = true ->
    match data_fault w 0 (value (s_ch1 ds)), data_fault w 1 (value (s_ch2 ds)) with
    | Some Fatal, _ | None, Some Fatal => newChains w ds = Crash Terminate
    | Some Reported, _ | None, Some Reported => newChains w ds = Throw RuntimeError
    | None, None => newChains w ds = newChains (working w) ds
    end.
  Proof.
    intros SM SC. rewrite all_set_complete in SC. destruct (settings_in_range ds SM SC) as (hm & m1 & m2 & n1 & n2 & F0 & F1 & F2 & F3 & F4 & F5 & R1 & R2 & R3 & R4 & R5).
    unfold data_fault, newChains. rewrite F2, F3, F4, F5. cbn [value set_get bind]. unfold newFormat. rewrite !(proj2 (ch_mode_valid_spec _)) by assumption. cbn [bind].
    pose proof (generate_any (w_rnd w 0) m1 R2) as G1. pose proof (generate_any (w_rnd w 1) m2 R3) as G2. unfold delivers.
    change (w_rnd (working w) 0) with (mended (w_rnd w 0)). change (w_rnd (working w) 1) with (mended (w_rnd w 1)).
    destruct (lenN (w_rnd w 0 (mode_size m1)) =? mode_size m1); rewrite G1.
    - rewrite generate_eq by (exact R2 || apply mended_len). cbn [bind].
      destruct (lenN (w_rnd w 1 (mode_size m2)) =? mode_size m2); rewrite G2; [reflexivity|]. destruct (_ || _); reflexivity.
    - destruct (_ || _); reflexivity.
  Qed.
  (** the end of _createDataHeaderIters *)
  Definition finish (r : nat -> N -> bytes) (hm : N) (p : dhparts) (k : Bytes) : dres (dheader * Bytes) :=
    noexcept (salt <~ lift (fillrandom (r 2%nat) (mkBytes [] (digest_len hm))) ;; p <~ lift (p_setSalt salt p) ;; d <~ setHeaderParts (r 3%nat) p ;; dret (d, copyBytes k)).
  Lemma create_until w pw ds t hm m1 n1 m2 n2 x1 x2 : w_hashes w = H -> w_elapsed w < 2 ^ 64 -> t < 2 ^ 64 -> set_isComplete ds = true ->
    s_fmode ds = Some 1 -> s_hmode ds = Some hm -> 1 <= hm <= 3 -> chain_ok (m1, n1, x1) -> chain_ok (m2, n2, x2) ->
    (~ create_in_time w t n1 n2 -> forall r, newChains (with_rnd w r) ds = Ret (to_ch (m1, n1, x1), to_ch (m2, n2, x2)) ->
       createHeaderIters (with_rnd w r) 1 pw ds t = dfail ERR_TIMEOUT) /\
    (create_in_time w t n1 n2 -> exists k p, p_hmode p = Some hm /\ forall r, newChains (with_rnd w r) ds = Ret (to_ch (m1, n1, x1), to_ch (m2, n2, x2)) ->
       createHeaderIters (with_rnd w r) 1 pw ds t = finish r hm p k).
  Proof.
    intros EH Le Lt64 SC F0 F1 R1 K1 K2.
    destruct (hash_mode_ok H hm HH R1) as (hf & Hg & Hh & Hf). pose proof (getHash_size _ _ _ Hg) as [Hs _].
    assert (forall r, newChains (with_rnd w r) ds = Ret (to_ch (m1, n1, x1), to_ch (m2, n2, x2)) -> createHeaderIters (with_rnd w r) 1 pw ds t = noexcept (
        r1 <~ lift (performChainHash_s hf (w_clk1 w) (to_ch (m1, n1, x1)) pw t) ;;
        match r1 with
        | TimedOut => dfail ERR_TIMEOUT
        | PwModel.Done k =>
            t <~ (if t =? 0 then dret 0
                  else if t <=? w_elapsed w then dfail ERR_TIMEOUT
                  else dret (sub64 t (w_elapsed w))) ;;
            r2 <~ lift (performChainHash_b hf (w_clk2 w) (to_ch (m2, n2, x2)) k t) ;;
            match r2 with
            | TimedOut => dfail ERR_TIMEOUT
            | PwModel.Done v =>
                p <~ lift (p_setValid v (mkParts (Some hm) (Some 1) None None (s_dec ds) (s_enc ds) (to_ch (m1, n1, x1)) (to_ch (m2, n2, x2)))) ;;
                salt <~ lift (fillrandom (r 2%nat) (mkBytes [] (digest_len hm))) ;;
                p <~ lift (p_setSalt salt p) ;;
                d <~ setHeaderParts (r 3%nat) p ;;
                dret (d, copyBytes k)
            end
        end)) as K.
    { intros r NC. remember (createHeaderIters (with_rnd w r) 1 pw ds t) as q eqn:E. unfold createHeaderIters, lift in E. rewrite SC, F0 in E. cbn [negb set_get bind dbind dret N.eqb Pos.eqb] in E.
      rewrite NC in E. cbn [try_ bind dbind dret p_setFileDataMode file_mode_valid N.leb N.compare Pos.compare Pos.compare_cont andb p_hmode p_fmode p_valid p_salt p_dec p_enc p_ch1 p_ch2] in E.
      rewrite F1 in E. unfold p_setHashMode in E. cbn [set_get bind dbind dret] in E. rewrite (proj2 (hash_mode_valid_spec hm) R1) in E.
      cbn [bind dbind dret p_hmode p_fmode p_valid p_salt p_dec p_enc p_ch1 p_ch2 with_rnd w_hashes w_clk1 w_clk2 w_elapsed w_rnd] in E. rewrite EH, Hg in E. cbn [bind dbind dret] in E.
      unfold w64 in E. change two64 with (2 ^ 64) in E. rewrite (N.mod_small (w_elapsed w)) in E by exact Le. rewrite Hs in E. exact E. }
    destruct (perform_s _ _ hf (w_clk1 w) pw t (to_ch_inv _ K1) (chain_of_to_ch (m1, n1, x1)) Hh) as [A1 A2]. change (iters_of (m1, n1, x1)) with n1 in *. unfold create_in_time.
    destruct (reached_dec (w_clk1 w) t (readings_string n1)) as [Q1|Q1].
    { split; [intros _ r NC; rewrite (K r NC), (A1 Q1); reflexivity|]. intros (X & _). contradiction. }
    destruct (A2 Q1) as (k & Ek & Bk & Lk & Ck).
    assert ((t <> 0 /\ t <= w_elapsed w) \/ (t <> 0 -> w_elapsed w < t)) as [(T0 & T1)|T] by lia.
    { split; [|intros (_ & X & _); specialize (X T0); lia]. intros _ r NC. rewrite (K r NC), Ek. unfold lift. cbn [bind dbind dret].
      destruct (N.eqb_spec t 0); [contradiction|]. destruct (N.leb_spec t (w_elapsed w)); [|lia]. reflexivity. }
    assert ((if t =? 0 then dret 0 else if t <=? w_elapsed w then dfail ERR_TIMEOUT else dret (sub64 t (w_elapsed w))) = dret (t - w_elapsed w)) as ET.
    { destruct (N.eqb_spec t 0) as [T0|T0]; [subst t; reflexivity|]. specialize (T T0). destruct (N.leb_spec t (w_elapsed w)); [lia|]. rewrite sub64_le; [reflexivity| |]; change two64 with (2 ^ 64); lia. }
    destruct (perform_b _ _ hf (w_clk2 w) k (t - w_elapsed w) (to_ch_inv _ K2) (chain_of_to_ch (m2, n2, x2)) Hh ltac:(lia) ltac:(lia)) as [B1 B2]. change (iters_of (m2, n2, x2)) with n2 in *.
    destruct (reached_dec (w_clk2 w) (t - w_elapsed w) (readings_bytes n2)) as [Q2|Q2].
    { split; [|intros (_ & _ & X); contradiction]. intros _ r NC. rewrite (K r NC), Ek. unfold lift. cbn [bind dbind dret]. rewrite ET. cbn [bind dbind dret]. rewrite (B1 Q2). reflexivity. }
    destruct (B2 Q2) as (v & Ev & Bv & Lv). split; [intros X; exfalso; apply X; spl; assumption|]. intros _.
    exists k, (mkParts (Some hm) (Some 1) (Some (copyBytes v)) None (s_dec ds) (s_enc ds) (to_ch (m1, n1, x1)) (to_ch (m2, n2, x2))). split; [reflexivity|].
    intros r NC. rewrite (K r NC), Ek. unfold lift. cbn [bind dbind dret]. rewrite ET. cbn [bind dbind dret]. rewrite Ev. cbn [bind dbind dret].
    unfold p_setValid, p_getHashSize. cbn [bind dbind dret p_hmode p_fmode p_valid p_salt p_dec p_enc p_ch1 p_ch2]. rewrite hash_size_digest.
    rewrite Lv, Hs, N.eqb_refl. cbn [bind dbind dret]. reflexivity.
  Qed.
  Lemma finish_any w hm p k : p_hmode p = Some hm -> 1 <= hm <= 3 ->
    if delivers w 2 (digest_len hm) && delivers w 3 (digest_len hm) then finish (w_rnd w) hm p k = finish (w_rnd (working w)) hm p k
    else finish (w_rnd w) hm p k = Crash Terminate.
  Proof.
    intros E V. unfold finish, delivers. change (w_rnd (working w)) with (fun i => mended (w_rnd w i)). cbv beta.
    pose proof (digest_small hm V) as Ld. assert (getLen (mkBytes [] (digest_len hm)) = 0) as L0 by reflexivity.
    destruct (lenN (w_rnd w 2 (digest_len hm)) =? digest_len hm) eqn:D2; cbn [andb].
    - rewrite fill_mended by (cbn [bmax]; rewrite L0, N.sub_0_r; exact D2).
      rewrite fillrandom_ok by (first [apply mended_len | cbn [bmax]; lia]). unfold lift. cbn [bind dbind dret].
      unfold p_setSalt, p_getHashSize. rewrite E. cbn [bind]. change (hash_size_of hm) with (digest_len hm). rewrite fillrandom_len by (first [apply mended_len | apply N.le_0_l]). cbn [bmax]. rewrite N.eqb_refl. cbn [bind dbind dret].
      match goal with |- context [setHeaderParts _ ?q] => pose proof (parts_any (w_rnd w 3) q hm) as P; set (p' := q) in * end.
      specialize (P eq_refl V). destruct (lenN (w_rnd w 3 (digest_len hm)) =? digest_len hm); rewrite P; reflexivity.
    - rewrite fill_fails by (cbn [bmax]; rewrite ?L0, ?N.sub_0_r; exact D2 || lia). reflexivity.
  Qed.
  Lemma create_any w pw ds t : world_any bd H w -> settings_made ds -> t < 2 ^ 64 -> all_set ds = true ->
    match header_fault w ds t with
    | Some Fatal => createHeaderIters w 1 pw ds t = Crash Terminate
    | Some Reported => createHeaderIters w 1 pw ds t = dfail ERR
    | None => createHeaderIters w 1 pw ds t = createHeaderIters (working w) 1 pw ds t
    end.
  Proof.
    intros (Wb & WH & We) SM Lt C. pose proof (chains_any w ds SM C) as NC. pose proof C as SC. rewrite all_set_complete in SC.
    destruct (settings_in_range ds SM SC) as (hm & m1 & m2 & n1 & n2 & F0 & F1 & F2 & F3 & F4 & F5 & R1 & R2 & R3 & R4 & R5).
    assert (forall x, newChains w ds = x -> (x = Crash Terminate -> createHeaderIters w 1 pw ds t = Crash Terminate) /\ (x = Throw RuntimeError -> createHeaderIters w 1 pw ds t = dfail ERR)) as K.
    { intros x Ex. split; intros ->; unfold createHeaderIters; rewrite SC, F0, Ex; reflexivity. }
    destruct (K _ eq_refl) as [K1 K2]. unfold header_fault.
    destruct (data_fault w 0 (value (s_ch1 ds))) as [[|]|]; [exact (K1 NC)|exact (K2 NC)|].
    destruct (data_fault w 1 (value (s_ch2 ds))) as [[|]|]; [exact (K1 NC)|exact (K2 NC)|]. clear K K1 K2.
    assert (forall i k, lenN (w_rnd (working w) i k) = k) as WR by (intros; apply mended_len).
    pose proof (new_chains_eq (working w) ds m1 n1 m2 n2 WR F2 F4 F3 F5 R2 R4 R3 R5) as NW. rewrite NW in NC.
    pose proof (new_chain_of_ok (working w) 0 m1 n1 WR R2 R4) as O1. pose proof (new_chain_of_ok (working w) 1 m2 n2 WR R3 R5) as O2. unfold new_chain_of in *.
    destruct (create_until w pw ds t hm m1 n1 m2 n2 _ _ WH We Lt SC F0 F1 R1 O1 O2) as [A B].
    rewrite F1, F4, F5. cbn [value]. change (working w) with (with_rnd w (w_rnd (working w))) in NW |- * at 1.
    destruct (create_timely w t n1 n2) eqn:T; cbn [andb].
    - apply create_timely_iff in T. destruct (B T) as (k & p & Ep & F). pose proof (finish_any w hm p k Ep R1) as Q.
      destruct (delivers w 2 (digest_len hm) && delivers w 3 (digest_len hm)); cbn [negb];
        rewrite <- (with_own w) at 1; rewrite F by (rewrite with_own; exact NC); [|exact Q].
      rewrite Q. symmetry. apply F, NW.
    - assert (~ create_in_time w t n1 n2) as T' by (rewrite <- create_timely_iff; congruence).
      rewrite <- (with_own w) at 1. rewrite A; [|exact T'|rewrite with_own; exact NC]. symmetry. apply A; [exact T'|exact NW].
  Qed.
End Any.
