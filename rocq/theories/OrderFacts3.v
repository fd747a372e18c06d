(** Lemmas about machines that keep the bytes of numbers in either order: data headers. *)
From Verif Require Import Base BaseFacts BytesModel BytesSpec BytesFacts BytesFacts2 CipherModel CipherFacts PwModel PwFacts
  MiscModel MiscFacts ChModel ChSpec ChFacts ChFacts2 HeaderModel HeaderSpec HeaderFacts HeaderFacts2 HeaderFacts3 HeaderFacts4 HeaderFacts5 HeaderFacts9
  FileModel OrderModel OrderSpec OrderFacts.
Ltac Zify.zify_post_hook ::= Z.div_mod_to_equations.

(** ** the machine of the other Model files *)
Lemma addLong_little n t : addLong_on Little n t = addLong n t.
Proof. unfold addLong_on, addLong. rewrite ?fromLong_little. reflexivity. Qed.
Lemma addChainHash_little c t : addChainHash_on Little c t = addChainHash c t.
Proof. unfold addChainHash_on, addChainHash. exts. rewrite ?addLong_little. reflexivity. Qed.
Lemma calcBody_little fs len p : calcBody_on Little fs len p = calcBody fs len p.
Proof.
  unfold calcBody_on, calcBody. cbv zeta. rewrite ?addLong_little. exts. rewrite ?addLong_little. exts. rewrite ?addChainHash_little. exts.
  rewrite ?addChainHash_little. reflexivity.
Qed.
Lemma checkPwHash_little H clk pw p : checkPwHash_on Little H clk pw p = checkPwHash H clk pw p.
Proof. unfold checkPwHash_on, checkPwHash. destruct (isEmpty pw); [reflexivity|]. exts. rewrite ?perform_b_little. reflexivity. Qed.
Lemma calc_little H clk pw d : calcHeaderBytes_on Little H clk pw d = calcHeaderBytes H clk pw d.
Proof.
  unfold calcHeaderBytes_on, calcHeaderBytes. cbv zeta. destruct (negb (d_isComplete d)); [reflexivity|]. destruct (d_fsize d) as [n|]; [|reflexivity].
  destruct (getHeaderLength d) as [l| | |]; try reflexivity. cbn [bind]. destruct (n <? l); [reflexivity|].
  rewrite checkPwHash_little. destruct (checkPwHash H clk pw (d_parts d)); reflexivity.
Qed.
Lemma calc_plain_little d : calc_plain_on Little d = calc_plain d.
Proof. unfold calc_plain_on, calc_plain. rewrite ?calc_little. reflexivity. Qed.
Lemma read8_little s : read8_on Little s = read8 s.
Proof. unfold read8_on, read8. exts. rewrite ?toLong_little. reflexivity. Qed.
Lemma s_chain_little bd code set d s : s_chain_on Little bd code set d s = s_chain bd code set d s.
Proof. unfold s_chain_on, s_chain. exts. rewrite ?read8_little. reflexivity. Qed.
Lemma decode_little bd rnd file : decode_stream_on Little bd rnd file = decode_stream bd rnd file.
Proof.
  unfold decode_stream_on, decode_stream.
  match goal with |- noexcept ?x = noexcept ?y => enough (x = y) as K by (rewrite K; reflexivity) end.
  rewrite ?read8_little. exts. rewrite ?read8_little. exts.
  destruct (negb (_ =? _)); [reflexivity|]. destruct (_ <? _); [reflexivity|]. exts. rewrite ?s_chain_little. exts. rewrite ?s_chain_little. exts.
  rewrite ?calc_plain_little. reflexivity.
Qed.
Lemma fh_update_little p c : fh_update_on Little p c = fh_update p c.
Proof.
  unfold fh_update_on, fh_update. f_equal. destruct (readBytes 8 8 c) as [[b s]|]; [|reflexivity]. rewrite ?toLong_little. apply bind_ext. intros n.
  destruct (negb (n =? lenN c)); [reflexivity|]. destruct (readBytes 8 8 s) as [[b' s']|]; [|reflexivity]. apply toLong_little.
Qed.

(** ** writing *)
Lemma addLong_on_ok o v acc cap : lenN acc + 8 <= cap -> addLong_on o v (mkBytes acc cap) = Ret (mkBytes (acc ++ u64_on o v) cap).
Proof.
  intros L. unfold addLong_on. rewrite fromLong_on_true. cbn [bind]. rewrite addcopy_ok; [reflexivity|].
  unfold getLen. cbn [bdata]. rewrite u64_on_len. exact L.
Qed.
Lemma ser_chain_on_len o c : lenN (ser_chain_on o c) = 10 + lenN (snd c).
Proof. unfold ser_chain_on. rewrite !lenN_app, !u8_len, u64_on_len. lia. Qed.
Lemma ser_on_len o n h : header_ok h -> lenN (ser_on o n h) = hdr_len h.
Proof.
  intros Hok. rewrite <- (ser_len n h Hok). unfold ser_on, ser, layout_with. rewrite !lenN_app, !ser_chain_on_len, !ser_chain_len, !u64_on_len, !u64_len. lia.
Qed.
Lemma addChainHash_on_ok o c x acc cap : ch_inv c -> chain_of c = Some x -> lenN acc + 10 + lenN (snd x) <= cap ->
  addChainHash_on o c (mkBytes acc cap) = Ret (mkBytes (acc ++ ser_chain_on o x) cap).
Proof.
  intros Hc E L. pose proof (chain_of_ok _ _ Hc E) as (_ & Hit & Hf). apply data_fits_len in Hf. pose proof (chain_of_val _ _ E) as Ev.
  pose proof (chain_len _ _ Hc E) as Hl. pose proof E as E'. unfold chain_of in E'. rewrite Ev in E'.
  destruct (ch_mode c) as [m|] eqn:Em; [|discriminate]. destruct (ch_data c) as [d|] eqn:Ed; [|discriminate].
  destruct (getDataBlock_valid c x d Hc E Ed) as (b & Eb & Hb).
  injection E' as E'. assert (fst (fst x) = m /\ snd (fst x) = ch_iters c) as [Hm Hi] by (rewrite <- E'; auto). clear E'.
  unfold ch_dataLen, ch_getData in Hl. rewrite Ev, Ed in Hl. cbn [bind deref] in Hl. assert (cd_len d = lenN (snd x)) as Hl' by congruence.
  unfold addChainHash_on, ch_getMode, ch_getIters, ch_getData. rewrite Ev, Em, Ed. cbn [bind deref].
  rewrite addChar_ok by lia. cbn [bind]. rewrite addLong_on_ok by (rewrite lenN_app, u8_len; lia). cbn [bind].
  rewrite addChar_ok by (rewrite !lenN_app, u8_len, u64_on_len; lia). cbn [bind]. rewrite Eb. cbn [bind].
  rewrite addcopy_ok by (rewrite !lenN_app, !u8_len, u64_on_len; unfold getLen; rewrite Hb; lia).
  unfold ser_chain_on. rewrite Hm, Hi, Hl', Hb, <- !app_assoc. reflexivity.
Qed.
Lemma calcBody_on_ok o mode d h n : hinv mode d -> contents d = Some h ->
  calcBody_on o n (hdr_len h) (d_parts d) = Ret (mkBytes (ser_on o n h) (hdr_len h)).
Proof.
  intros I E. pose proof (contents_ok mode d h I E) as [Hok HM]. pose proof (ser_on_len o n h Hok) as Hlen.
  destruct (contents_parts d h E) as (v & s & Ef & Eh & E1 & E2 & Ev & Bv & Es & Bs & Eb & Ee).
  unfold calcBody_on, p_getFileDataMode, p_getHashMode, p_getValid, p_getSalt. rewrite Ef, Eh, Ev, Es. cbn [bind].
  unfold ser_on in *. rewrite !lenN_app in Hlen.
  rewrite !ser_chain_on_len, !u8_len, !u64_on_len in Hlen.
  assert (lenN (p_dec (d_parts d)) = lenN (h_blocks h)) as Lb by (rewrite <- Eb; unfold plain_blocks; rewrite lenN_map; reflexivity).
  assert (lenN (p_enc (d_parts d)) = lenN (h_encs h)) as Le by (rewrite <- Ee; unfold plain_encs; rewrite lenN_map; reflexivity).
  pose proof (addBlocks_ok (p_dec (d_parts d))) as AB. pose proof (addEncBlocks_ok (p_enc (d_parts d))) as AE.
  fold (plain_blocks d) in AB. fold (plain_encs d) in AE. rewrite Eb in AB. rewrite Ee in AE.
  rewrite Lb, Le. change (lenN (@nil byte)) with 0.
  set (B := concat (map ser_block (h_blocks h))) in *. set (EE := concat (map ser_enc (h_encs h))) in *.
  Ltac sideo := rewrite ?lenN_app, ?ser_chain_on_len, ?u8_len, ?u64_on_len; change (lenN (@nil byte)) with 0; try lia.
  rewrite addLong_on_ok by sideo. cbn [bind].
  rewrite addLong_on_ok by sideo. cbn [bind].
  do 3 (rewrite addChar_ok by sideo; cbn [bind]).
  rewrite AB by sideo. cbn [bind].
  rewrite (addChainHash_on_ok o _ _ _ _ (i_ch1 _ _ I) E1) by sideo. cbn [bind].
  rewrite (addChainHash_on_ok o _ _ _ _ (i_ch2 _ _ I) E2) by sideo. cbn [bind].
  rewrite addcopy_ok by (unfold getLen, copyBytes; cbn [bdata]; rewrite Bv; sideo). cbn [bind copyBytes bdata]. rewrite Bv.
  rewrite addcopy_ok by (unfold getLen, copyBytes; cbn [bdata]; rewrite Bs; sideo). cbn [bind copyBytes bdata]. rewrite Bs.
  rewrite addChar_ok by sideo. cbn [bind].
  rewrite AE by sideo. rewrite <- !app_assoc. reflexivity.
Qed.
Lemma calc_on_spec o mode H clk pw d h : hinv mode d -> contents d = Some h ->
  calcHeaderBytes_on o H clk pw d =
    match d_fsize d with
    | None => (d, Throw LogicError)
    | Some n =>
        if n <? hdr_len h then (d, Throw InvalidArgument)
        else match checkPwHash_on o H clk pw (d_parts d) with
             | Ret _ => (with_bytes (mkBytes (ser_on o n h) (hdr_len h)) d, Ret tt)
             | Throw e => (d, Throw e) | Crash c => (d, Crash c) | OutOfFuel => (d, OutOfFuel)
             end
    end.
Proof.
  intros I E. unfold calcHeaderBytes_on. assert (d_isComplete d = true) as -> by (apply (complete_contents mode d I); eauto). cbn [negb].
  destruct (d_fsize d) as [n|] eqn:Ef; [|reflexivity].
  rewrite (header_length mode d h I E). cbn [bind]. destruct (n <? hdr_len h); [reflexivity|].
  destruct (checkPwHash_on o H clk pw (d_parts d)) as [[]|e|c|]; cbn [bind]; try reflexivity.
  pose proof (header_length mode _ h (hinv_bytes mode d (clearBytes (d_bytes d)) I) E) as L. rewrite Ef in L. rewrite L.
  rewrite (calcBody_on_ok o mode d h n I E). cbn [getLen bdata].
  assert (header_ok h) as Hok by apply (contents_ok mode d h I E).
  unfold getLen. cbn [bdata]. rewrite (ser_on_len o n h Hok), N.eqb_refl. cbn [negb]. unfold with_bytes. rewrite Ef. reflexivity.
Qed.

(** ** reading *)
Lemma read8_on_u64 o v s : v < two64 -> read8_on o (u64_on o v ++ s) = dret (v, s).
Proof.
  intros Hv. unfold read8_on, readBytes. change (Z.to_N (8 mod 4294967296)) with 8. change (8 <? 8) with false.
  destruct (N.ltb_spec (lenN (u64_on o v ++ s)) 8) as [L|_]; [rewrite lenN_app, u64_on_len in L; lia|].
  rewrite <- (u64_on_len o v) at 1 2. rewrite takeN_app_exact, dropN_app_exact. cbn [need dbind dret].
  rewrite toLong_on_val by (unfold getLen; cbn [bdata]; rewrite u64_on_len; lia). cbn [bdata]. rewrite number_own by exact Hv. reflexivity.
Qed.
Lemma read8_other o o' v s : o <> o' -> read8_on o' (u64_on o v ++ s) = dret (swap v, s).
Proof.
  intros Ho. unfold read8_on, readBytes. change (Z.to_N (8 mod 4294967296)) with 8. change (8 <? 8) with false.
  destruct (N.ltb_spec (lenN (u64_on o v ++ s)) 8) as [L|_]; [rewrite lenN_app, u64_on_len in L; lia|].
  rewrite <- (u64_on_len o v) at 1 2. rewrite takeN_app_exact, dropN_app_exact. cbn [need dbind dret].
  rewrite toLong_on_val by (unfold getLen; cbn [bdata]; rewrite u64_on_len; lia). cbn [bdata]. rewrite (number_other o o' v Ho). reflexivity.
Qed.
Lemma chain_fwd_on o bd code k d c r : chain_ok c ->
  s_chain_on o bd code (set_of k) d (ser_chain_on o c ++ r) = dret (with_chain k (to_ch c) d, r).
Proof.
  intros Hc. rewrite <- (chain_res_ok bd code c (lenN (snd c)) (with_chain k (to_ch c) d) r Hc (or_intror eq_refl)).
  rewrite <- (chain_fwd bd code k d c _ r (shape_own c Hc)).
  destruct c as [[m it] data]. pose proof Hc as (Hm & Hi & F). cbn [fst snd] in *.
  unfold s_chain_on, s_chain, ser_chain_on, ser_chain. cbn [fst snd]. rewrite <- !app_assoc.
  rewrite !read1_u8 by lia. cbn [need dbind dret]. apply dbind_ext. intros f.
  rewrite read8_on_u64, read8_u64 by (unfold two64; lia). cbn [dbind dret]. reflexivity.
Qed.
Definition decoded_on (o : order) (fs : N) (h : header) : dheader := with_bytes (mkBytes (ser_on o fs h) (hdr_len h)) (obj (Some fs) h).
Lemma decoded_on_hinv o fs h : header_ok h -> fs < two64 -> hinv (h_hmode h) (decoded_on o fs h).
Proof. intros Hh Hf. apply hinv_bytes. apply obj_hinv; [exact Hh|]. intros n [= <-]. exact Hf. Qed.
Lemma decoded_on_contents o fs h : header_ok h -> contents (decoded_on o fs h) = Some h.
Proof. intros (Hf & _). apply (obj_contents (Some fs) h Hf). Qed.
Lemma calc_obj_on o h fs : header_ok h -> hdr_len h <= fs -> fs < two64 -> calc_plain_on o (obj (Some fs) h) = Ret (decoded_on o fs h).
Proof.
  intros Hh L Hf. assert (hinv (h_hmode h) (obj (Some fs) h)) as I by (apply obj_hinv; [exact Hh|intros n [= <-]; exact Hf]).
  pose proof (obj_contents (Some fs) h (proj1 Hh)) as C. unfold calc_plain_on.
  rewrite (calc_on_spec o _ _ _ _ _ h I C). cbn [obj D d_fsize]. destruct (N.ltb_spec fs (hdr_len h)); [lia|]. reflexivity.
Qed.
Lemma decode_own o bd rnd h rest : (forall k, lenN (rnd k) = k) -> header_ok h -> no_empty_block h -> hdr_len h + lenN rest < two64 ->
  decode_stream_on o bd rnd (ser_on o (hdr_len h + lenN rest) h ++ rest) = Ret (inr (decoded_on o (hdr_len h + lenN rest) h, rest)).
Proof.
  intros Hr Hh Hne Hf. pose proof Hh as (A1 & A2 & A3 & A4 & A5 & A6 & A7 & A8 & A9 & A10). set (fs := hdr_len h + lenN rest) in *.
  set (file := ser_on o fs h ++ rest). assert (lenN file = fs) as Lf by (unfold file; rewrite lenN_app, ser_on_len by exact Hh; reflexivity).
  unfold decode_stream_on. rewrite Lf. change (Ret (inr (decoded_on o fs h, rest))) with (noexcept (dret (decoded_on o fs h, rest))). f_equal.
  unfold file, ser_on. rewrite <- !app_assoc. rewrite read8_on_u64 by exact Hf. cbn [dbind dret]. rewrite read8_on_u64 by lia. cbn [dbind dret].
  rewrite N.eqb_refl. cbn [negb]. destruct (N.ltb_spec fs (hdr_len h)); [lia|]. rewrite A1.
  rewrite read1_u8 by lia. cbn [need dbind dret]. rewrite read1_u8 by lia. cbn [need dbind dret]. rewrite (new_start rnd _ Hr A2). cbn [try_ dbind dret].
  change (d_setFileDataMode 1 (start rnd (h_hmode h))) with (Ret (D (h_hmode h) None (salt0 rnd (h_hmode h)) [] [] ch_default ch_default None)). cbn [try_ dbind dret].
  rewrite read1_u8 by lia. cbn [need dbind dret].
  replace (N.to_nat (lenN (h_blocks h))) with (length (h_blocks h)) by (unfold lenN; lia).
  rewrite (blocks_fwd (h_hmode h) None (salt0 rnd (h_hmode h)) _ _ None (h_blocks h) [] _ (good_blocks h Hh Hne) A3). cbn [dbind dret].
  change setChainHash1 with (set_of true). rewrite chain_fwd_on by exact A5. cbn [dbind dret].
  change setChainHash2 with (set_of false). rewrite chain_fwd_on by exact A6. cbn [dbind dret app].
  change (with_chain false (to_ch (h_ch2 h)) _) with (bare h (salt0 rnd (h_hmode h))).
  pose proof (read_pair bd (repeat x00 0) 0 0 h (salt0 rnd (h_hmode h)) [] A7 A8 A2) as _.
  change (d_hsize (bare h (salt0 rnd (h_hmode h)))) with (digest_len (h_hmode h)).
  assert (digest_len (h_hmode h) < two32) as Hd by (unfold two32; destruct (digest_cases _ A2) as [->|[->| ->]]; lia).
  rewrite readBytes_N by exact Hd. rewrite read_n_eq by lia. cbn [need dbind dret].
  unfold bare. rewrite setValid_D by (unfold getLen; cbn [bdata]; exact A7). cbn [try_ dbind dret]. change (d_hsize (D ?a ?b ?c ?d ?e ?f ?g ?h)) with (digest_len a).
  rewrite readBytes_N by exact Hd. rewrite read_n_eq by lia. cbn [need dbind dret].
  unfold d_setEncSalt, p_setSalt, p_getHashSize. cbn [D d_parts p_hmode bind]. rewrite hash_size_digest. unfold getLen. cbn [bdata].
  rewrite A8, N.eqb_refl. cbn [bind try_ dbind dret].
  match goal with |- context [setFileSize fs ?x] => change x with (obj None (no_encs h)) end.
  rewrite (set_size_obj _ fs (no_encs_ok h Hh)). pose proof (no_encs_len h).
  destruct (N.ltb_spec fs (hdr_len (no_encs h))); [lia|]. cbn [try_ dbind dret]. rewrite read1_u8 by lia. cbn [need dbind dret].
  replace (N.to_nat (lenN (h_encs h))) with (length (h_encs h)) by (unfold lenN; lia).
  unfold obj at 1. rewrite (encs_fwd _ _ _ _ _ _ _ (conj A4 A3) (h_encs h) [] rest A10 A9). cbn [dbind dret].
  match goal with |- context [calc_plain_on o ?x] => change x with (obj (Some fs) h) end.
  rewrite (calc_obj_on o h fs Hh ltac:(lia) Hf). cbn [try_ dbind dret].
  rewrite (header_length _ _ h (decoded_on_hinv o fs h Hh Hf) (decoded_on_contents o fs h Hh)). unfold lift. cbn [bind dbind dret].
  replace (fs - lenN rest) with (hdr_len h) by (unfold fs; lia). rewrite N.eqb_refl. destruct bd; reflexivity.
Qed.
Lemma decoded_on_shows o fs h : header_ok h -> hdr_len h <= fs -> fs < two64 -> shows_on o (decoded_on o fs h) fs h.
Proof.
  intros Hh L Hf. split; [apply decoded_on_contents; exact Hh|]. split; [reflexivity|].
  unfold getHeaderBytes. rewrite (header_length _ _ h (decoded_on_hinv o fs h Hh Hf) (decoded_on_contents o fs h Hh)). cbn [bind].
  destruct (N.eqb_spec (hdr_len h) 0) as [E|_]; [unfold hdr_len in E; lia|].
  unfold getLen. cbn [decoded_on with_bytes d_bytes bdata]. rewrite ser_on_len, N.eqb_refl by exact Hh. cbn [negb]. eexists. split; reflexivity.
Qed.

(** ** what a program sees *)
Lemma storing_hinv mode d b : hinv mode d -> hinv mode (storing b d).
Proof. apply hinv_bytes. Qed.
Lemma written_on o bd H clk pw d h b d' : hbuilt bd d -> contents d = Some h ->
  calcHeaderBytes_on o H clk pw (storing b d) = (d', Ret tt) ->
  exists n, d_fsize d = Some n /\ hdr_len h <= n /\ shows_on o d' n h.
Proof.
  intros Hb C E. destruct (hbuilt_inv bd d Hb) as (mode & I & _). 
  rewrite (calc_on_spec o mode H clk pw (storing b d) h (storing_hinv mode d b I) C) in E. cbn [storing d_fsize d_parts] in E.
  destruct (d_fsize d) as [n|] eqn:Ef; [|discriminate]. destruct (N.ltb_spec n (hdr_len h)); [discriminate|].
  exists n. split; [reflexivity|]. split; [assumption|]. destruct (checkPwHash_on o H clk pw (d_parts d)); try discriminate.
  injection E as <-. assert (header_ok h) as Hok by apply (contents_ok mode d h I C).
  split; [exact C|]. split; [exact Ef|]. unfold getHeaderBytes.
  match goal with |- context [getHeaderLength ?x] => rewrite (header_length mode x h (hinv_bytes mode d _ I) C) end. cbn [bind].
  destruct (N.eqb_spec (hdr_len h) 0) as [E|_]; [unfold hdr_len in E; lia|].
  unfold getLen. cbn [with_bytes d_bytes bdata]. rewrite ser_on_len, N.eqb_refl by exact Hok. cbn [negb]. eexists. split; reflexivity.
Qed.
Lemma write_succeeds_on o bd H clk cap d h b n : hbuilt bd d -> contents d = Some h -> d_fsize d = Some n -> hdr_len h <= n ->
  exists d', calcHeaderBytes_on o H clk (mkBytes [] cap) (storing b d) = (d', Ret tt).
Proof.
  intros Hb C Ef L. destruct (hbuilt_inv bd d Hb) as (mode & I & _).
  rewrite (calc_on_spec o mode H clk _ (storing b d) h (storing_hinv mode d b I) C). cbn [storing d_fsize d_parts]. rewrite Ef.
  destruct (N.ltb_spec n (hdr_len h)); [lia|]. change (checkPwHash_on o H clk (mkBytes [] cap) (d_parts d)) with (Ret tt). eexists. reflexivity.
Qed.
Lemma read_own o bd rnd h rest : (forall k, lenN (rnd k) = k) -> header_ok h -> no_empty_block h -> hdr_len h + lenN rest < two64 ->
  exists d, decode_stream_on o bd rnd (ser_on o (hdr_len h + lenN rest) h ++ rest) = Ret (inr (d, rest)) /\ shows_on o d (hdr_len h + lenN rest) h.
Proof.
  intros Hr Hh Hne Hf. eexists. split; [apply decode_own; assumption|]. apply decoded_on_shows; [exact Hh|lia|exact Hf].
Qed.
Lemma read8_short s o : lenN s < 8 -> read8_on o s = dfail ERR_NOT_ENOUGH_DATA.
Proof.
  intros L. unfold read8_on, readBytes. change (Z.to_N (8 mod 4294967296)) with 8. change (8 <? 8) with false.
  destruct (N.ltb_spec (lenN s) 8); [reflexivity|lia].
Qed.
Lemma readBytes_u64 o v s : readBytes 8 8 (u64_on o v ++ s) = Some (u64_on o v, s).
Proof.
  unfold readBytes. change (Z.to_N (8 mod 4294967296)) with 8. change (8 <? 8) with false.
  rewrite lenN_app, u64_on_len. destruct (N.ltb_spec (8 + lenN s) 8); [lia|].
  assert (takeN 8 (u64_on o v ++ s) = u64_on o v) as -> by (rewrite <- (u64_on_len o v) at 1; apply takeN_app_exact).
  assert (dropN 8 (u64_on o v ++ s) = s) as -> by (rewrite <- (u64_on_len o v) at 1; apply dropN_app_exact). reflexivity.
Qed.
Lemma read8_any o s : 8 <= lenN s -> exists v, read8_on o s = dret (v, dropN 8 s).
Proof.
  intros L. unfold read8_on, readBytes. change (Z.to_N (8 mod 4294967296)) with 8. change (8 <? 8) with false.
  destruct (N.ltb_spec (lenN s) 8); [lia|]. cbn [need dbind dret].
  rewrite toLong_on_val by (unfold getLen; cbn [bdata]; rewrite lenN_takeN; lia). cbn [lift bind dbind dret]. eauto.
Qed.
Lemma other_refuses o o' bd rnd p file rest : o <> o' -> file = u64_on o (lenN file) ++ rest -> 8 <= lenN rest -> lenN file < 4311744512 ->
  decode_stream_on o' bd rnd file = Ret (inl ERR_FILESIZE_INVALID) /\ fh_update_on o' p file = Throw LogicError.
Proof.
  intros Ho E Lr Lf. assert (lenN file <> 0) as Hz. { intros Z. rewrite E, lenN_app, u64_on_len in Z. lia. }
  assert (lenN file <> swap (lenN file)) as Hs. { intros S. apply Hz. apply swap_moves; [exact Lf|congruence]. }
  split.
  - assert (read8_on o' file = dret (swap (lenN file), rest)) as R by (rewrite E at 1; apply (read8_other o o' _ _ Ho)).
    unfold decode_stream_on. rewrite R. cbn [dbind dret]. destruct (read8_any o' rest Lr) as [v ->]. cbn [dbind dret].
    destruct (N.eqb_spec (lenN file) (swap (lenN file))); [contradiction|]. reflexivity.
  - assert (readBytes 8 8 file = Some (u64_on o (lenN file), rest)) as R.
    { rewrite E at 1. apply readBytes_u64. }
    unfold fh_update_on. rewrite R. rewrite toLong_on_val by (unfold getLen; cbn [bdata]; rewrite u64_on_len; lia). cbn [bdata bind].
    rewrite (number_other o o' _ Ho). destruct (N.eqb_spec (swap (lenN file)) (lenN file)); [congruence|]. reflexivity.
Qed.
Lemma other_refuses_header o o' bd rnd p h rest : o <> o' -> header_ok h -> hdr_len h + lenN rest < 4311744512 ->
  let file := ser_on o (hdr_len h + lenN rest) h ++ rest in
  decode_stream_on o' bd rnd file = Ret (inl ERR_FILESIZE_INVALID) /\ fh_update_on o' p file = Throw LogicError.
Proof.
  intros Ho Hh Lf. cbv zeta. set (n := hdr_len h + lenN rest) in *.
  assert (lenN (ser_on o n h ++ rest) = n) as Ln by (rewrite lenN_app, ser_on_len by exact Hh; reflexivity).
  eapply (other_refuses o o' bd rnd p _ _ Ho).
  - rewrite Ln. unfold ser_on at 1. rewrite <- !app_assoc. reflexivity.
  - rewrite lenN_app, u64_on_len. lia.
  - rewrite Ln. exact Lf.
Qed.
Lemma own_opens o p h rest : header_ok h -> hdr_len h + lenN rest < two64 ->
  fh_update_on o p (ser_on o (hdr_len h + lenN rest) h ++ rest) = Ret (mkFH p (hdr_len h) (hdr_len h + lenN rest) false).
Proof.
  intros Hh Lf. set (n := hdr_len h + lenN rest) in *. unfold fh_update_on.
  assert (lenN (ser_on o n h ++ rest) = n) as Ln by (rewrite lenN_app, ser_on_len by exact Hh; reflexivity). rewrite Ln.
  pose proof (readBytes_u64 o) as R.
  unfold ser_on. rewrite <- !app_assoc. rewrite R. rewrite toLong_on_val by (unfold getLen; cbn [bdata]; rewrite u64_on_len; lia). cbn [bdata bind].
  rewrite number_own by exact Lf. rewrite N.eqb_refl. cbn [negb]. rewrite R.
  rewrite toLong_on_val by (unfold getLen; cbn [bdata]; rewrite u64_on_len; lia). cbn [bdata bind]. rewrite number_own by lia.
  destruct (N.ltb_spec n (hdr_len h)); [lia|]. unfold MIN_DATAHEADER_LEN. assert (104 <= hdr_len h) as B. { pose proof Hh as (_ & V & _). unfold hdr_len. destruct (digest_cases _ V) as [->|[->| ->]]; lia. }
  destruct (N.ltb_spec (hdr_len h) 104); [lia|]. cbn [andb]. destruct (N.eqb_spec n 0); [lia|]. reflexivity.
Qed.
Lemma random_little rnd lower upper n : get_random_byte_on Little rnd lower upper n = get_random_byte rnd lower upper n.
Proof.
  unfold get_random_byte_on, get_random_byte. destruct (_ || _); [reflexivity|]. destruct (_ <=? _); [reflexivity|]. destruct (rnd n); [|reflexivity].
  rewrite toLong_little. reflexivity.
Qed.
Lemma this_machine :
  (forall v z, fromLong_on Little v z = fromLong v z) /\ (forall b, toLong_on Little b = toLong b) /\
  (forall h clk c x t, performChainHash_s_on Little h clk c x t = performChainHash_s h clk c x t) /\
  (forall h clk c x t, performChainHash_b_on Little h clk c x t = performChainHash_b h clk c x t) /\
  (forall H clk pw d, calcHeaderBytes_on Little H clk pw d = calcHeaderBytes H clk pw d) /\
  (forall bd rnd file, decode_stream_on Little bd rnd file = decode_stream bd rnd file) /\
  (forall p c, fh_update_on Little p c = fh_update p c) /\
  (forall rnd lower upper n, get_random_byte_on Little rnd lower upper n = get_random_byte rnd lower upper n).
Proof.
  split; [exact fromLong_little|]. split; [exact toLong_little|]. split; [exact perform_s_little|]. split; [exact perform_b_little|].
  split; [exact calc_little|]. split; [exact decode_little|]. split; [exact fh_update_little|exact random_little].
Qed.
