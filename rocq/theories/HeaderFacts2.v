(** The encoder, and the invariant under every call. *)
From Verif Require Import Base BaseFacts BytesModel BytesSpec BytesFacts BytesFacts2 CipherModel CipherFacts PwModel PwFacts
  ChModel ChSpec ChFacts ChFacts2 HeaderModel HeaderSpec HeaderFacts.

Lemma hash_size_digest m : hash_size_of m = digest_len m.
Proof. reflexivity. Qed.
Lemma getHash_size H m h : getHash H m = Ret h -> hsize h = digest_len m /\ 1 <= m <= 3.
Proof. destruct m as [|[[]|[]|]]; cbn; try discriminate; intros [= <-]; cbn; split; lia || reflexivity. Qed.
Lemma hash_mode_valid_spec m : hash_mode_valid m = true <-> 1 <= m <= 3.
Proof. unfold hash_mode_valid. rewrite andb_true_iff, !N.leb_le. tauto. Qed.
Lemma file_mode_valid_spec m : file_mode_valid m = true <-> m = 1.
Proof. unfold file_mode_valid. rewrite andb_true_iff, !N.leb_le. lia. Qed.

Lemma complete_contents mode d : hinv mode d -> (d_isComplete d = true <-> exists h, contents d = Some h).
Proof.
  intros I. unfold d_isComplete, p_isComplete, contents. rewrite (i_hmode _ _ I), (i_size _ _ I), hash_size_digest, N.eqb_refl.
  destruct (i_salt _ _ I) as (s & -> & _). cbn [isSome]. rewrite !andb_true_r. split.
  - intros E. apply andb_true_iff in E. destruct E as [E E4]. apply andb_true_iff in E. destruct E as [E E3].
    apply andb_true_iff in E. destruct E as [E1 E2].
    destruct (chain_of_valid _ (i_ch1 _ _ I) E1) as [x ->]. destruct (chain_of_valid _ (i_ch2 _ _ I) E2) as [y ->].
    destruct (p_valid (d_parts d)); [|discriminate]. destruct (p_fmode (d_parts d)); [|discriminate]. eexists. reflexivity.
  - intros [h E]. destruct (p_fmode (d_parts d)); [|discriminate].
    destruct (chain_of (p_ch1 (d_parts d))) eqn:E1; [|discriminate]. destruct (chain_of (p_ch2 (d_parts d))) eqn:E2; [|discriminate].
    destruct (p_valid (d_parts d)); [|discriminate]. rewrite (chain_of_val _ _ E1), (chain_of_val _ _ E2). reflexivity.
Qed.
(** what [contents] says about the parts *)
Lemma contents_parts d h : contents d = Some h -> exists v s,
  p_fmode (d_parts d) = Some (h_fmode h) /\ p_hmode (d_parts d) = Some (h_hmode h) /\
  chain_of (p_ch1 (d_parts d)) = Some (h_ch1 h) /\ chain_of (p_ch2 (d_parts d)) = Some (h_ch2 h) /\
  p_valid (d_parts d) = Some v /\ bdata v = h_valid h /\ p_salt (d_parts d) = Some s /\ bdata s = h_salt h /\
  plain_blocks d = h_blocks h /\ plain_encs d = h_encs h.
Proof.
  unfold contents. intros E. destruct (p_fmode (d_parts d)); [|discriminate]. destruct (p_hmode (d_parts d)); [|discriminate].
  destruct (chain_of (p_ch1 (d_parts d))) eqn:E1; [|discriminate]. destruct (chain_of (p_ch2 (d_parts d))) eqn:E2; [|discriminate].
  destruct (p_valid (d_parts d)) as [v|]; [|discriminate]. destruct (p_salt (d_parts d)) as [s|]; [|discriminate].
  injection E as <-. exists v, s. cbn. spl; reflexivity.
Qed.
Lemma contents_ok mode d h : hinv mode d -> contents d = Some h -> header_ok h /\ h_hmode h = mode.
Proof.
  intros I E. destruct (contents_parts d h E) as (v & s & Ef & Eh & E1 & E2 & Ev & Bv & Es & Bs & Eb & Ee).
  assert (h_hmode h = mode) as M by (pose proof (i_hmode _ _ I); congruence). split; [|exact M].
  unfold header_ok. rewrite M, <- Eb, <- Ee, <- Bv, <- Bs. destruct (i_salt _ _ I) as (s' & Es' & Ls). assert (s' = s) by congruence. subst s'.
  spl.
  - apply (i_fmode _ _ I). exact Ef.
  - apply (i_range _ _ I).
  - apply (i_range _ _ I).
  - apply (i_nb _ _ I).
  - apply (i_blocks _ _ I).
  - exact (chain_of_ok _ _ (i_ch1 _ _ I) E1).
  - exact (chain_of_ok _ _ (i_ch2 _ _ I) E2).
  - apply (i_valid _ _ I). exact Ev.
  - exact Ls.
  - apply (i_ne _ _ I).
  - apply (i_encs _ _ I).
Qed.
Lemma w32_small n : n < two32 -> w32 n = n.
Proof. apply N.mod_small. Qed.
Lemma blen_bound mode d : hinv mode d -> d_blen d <= 131070.
Proof.
  intros I. rewrite (i_blen _ _ I), ser_blocks_len.
  assert (sum (map (fun b => lenN (snd b)) (plain_blocks d)) <= 255 * lenN (plain_blocks d)).
  { apply (sum_bound (fun b => lenN (snd b))). eapply Forall_impl; [|exact (i_blocks _ _ I)]. intros b [_ Hx]. exact Hx. }
  pose proof (i_nb _ _ I). pose proof (i_ne _ _ I). lia.
Qed.
Lemma header_length_chains mode d x y : hinv mode d -> chain_of (p_ch1 (d_parts d)) = Some x -> chain_of (p_ch2 (d_parts d)) = Some y ->
  getHeaderLength d = Ret (40 + 2 * digest_len mode + d_blen d + lenN (snd x) + lenN (snd y)).
Proof.
  intros I E1 E2. unfold getHeaderLength. rewrite (chain_of_val _ _ E1), (chain_of_val _ _ E2). cbn [andb].
  rewrite (chain_len _ _ (i_ch1 _ _ I) E1), (chain_len _ _ (i_ch2 _ _ I) E2). cbn [bind noexcept]. f_equal. rewrite (i_size _ _ I).
  apply w32_small. pose proof (blen_bound _ _ I).
  pose proof (chain_of_ok _ _ (i_ch1 _ _ I) E1) as (_ & _ & F1). pose proof (chain_of_ok _ _ (i_ch2 _ _ I) E2) as (_ & _ & F2).
  apply data_fits_len in F1, F2. destruct (digest_cases _ (i_range _ _ I)) as [E|[E|E]]; rewrite E; unfold two32; lia.
Qed.
Lemma header_length mode d h : hinv mode d -> contents d = Some h -> getHeaderLength d = Ret (hdr_len h).
Proof.
  intros I E. destruct (contents_parts d h E) as (v & s & Ef & Eh & E1 & E2 & Ev & Bv & Es & Bs & Eb & Ee).
  rewrite (header_length_chains mode d _ _ I E1 E2). f_equal. unfold hdr_len.
  assert (h_hmode h = mode) as -> by (pose proof (i_hmode _ _ I); congruence).
  rewrite (i_blen _ _ I), Eb, Ee, ser_blocks_len. lia.
Qed.
Lemma contents_bytes d b : contents (mkDH (d_parts d) (d_hsize d) b (d_fsize d) (d_blen d)) = contents d.
Proof. reflexivity. Qed.
Lemma hinv_bytes mode d b : hinv mode d -> hinv mode (mkDH (d_parts d) (d_hsize d) b (d_fsize d) (d_blen d)).
Proof. intros []. constructor; assumption. Qed.

(** ** the encoder *)
Lemma addcopy_ok x acc cap : lenN acc + getLen x <= cap -> addcopyToBytes x (mkBytes acc cap) = Ret (mkBytes (acc ++ bdata x) cap).
Proof.
  intros L. unfold addcopyToBytes, getLen in *. cbn [bdata bmax]. destruct (N.ltb_spec cap (lenN (bdata x) + lenN acc)); [lia|reflexivity].
Qed.
Lemma addChar_ok v acc cap : lenN acc + 1 <= cap -> addChar v (mkBytes acc cap) = Ret (mkBytes (acc ++ u8 v) cap).
Proof. intros L. unfold addChar. rewrite addByte_ret; [reflexivity|]. unfold getLen. cbn [bdata bmax]. lia. Qed.
Lemma addLong_ok v acc cap : v < two64 -> lenN acc + 8 <= cap -> addLong v (mkBytes acc cap) = Ret (mkBytes (acc ++ u64 v) cap).
Proof.
  intros Hv L. unfold addLong. rewrite (fromLong_true v Hv). cbn [bind]. rewrite addcopy_ok; [rewrite u64_be8; reflexivity|].
  unfold getLen. cbn [bdata]. rewrite be8_len. exact L.
Qed.
Lemma addBlocks_ok l : forall acc cap,
  lenN acc + lenN (concat (map ser_block (map (fun b => (db_type b, bdata (db_data b))) l))) <= cap ->
  addBlocks l (mkBytes acc cap) = Ret (mkBytes (acc ++ concat (map ser_block (map (fun b => (db_type b, bdata (db_data b))) l))) cap).
Proof.
  induction l as [|b l IH]; intros acc cap L; cbn [addBlocks map concat].
  - rewrite app_nil_r. reflexivity.
  - cbn [map concat] in L. rewrite lenN_app, ser_block_len in L. cbn [snd] in L.
    rewrite addChar_ok by lia. cbn [bind]. rewrite addChar_ok by (rewrite lenN_app, u8_len; lia). cbn [bind].
    rewrite addcopy_ok by (rewrite !lenN_app, !u8_len; unfold getLen; lia). cbn [bind].
    rewrite IH by (rewrite !lenN_app, !u8_len; lia). unfold ser_block. cbn [fst snd]. rewrite <- !app_assoc. reflexivity.
Qed.
Lemma addEncBlocks_ok l : forall acc cap,
  lenN acc + lenN (concat (map ser_enc (map (fun e => (db_type (eb_block e), eb_len e, bdata (db_data (eb_block e)))) l))) <= cap ->
  addEncBlocks l (mkBytes acc cap) = Ret (mkBytes (acc ++ concat (map ser_enc (map (fun e => (db_type (eb_block e), eb_len e, bdata (db_data (eb_block e)))) l))) cap).
Proof.
  induction l as [|b l IH]; intros acc cap L; cbn [addEncBlocks map concat].
  - rewrite app_nil_r. reflexivity.
  - cbn [map concat] in L. unfold ser_enc at 1 in L. cbn [fst snd] in L. rewrite !lenN_app, !u8_len in L.
    rewrite addChar_ok by lia. cbn [bind]. rewrite addChar_ok by (rewrite lenN_app, u8_len; lia). cbn [bind].
    rewrite addcopy_ok by (rewrite !lenN_app, !u8_len; unfold getLen; lia). cbn [bind].
    rewrite IH by (rewrite !lenN_app, !u8_len; lia). unfold ser_enc at 2. cbn [fst snd]. rewrite <- !app_assoc. reflexivity.
Qed.
Lemma addChainHash_ok c x acc cap : ch_inv c -> chain_of c = Some x -> lenN acc + 10 + lenN (snd x) <= cap ->
  addChainHash c (mkBytes acc cap) = Ret (mkBytes (acc ++ ser_chain (lenN (snd x)) x) cap).
Proof.
  intros Hc E L. pose proof (chain_of_ok _ _ Hc E) as (_ & Hit & Hf). apply data_fits_len in Hf. pose proof (chain_of_val _ _ E) as Ev.
  pose proof (chain_len _ _ Hc E) as Hl. pose proof E as E'. unfold chain_of in E'. rewrite Ev in E'.
  destruct (ch_mode c) as [m|] eqn:Em; [|discriminate]. destruct (ch_data c) as [d|] eqn:Ed; [|discriminate].
  destruct (getDataBlock_valid c x d Hc E Ed) as (b & Eb & Hb).
  injection E' as E'. assert (fst (fst x) = m /\ snd (fst x) = ch_iters c) as [Hm Hi] by (rewrite <- E'; auto). clear E'.
  unfold ch_dataLen, ch_getData in Hl. rewrite Ev, Ed in Hl. cbn [bind deref] in Hl. assert (cd_len d = lenN (snd x)) as Hl' by congruence.
  unfold addChainHash, ch_getMode, ch_getIters, ch_getData. rewrite Ev, Em, Ed. cbn [bind deref].
  rewrite addChar_ok by lia. cbn [bind]. rewrite addLong_ok; [|rewrite <- Hi; unfold two64; lia|rewrite lenN_app, u8_len; lia]. cbn [bind].
  rewrite addChar_ok by (rewrite !lenN_app, u8_len, u64_len; lia). cbn [bind]. rewrite Eb. cbn [bind].
  rewrite addcopy_ok by (rewrite !lenN_app, !u8_len, u64_len; unfold getLen; rewrite Hb; lia).
  unfold ser_chain. rewrite Hm, Hi, Hl', Hb, <- !app_assoc. reflexivity.
Qed.
Lemma calcBody_ok mode d h n : hinv mode d -> contents d = Some h -> n < two64 ->
  calcBody n (hdr_len h) (d_parts d) = Ret (mkBytes (ser n h) (hdr_len h)).
Proof.
  intros I E Hn. pose proof (contents_ok mode d h I E) as [Hok HM]. pose proof (ser_len n h Hok) as Hlen.
  pose proof (hdr_len_small h Hok) as Hsm.
  destruct (contents_parts d h E) as (v & s & Ef & Eh & E1 & E2 & Ev & Bv & Es & Bs & Eb & Ee).
  unfold calcBody, p_getFileDataMode, p_getHashMode, p_getValid, p_getSalt. rewrite Ef, Eh, Ev, Es. cbn [bind].
  unfold ser, layout_with in *. rewrite !lenN_app in Hlen.
  rewrite !ser_chain_len, !u8_len, !u64_len in Hlen.
  assert (lenN (p_dec (d_parts d)) = lenN (h_blocks h)) as Lb by (rewrite <- Eb; unfold plain_blocks; rewrite lenN_map; reflexivity).
  assert (lenN (p_enc (d_parts d)) = lenN (h_encs h)) as Le by (rewrite <- Ee; unfold plain_encs; rewrite lenN_map; reflexivity).
  pose proof (addBlocks_ok (p_dec (d_parts d))) as AB. pose proof (addEncBlocks_ok (p_enc (d_parts d))) as AE.
  fold (plain_blocks d) in AB. fold (plain_encs d) in AE. rewrite Eb in AB. rewrite Ee in AE.
  rewrite Lb, Le. change (lenN (@nil byte)) with 0.
  set (B := concat (map ser_block (h_blocks h))) in *. set (EE := concat (map ser_enc (h_encs h))) in *.
  Ltac side := rewrite ?lenN_app, ?ser_chain_len, ?u8_len, ?u64_len; change (lenN (@nil byte)) with 0; try lia.
  rewrite addLong_ok; [|exact Hn|side]. cbn [bind].
  rewrite addLong_ok; [|unfold two64; lia|side]. cbn [bind].
  do 3 (rewrite addChar_ok by side; cbn [bind]).
  rewrite AB by side. cbn [bind].
  rewrite (addChainHash_ok _ _ _ _ (i_ch1 _ _ I) E1) by side. cbn [bind].
  rewrite (addChainHash_ok _ _ _ _ (i_ch2 _ _ I) E2) by side. cbn [bind].
  rewrite addcopy_ok by (unfold getLen, copyBytes; cbn [bdata]; rewrite Bv; side). cbn [bind copyBytes bdata]. rewrite Bv.
  rewrite addcopy_ok by (unfold getLen, copyBytes; cbn [bdata]; rewrite Bs; side). cbn [bind copyBytes bdata]. rewrite Bs.
  rewrite addChar_ok by side. cbn [bind].
  rewrite AE by side. rewrite <- !app_assoc. reflexivity.
Qed.

Definition with_bytes (b : Bytes) (d : dheader) : dheader := mkDH (d_parts d) (d_hsize d) b (d_fsize d) (d_blen d).
Lemma calc_incomplete mode H clk pw d : hinv mode d -> contents d = None -> calcHeaderBytes H clk pw d = (d, Throw LogicError).
Proof.
  intros I E. unfold calcHeaderBytes. destruct (d_isComplete d) eqn:C; [|reflexivity].
  apply (complete_contents mode d I) in C. destruct C as [h C]. congruence.
Qed.
Lemma calc_spec mode H clk pw d h : hinv mode d -> contents d = Some h ->
  calcHeaderBytes H clk pw d =
    match d_fsize d with
    | None => (d, Throw LogicError)
    | Some n =>
        if n <? hdr_len h then (d, Throw InvalidArgument)
        else match checkPwHash H clk pw (d_parts d) with
             | Ret _ => (with_bytes (mkBytes (ser n h) (hdr_len h)) d, Ret tt)
             | Throw e => (d, Throw e) | Crash c => (d, Crash c) | OutOfFuel => (d, OutOfFuel)
             end
    end.
Proof.
  intros I E. unfold calcHeaderBytes. assert (d_isComplete d = true) as -> by (apply (complete_contents mode d I); eauto). cbn [negb].
  destruct (d_fsize d) as [n|] eqn:Ef; [|reflexivity].
  rewrite (header_length mode d h I E). cbn [bind]. destruct (n <? hdr_len h); [reflexivity|].
  destruct (checkPwHash H clk pw (d_parts d)) as [[]|e|c|]; cbn [bind]; try reflexivity.
  pose proof (header_length mode _ h (hinv_bytes mode d (clearBytes (d_bytes d)) I) E) as L. rewrite Ef in L. rewrite L.
  rewrite (calcBody_ok mode d h n I E (i_fsize _ _ I n Ef)). cbn [getLen bdata].
  assert (header_ok h) as Hok by apply (contents_ok mode d h I E).
  unfold getLen. cbn [bdata]. rewrite (ser_len n h Hok), N.eqb_refl. cbn [negb]. unfold with_bytes. rewrite Ef. reflexivity.
Qed.

(** stored bytes are absent, current, or too short to be returned *)
Definition bytes_ok (d : dheader) : Prop :=
  bdata (d_bytes d) = [] \/
  (exists n h, d_fsize d = Some n /\ contents d = Some h /\ bdata (d_bytes d) = ser n h) \/
  (exists h, contents d = Some h /\ lenN (bdata (d_bytes d)) < hdr_len h).
Lemma bytes_clear p hs b fs bl : bytes_ok (mkDH p hs (clearBytes b) fs bl).
Proof. left. reflexivity. Qed.

Lemma new_inv rnd mode d : (forall k, lenN (rnd k) = k) -> newDataHeader rnd mode = Ret d ->
  1 <= mode <= 3 /\
  d = mkDH (mkParts (Some mode) None None (Some (mkBytes (rnd (digest_len mode)) (digest_len mode))) [] [] ch_default ch_default)
        (digest_len mode) (mkBytes [] 0) None 0.
Proof.
  intros Hr E. unfold newDataHeader, p_setHashMode in E. destruct (hash_mode_valid mode) eqn:V; [|discriminate].
  apply hash_mode_valid_spec in V. split; [exact V|]. cbn [bind] in E. unfold p_setSalt, p_getHashSize in E. cbn [p_hmode bind] in E.
  rewrite hash_size_digest in E. assert (w8 (digest_len mode) = digest_len mode) as W.
  { apply N.mod_small. destruct (digest_cases _ V) as [->|[->| ->]]; lia. }
  rewrite W in E. apply bind_ret_inv in E. destruct E as (sl & Ef & E). apply fillrandom_inv in Ef. destruct Ef as (_ & ->).
  rewrite fillrandom_len in E; [|exact Hr|apply N.le_0_l]. cbn [bmax] in E. rewrite N.eqb_refl in E.
  cbn [bind] in E. injection E as <-. unfold filled, copyBytes, getLen. cbn [bdata bmax app].
  change (lenN (@nil byte)) with 0. rewrite N.sub_0_r. reflexivity.
Qed.
Lemma ch_default_inv : ch_inv ch_default.
Proof. split; [intros x; discriminate|]. split; [intros x; discriminate|]. discriminate. Qed.
Lemma new_hinv rnd mode d : (forall k, lenN (rnd k) = k) -> newDataHeader rnd mode = Ret d -> hinv mode d /\ bytes_ok d.
Proof.
  intros Hr E. destruct (new_inv rnd mode d Hr E) as [R ->]. split; [|left; reflexivity].
  constructor; cbn; try discriminate; try reflexivity; try assumption; try apply ch_default_inv; try constructor; try (unfold lenN; cbn; lia).
  eexists. split; [reflexivity|]. apply Hr.
Qed.
Lemma new_ret rnd mode : (forall k, lenN (rnd k) = k) -> 1 <= mode <= 3 -> exists d, newDataHeader rnd mode = Ret d.
Proof.
  intros Hr V. unfold newDataHeader, p_setHashMode. assert (hash_mode_valid mode = true) as -> by (apply hash_mode_valid_spec; exact V).
  cbn [bind]. unfold p_setSalt, p_getHashSize. cbn [p_hmode bind]. rewrite hash_size_digest.
  assert (w8 (digest_len mode) = digest_len mode) as W.
  { apply N.mod_small. destruct (digest_cases _ V) as [->|[->| ->]]; lia. }
  rewrite W, fillrandom_ok; [|exact Hr|cbn [bmax]; destruct (digest_cases _ V) as [->|[->| ->]]; lia]. cbn [bind]. rewrite fillrandom_len; [|exact Hr|apply N.le_0_l]. cbn [bmax]. rewrite N.eqb_refl. eexists. reflexivity.
Qed.

Lemma set_ch1_ret c d d' : ch_inv c -> setChainHash1 c d = Ret d' -> d' = d_with (p_setCh1 c (d_parts d)) d /\ ch_val c = true.
Proof.
  intros Hc E. unfold setChainHash1 in E. destruct (ch_val c) eqn:V; [|discriminate]. cbn [negb] in E.
  rewrite (assign_same _ c Hc V) in E. cbn [bind] in E. injection E as <-. auto.
Qed.
Lemma set_ch2_ret c d d' : ch_inv c -> setChainHash2 c d = Ret d' -> d' = d_with (p_setCh2 c (d_parts d)) d /\ ch_val c = true.
Proof.
  intros Hc E. unfold setChainHash2 in E. destruct (ch_val c) eqn:V; [|discriminate]. cbn [negb] in E.
  rewrite (assign_same _ c Hc V) in E. cbn [bind] in E. injection E as <-. auto.
Qed.
Lemma keep_fst d r (P : dheader -> Prop) : P d -> (forall d', r = Ret d' -> P d') -> P (fst (keep d r)).
Proof. intros A B. destruct r; cbn; auto. Qed.
Lemma Forall_snoc {A} (P : A -> Prop) l x : Forall P l -> P x -> Forall P (l ++ [x]).
Proof. intros A1 A2. apply Forall_app. auto. Qed.

Lemma shared_bytes bd mode d o (p' : dhparts) (c c' : chainhash) :
  hinv mode d -> hinv mode (d_mutate (fun _ => p') d) -> bytes_ok d ->
  (c' = c -> p' = d_parts d) ->
  (forall x y, chain_of c = Some x -> chain_of c' = Some y -> lenN (snd x) < lenN (snd y) ->
     forall h, contents d = Some h -> exists h', contents (d_mutate (fun _ => p') d) = Some h' /\ hdr_len h < hdr_len h') ->
  (forall h, contents d = Some h -> ch_inv c /\ ch_val c = true /\ c' = share bd o c) -> cdop_ok o ->
  bytes_ok (d_mutate (fun _ => p') d).
Proof.
  intros I I' B Same Grow Hc Ho. destruct B as [B|B]; [left; exact B|].
  assert (exists h, contents d = Some h) as [h Eh] by (destruct B as [(n & h & _ & E & _)|(h & E & _)]; eauto).
  destruct (Hc h Eh) as (J & V & ->). destruct (share_shape bd c o J Ho V) as [S|(x & y & E1 & E2 & _ & L)].
  - rewrite (Same S). unfold d_mutate. cbn [d_parts]. right.
    destruct B as [(n & h' & A1 & A2 & A3)|(h' & A1 & A2)]; [left; exists n, h'|right; exists h']; auto.
  - destruct (Grow x y E1 E2 L h Eh) as (h' & E' & L'). right. right. exists h'. split; [exact E'|]. cbn [d_mutate d_bytes].
    destruct B as [(n & h2 & _ & A2 & A3)|(h2 & A1 & A2)].
    + assert (h2 = h) by congruence. subst h2. rewrite A3, ser_len; [exact L'|]. apply (contents_ok mode d h I Eh).
    + assert (h2 = h) by congruence. subst h2. lia.
Qed.

Lemma step_hinv bd mode H clk d o : hinv mode d -> hop_ok bd o -> hinv mode (fst (h_step bd H clk d o)).
Proof.
  intros I Ho. destruct o; cbn [h_step hop_ok] in *.
  - apply keep_fst; [exact I|]. intros d' E. apply (set_ch1_ret _ _ _ (built_inv bd _ Ho)) in E. destruct E as [-> _].
    destruct I. constructor; try assumption. apply (built_inv bd _ Ho).
  - apply keep_fst; [exact I|]. intros d' E. apply (set_ch2_ret _ _ _ (built_inv bd _ Ho)) in E. destruct E as [-> _].
    destruct I. constructor; try assumption. apply (built_inv bd _ Ho).
  - apply keep_fst; [exact I|]. intros d' E. unfold d_setFileDataMode, p_setFileDataMode in E.
    destruct (file_mode_valid m) eqn:V; [|discriminate]. apply file_mode_valid_spec in V. injection E as <-.
    destruct I. constructor; try assumption. cbn. congruence.
  - apply keep_fst; [exact I|]. intros d' E. unfold setValidPasswordHashBytes, p_setValid, p_getHashSize in E.
    rewrite (i_hmode _ _ I), hash_size_digest in E. cbn [bind] in E. destruct (N.eqb_spec (digest_len mode) (getLen b)); [|discriminate].
    injection E as <-. destruct I. constructor; try assumption; try reflexivity. cbn. intros x [= <-]. unfold getLen in *. cbn. congruence.
  - apply keep_fst; [exact I|]. intros d' E. unfold d_setEncSalt, p_setSalt, p_getHashSize in E.
    rewrite (i_hmode _ _ I), hash_size_digest in E. cbn [bind] in E. destruct (N.eqb_spec (digest_len mode) (getLen b)); [|discriminate].
    injection E as <-. destruct I. constructor; try assumption; try reflexivity. cbn. eexists. split; [reflexivity|]. unfold getLen in *. cbn. congruence.
  - cbn [fst]. destruct I. constructor; try assumption; cbn; try constructor; unfold lenN; cbn; lia.
  - apply keep_fst; [exact I|]. intros d' E. unfold addDataBlock in E. destruct (N.leb_spec 255 (lenN (p_dec (d_parts d)))); [discriminate|].
    injection E as <-. apply block_made_ok in Ho. pose proof (blen_bound _ _ I) as BB. pose proof Ho as [_ Ho']. cbn [snd] in Ho'.
    destruct I. constructor; try assumption; unfold plain_blocks, plain_encs in *; cbn [d_parts p_setDec p_dec p_enc d_blen] in *.
    + rewrite map_app, lenN_app, lenN_map. cbn [map]. change (lenN [(db_type b, bdata (db_data b))]) with 1. lia.
    + rewrite map_app. apply Forall_snoc; assumption.
    + rewrite w32_small by (unfold two32, getLen; lia). rewrite i_blen, !map_app, concat_app, lenN_app. cbn [map concat].
      rewrite lenN_app, ser_block_len. cbn [snd]. change (lenN (@nil byte)) with 0. unfold getLen. lia.
  - apply keep_fst; [exact I|]. intros d' E. unfold addEncDataBlock in E. destruct (N.leb_spec 255 (lenN (p_enc (d_parts d)))); [discriminate|].
    injection E as <-. apply enc_made_ok in Ho. pose proof (blen_bound _ _ I) as BB. pose proof Ho as (_ & _ & Ho'). cbn [snd] in Ho'.
    destruct I. constructor; try assumption; unfold plain_blocks, plain_encs in *; cbn [d_parts p_setEnc p_dec p_enc d_blen] in *.
    + rewrite map_app, lenN_app, lenN_map. cbn [map]. change (lenN [(db_type (eb_block e), eb_len e, bdata (db_data (eb_block e)))]) with 1. lia.
    + rewrite map_app. apply Forall_snoc; assumption.
    + unfold getLen. rewrite Ho'. rewrite w32_small by (unfold two32; lia). rewrite i_blen, !map_app, lenN_app. cbn [map].
      change (lenN [(db_type (eb_block e), eb_len e, bdata (db_data (eb_block e)))]) with 1. lia.
  - apply keep_fst; [exact I|]. intros d' E. unfold setFileSize in E. destruct (d_isComplete d); [|discriminate]. cbn [negb] in E.
    apply bind_ret_inv in E. destruct E as (l & _ & E). destruct (n <? l); [discriminate|]. injection E as <-.
    destruct I. constructor; try assumption. cbn. intros x [= <-]. exact Ho.
  - apply keep_fst; [exact I|]. intros d' E. unfold setDataSize in E. destruct (d_isComplete d); [|discriminate]. cbn [negb] in E.
    apply bind_ret_inv in E. destruct E as (l & _ & E). injection E as <-.
    destruct I. constructor; try assumption. cbn. intros x [= <-]. unfold w32, two32, two64.
    assert ((n mod 4294967296 + l) mod 4294967296 < 4294967296) by (apply N.mod_lt; lia). lia.
  - destruct (contents d) as [h|] eqn:E.
    + rewrite (calc_spec mode H clk pwhash d h I E). destruct (d_fsize d); [|exact I]. destruct (_ <? _); [exact I|].
      destruct (checkPwHash H clk pwhash (d_parts d)); try exact I. apply hinv_bytes. exact I.
    + rewrite (calc_incomplete mode H clk pwhash d I E). exact I.
  - cbn [fst]. destruct I. constructor; try assumption. apply mutate_inv; assumption.
  - cbn [fst]. destruct I. constructor; try assumption. apply mutate_inv; assumption.
Qed.

Lemma step_bytes bd mode H clk d o : hinv mode d -> hop_ok bd o -> bytes_ok d -> bytes_ok (fst (h_step bd H clk d o)).
Proof.
  intros I Ho B. destruct o; cbn [h_step hop_ok] in *.
  - apply keep_fst; [exact B|]. intros d' E. apply (set_ch1_ret _ _ _ (built_inv bd _ Ho)) in E. destruct E as [-> _]. apply bytes_clear.
  - apply keep_fst; [exact B|]. intros d' E. apply (set_ch2_ret _ _ _ (built_inv bd _ Ho)) in E. destruct E as [-> _]. apply bytes_clear.
  - apply keep_fst; [exact B|]. intros d' E. unfold d_setFileDataMode in E. apply bind_ret_inv in E. destruct E as (p & _ & E). injection E as <-. apply bytes_clear.
  - apply keep_fst; [exact B|]. intros d' E. unfold setValidPasswordHashBytes in E. apply bind_ret_inv in E. destruct E as (p & _ & E). injection E as <-. apply bytes_clear.
  - apply keep_fst; [exact B|]. intros d' E. unfold d_setEncSalt in E. apply bind_ret_inv in E. destruct E as (p & _ & E). injection E as <-. apply bytes_clear.
  - apply bytes_clear.
  - apply keep_fst; [exact B|]. intros d' E. unfold addDataBlock in E. destruct (_ <=? _); [discriminate|]. injection E as <-. apply bytes_clear.
  - apply keep_fst; [exact B|]. intros d' E. unfold addEncDataBlock in E. destruct (_ <=? _); [discriminate|]. injection E as <-. apply bytes_clear.
  - apply keep_fst; [exact B|]. intros d' E. unfold setFileSize in E. destruct (d_isComplete d); [|discriminate]. cbn [negb] in E.
    apply bind_ret_inv in E. destruct E as (l & _ & E). destruct (n <? l); [discriminate|]. injection E as <-. apply bytes_clear.
  - apply keep_fst; [exact B|]. intros d' E. unfold setDataSize in E. destruct (d_isComplete d); [|discriminate]. cbn [negb] in E.
    apply bind_ret_inv in E. destruct E as (l & _ & E). injection E as <-. apply bytes_clear.
  - destruct (contents d) as [h|] eqn:E.
    + rewrite (calc_spec mode H clk pwhash d h I E). destruct (d_fsize d) as [n|] eqn:Ef; [|exact B]. destruct (n <? hdr_len h); [exact B|].
      destruct (checkPwHash H clk pwhash (d_parts d)); try exact B. right. left. exists n, h. cbn. rewrite Ef. auto.
    + rewrite (calc_incomplete mode H clk pwhash d I E). exact B.
  - cbn [fst]. pose proof (step_hinv bd mode H clk d (HShared1 o) I Ho) as I'. cbn [h_step fst] in I'.
    apply (shared_bytes bd mode d o (p_setCh1 (share bd o (p_ch1 (d_parts d))) (d_parts d)) (p_ch1 (d_parts d)) (share bd o (p_ch1 (d_parts d))) I I' B); try exact Ho.
    + intros ->. destruct d as [[] ? ? ? ?]. reflexivity.
    + intros x y E1 E2 L h Eh. destruct (contents_parts d h Eh) as (v & s & Ef & Ehm & F1 & F2 & Ev & Bv & Es & Bs & Eb & Ee).
      eexists. unfold contents, d_mutate. cbn [d_parts p_setCh1 p_fmode p_hmode p_ch1 p_ch2 p_valid p_salt p_dec p_enc].
      rewrite Ef, Ehm, E2, F2, Ev, Es. split; [reflexivity|]. unfold hdr_len. cbn [h_hmode h_ch1 h_ch2 h_blocks h_encs].
      fold (plain_blocks d). fold (plain_encs d). rewrite Eb, Ee. assert (h_ch1 h = x) as -> by congruence. lia.
    + intros h Eh. destruct (contents_parts d h Eh) as (v & s & _ & _ & F1 & _). split; [apply (i_ch1 _ _ I)|]. split; [|reflexivity].
      exact (chain_of_val _ _ F1).
  - cbn [fst]. pose proof (step_hinv bd mode H clk d (HShared2 o) I Ho) as I'. cbn [h_step fst] in I'.
    apply (shared_bytes bd mode d o (p_setCh2 (share bd o (p_ch2 (d_parts d))) (d_parts d)) (p_ch2 (d_parts d)) (share bd o (p_ch2 (d_parts d))) I I' B); try exact Ho.
    + intros ->. destruct d as [[] ? ? ? ?]. reflexivity.
    + intros x y E1 E2 L h Eh. destruct (contents_parts d h Eh) as (v & s & Ef & Ehm & F1 & F2 & Ev & Bv & Es & Bs & Eb & Ee).
      eexists. unfold contents, d_mutate. cbn [d_parts p_setCh2 p_fmode p_hmode p_ch1 p_ch2 p_valid p_salt p_dec p_enc].
      rewrite Ef, Ehm, E2, F1, Ev, Es. split; [reflexivity|]. unfold hdr_len. cbn [h_hmode h_ch1 h_ch2 h_blocks h_encs].
      fold (plain_blocks d). fold (plain_encs d). rewrite Eb, Ee. assert (h_ch2 h = x) as -> by congruence. lia.
    + intros h Eh. destruct (contents_parts d h Eh) as (v & s & _ & _ & _ & F2 & _). split; [apply (i_ch2 _ _ I)|]. split; [|reflexivity].
      exact (chain_of_val _ _ F2).
Qed.
