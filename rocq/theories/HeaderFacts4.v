(** The stream decoder, continued: chain hashes, encrypted blocks, the whole file. *)
From Coq Require Import Strings.Byte.
From Verif Require Import Base BaseFacts BytesModel BytesSpec BytesFacts BytesFacts2 CipherModel CipherFacts PwModel PwFacts
  MiscModel MiscFacts ChModel ChSpec ChFacts ChFacts2 HeaderModel HeaderSpec HeaderFacts HeaderFacts2 HeaderFacts3.

Lemma rep_to_chd m data : 1 <= m <= 5 -> data_fits m data -> exists ps, rep m ps (to_chd m data) /\ lenN ps = lenN (layout m).
Proof.
  intros Hm F. exists (cut (layout m) data). unfold rep, to_chd. pose proof (data_fits_len _ _ F) as L.
  revert F. pattern m. apply modes5; [exact Hm|..]; cbn [data_fits layout cut concat prefix_ok fits_part]; intros F.
  - apply lenN_0 in F. subst data. spl; try reflexivity; try exact I. vm_compute. discriminate.
  - rewrite app_nil_r. spl; try reflexivity; try exact I. exact L.
  - rewrite takeN_all by lia. rewrite app_nil_r. spl; try reflexivity; try exact I; try lia; apply N.eqb_eq; exact F.
  - rewrite app_nil_r, takeN_dropN. spl; try reflexivity; try exact I; try lia; apply N.eqb_eq; rewrite lenN_takeN; lia.
  - rewrite (takeN_all 8 (dropN 8 (dropN 8 (dropN 8 data)))) by (rewrite !lenN_dropN; lia). rewrite app_nil_r, !takeN_dropN.
    spl; try reflexivity; try exact I; try lia; apply N.eqb_eq; rewrite ?lenN_takeN, ?lenN_dropN; lia.
Qed.
Lemma to_ch_inv c : chain_ok c -> ch_inv (to_ch c).
Proof.
  destruct c as [[m it] data]. intros (Hm & Hi & F). cbn [fst snd] in *. destruct (rep_to_chd m data Hm F) as (ps & Hr & Hl).
  split; [|split]; cbn [to_ch ch_mode ch_data fst snd].
  - intros x [= <-]. exact Hm.
  - intros x [= <-]. exists m, ps. auto.
  - intros _. exists m, (to_chd m data). cbn. spl; try reflexivity; lia.
Qed.
Definition iters_ok (it : N) : bool := (0 <? it) && (it <=? MAX_ITERATIONS).
Lemma iters_ok_spec it : iters_ok it = true <-> 1 <= it <= 1000000000.
Proof. unfold iters_ok, MAX_ITERATIONS. rewrite andb_true_iff, N.ltb_lt, N.leb_le. lia. Qed.
Lemma newChain_eq m it data : 1 <= m <= 5 -> data_fits m data ->
  newChainHash m it (Some (to_chd m data)) = Ret (mkCH (Some m) (Some (to_chd m data)) it (iters_ok it)).
Proof.
  intros Hm F. pose proof (data_fits_len _ _ F) as L. unfold newChainHash.
  assert (ch_mode_valid m = true) as -> by (apply ch_mode_valid_spec; exact Hm).
  unfold ch_revalidate. cbn [ch_mode ch_data ch_iters]. do 2 f_equal. unfold ch_check. fold (iters_ok it).
  destruct (iters_ok it); [|reflexivity]. cbn [negb].
  assert (cd_completedFormat m (to_chd m data) = true) as ->. { pattern m. apply modes5; [exact Hm|..]; reflexivity. }
  cbn [negb]. unfold cd_len, getLen, to_chd. cbn [cd_block bdata]. unfold w8. rewrite N.mod_small by lia. destruct (N.ltb_spec 255 (lenN data)); [lia|reflexivity].
Qed.

(** ** a chain hash *)
Definition chain_res (bd : build) (code : errcode) (c : N * N * bytes) (lb : N) (d' : dheader) (r : bytes) : dres (dheader * bytes) :=
  match bd with
  | Debug => if lenN (snd c) =? lb then if iters_ok (snd (fst c)) then dret (d', r) else dfail code else Crash AssertFail
  | Release => if iters_ok (snd (fst c)) then dret (d', r) else dfail code
  end.
Definition set_of (k : bool) : chainhash -> dheader -> outcome dheader := if k then setChainHash1 else setChainHash2.
Definition with_chain (k : bool) (c : chainhash) (d : dheader) : dheader :=
  if k then d_with (p_setCh1 c (d_parts d)) d else d_with (p_setCh2 c (d_parts d)) d.
Lemma set_of_ok k c d : ch_inv c -> ch_val c = true -> set_of k c d = Ret (with_chain k c d).
Proof.
  intros I V. destruct k; cbn [set_of with_chain]; [unfold setChainHash1|unfold setChainHash2]; rewrite V; cbn [negb];
    rewrite (assign_same _ c I V); reflexivity.
Qed.
Lemma set_of_bad k c d : ch_val c = false -> set_of k c d = Throw InvalidArgument.
Proof. intros V. destruct k; cbn [set_of]; [unfold setChainHash1|unfold setChainHash2]; rewrite V; reflexivity. Qed.
Lemma chain_fwd bd code k d c lb r : chain_shape c lb ->
  s_chain bd code (set_of k) d (ser_chain lb c ++ r) = chain_res bd code c lb (with_chain k (to_ch c) d) r.
Proof.
  destruct c as [[m it] data]. intros (Hm & Hi & F & Lb & L). cbn [fst snd] in *. unfold s_chain, ser_chain. cbn [fst snd].
  pose proof (data_fits_len _ _ F) as Ld. rewrite <- !app_assoc.
  rewrite read1_u8 by lia. cbn [need dbind dret]. unfold newFormat. assert (ch_mode_valid m = true) as -> by (apply ch_mode_valid_spec; exact Hm).
  cbn [try_ dbind dret]. rewrite read8_u64 by exact Hi. cbn [dbind dret]. rewrite read1_u8 by exact L. cbn [need dbind dret].
  rewrite parts_fwd by assumption. cbn [dbind dret]. rewrite newChain_eq by assumption. cbn [bind].
  assert (cd_len (to_chd m data) = lenN data) as ->. { unfold cd_len, getLen, to_chd. cbn [cd_block bdata]. apply N.mod_small. lia. }
  assert (try_ (invalid_or code ERR) (set_of k (mkCH (Some m) (Some (to_chd m data)) it (iters_ok it)) d) =
    if iters_ok it then dret (with_chain k (to_ch (m, it, data)) d) else dfail code) as ->.
  { destruct (iters_ok it) eqn:Ei.
    - change (mkCH (Some m) (Some (to_chd m data)) it true) with (to_ch (m, it, data)). rewrite set_of_ok; [reflexivity| |reflexivity].
      apply to_ch_inv. apply iters_ok_spec in Ei. split; [|split]; cbn [fst snd]; assumption.
    - rewrite set_of_bad by reflexivity. reflexivity. }
  unfold chain_res, dassert, assertC. cbn [fst snd]. destruct bd; [destruct (lenN data =? lb)|]; cbn [dbind dret]; try reflexivity; destruct (iters_ok it); reflexivity.
Qed.
Lemma chain_cases s :
  (exists c lb r, chain_shape c lb /\ s = ser_chain lb c ++ r) \/
  (exists e, forall bd code k d, s_chain bd code (set_of k) d s = dfail e).
Proof.
  destruct (read1_cases s) as [(m & s1 & Hm & ->)| ->]; [|right; exists ERR_NOT_ENOUGH_DATA; reflexivity].
  destruct (ch_mode_valid m) eqn:V.
  2:{ right. exists ERR_CHAINHASHMODE_FORMAT_INVALID. intros. unfold s_chain. rewrite read1_u8 by exact Hm. cbn [need dbind dret]. unfold newFormat. rewrite V. reflexivity. }
  assert (forall bd code k d, s_chain bd code (set_of k) d (u8 m ++ s1) =
    ('(iters, s) <~ read8 s1 ;;
    '(lb, s) <~ need ERR_NOT_ENOUGH_DATA (read1 s) ;;
    '(data_len, c, s) <~ s_parts bd (nameLens m) lb 0 (newChd m) s ;;
    _ <~ dassert bd (cd_len c =? lb) ;;
    _ <~ dassert bd (data_len =? lb) ;;
    d <~ try_ (invalid_or code ERR) (ch <- newChainHash m iters (Some c) ;; set_of k ch d) ;;
    dret (d, s))) as K.
  { intros. unfold s_chain. rewrite read1_u8 by exact Hm. cbn [need dbind dret]. unfold newFormat. rewrite V. reflexivity. }
  apply ch_mode_valid_spec in V.
  destruct (read8_cases s1) as [(it & s2 & Hi & ->)|[E _]].
  2:{ right. exists ERR_NOT_ENOUGH_DATA. intros. rewrite K, E. reflexivity. }
  destruct (read1_cases s2) as [(lb & s3 & Hl & ->)| ->].
  2:{ right. exists ERR_NOT_ENOUGH_DATA. intros. rewrite K, read8_u64 by exact Hi. reflexivity. }
  destruct (parts_cases m lb s3 V Hl) as [(data & r & F & Lb & ->)|E].
  - left. exists (m, it, data), lb, r. split; [split; [|split; [|split; [|split]]]; assumption|]. unfold ser_chain. cbn [fst snd]. rewrite <- !app_assoc. reflexivity.
  - right. exists ERR_NOT_ENOUGH_DATA. intros. rewrite K, read8_u64 by exact Hi. cbn [dbind dret]. rewrite read1_u8 by exact Hl. cbn [need dbind dret].
    rewrite E. reflexivity.
Qed.

(** ** encrypted blocks *)
Section Enc.
Variables (hm : N) (v : option Bytes) (sa : Bytes) (bs : list (N * bytes)) (c1 c2 : chainhash) (fs : option N).
Hypothesis Hb : Forall block_ok bs /\ lenN bs <= 255.
Lemma addEnc_D es e : enc_ok e -> lenN es < 255 ->
  addEncDataBlock (to_eb e) (D hm v sa bs es c1 c2 fs) = Ret (D hm v sa bs (es ++ [e]) c1 c2 fs).
Proof using Hb.
  intros (E1 & E2 & E3) L. unfold addEncDataBlock, D. cbn [d_parts p_enc d_blen d_hsize d_bytes d_fsize]. rewrite lenN_map.
  destruct (N.leb_spec 255 (lenN es)); [lia|]. unfold getLen. change (bdata (db_data (eb_block (to_eb e)))) with (snd e). rewrite E3.
  destruct Hb as [F Lb]. pose proof (blocks_len_bound bs F). rewrite lenN_app. change (lenN [e]) with 1.
  rewrite w32_small by (unfold two32; lia). cbn [clearBytes bmax p_setEnc p_hmode p_fmode p_valid p_salt p_dec p_ch1 p_ch2].
  rewrite map_app. cbn [map]. do 2 f_equal. lia.
Qed.
Lemma createEnc_eq ty l x : lenN x = 255 -> createEncBlock ty (mkBytes x 255) l = Ret (to_eb (ty, l, x)).
Proof using. intros L. unfold createEncBlock, db_setData, getLen. cbn [bdata]. rewrite L. reflexivity. Qed.
Lemma encs_fwd es2 : forall es1 r, Forall enc_ok es2 -> lenN (es1 ++ es2) <= 255 ->
  s_encs (length es2) (D hm v sa bs es1 c1 c2 fs) (concat (map ser_enc es2) ++ r) = dret (D hm v sa bs (es1 ++ es2) c1 c2 fs, r).
Proof using Hb.
  induction es2 as [|e es2 IH]; intros es1 r G L.
  - rewrite app_nil_r. reflexivity.
  - cbn [length s_encs map concat]. unfold ser_enc at 1. rewrite <- !app_assoc. inversion G as [|? ? Ge G2]; subst.
    pose proof Ge as (T1 & T2 & T3). rewrite lenN_app, lenN_cons in L. destruct e as [[ty l] x]. cbn [fst snd] in *.
    rewrite read1_u8 by exact T1. cbn [need dbind dret]. rewrite read1_u8 by exact T2. cbn [need dbind dret].
    change 255%Z with (Z.of_N 255). rewrite (readBytes_N 255 255) by (unfold two32; lia). rewrite read_n_eq by lia. cbn [need dbind dret].
    rewrite createEnc_eq by exact T3. cbn [bind]. rewrite (addEnc_D es1 (ty, l, x) Ge) by lia. cbn [lift bind dbind dret].
    unfold lift. cbn [bind dbind dret]. rewrite IH; rewrite <- ?app_assoc; cbn [app]; [reflexivity|exact G2|rewrite !lenN_app, lenN_cons; lia].
Qed.
End Enc.
Lemma encs_cases n : forall s,
  (exists es r, length es = n /\ Forall enc_ok es /\ s = concat (map ser_enc es) ++ r) \/
  (forall hm v sa bs c1 c2 fs es1, Forall block_ok bs /\ lenN bs <= 255 -> lenN es1 + N.of_nat n <= 255 -> s_encs n (D hm v sa bs es1 c1 c2 fs) s = dfail ERR_NOT_ENOUGH_DATA).
Proof.
  induction n as [|n IH]; intros s; [left; exists [], s; cbn; auto|].
  destruct (read1_cases s) as [(ty & s1 & T & ->)| ->]; [|right; reflexivity].
  destruct (read1_cases s1) as [(l & s2 & T2 & ->)| ->].
  2:{ right. intros hm v sa bs c1 c2 fs es1 Hb _. cbn [s_encs]. rewrite read1_u8 by exact T. reflexivity. }
  destruct (read_n_cases 255 255 s2 ltac:(lia)) as [(x & s3 & L & ->)|[E L]].
  2:{ right. intros hm v sa bs c1 c2 fs es1 Hb _. cbn [s_encs]. rewrite read1_u8 by exact T. cbn [need dbind dret]. rewrite read1_u8 by exact T2. cbn [need dbind dret].
      change 255%Z with (Z.of_N 255). rewrite (readBytes_N 255 255) by (unfold two32; lia). rewrite E. reflexivity. }
  assert (enc_ok (ty, l, x)) as Ge by (split; [|split]; cbn [fst snd]; assumption).
  destruct (IH s3) as [(es & r & Hn & G & ->)|F].
  - left. exists ((ty, l, x) :: es), r. spl; [cbn; lia|constructor; assumption|]. cbn [map concat]. unfold ser_enc at 2. cbn [fst snd].
    rewrite <- !app_assoc. reflexivity.
  - right. intros hm v sa bs c1 c2 fs es1 Hb L1. cbn [s_encs]. rewrite read1_u8 by exact T. cbn [need dbind dret]. rewrite read1_u8 by exact T2. cbn [need dbind dret].
    change 255%Z with (Z.of_N 255). rewrite (readBytes_N 255 255) by (unfold two32; lia). rewrite read_n_eq by lia. cbn [need dbind dret].
    rewrite createEnc_eq by exact L. cbn [bind]. rewrite (addEnc_D hm v sa bs c1 c2 fs Hb es1 (ty, l, x) Ge) by lia. unfold lift. cbn [bind dbind dret].
    apply F; [exact Hb|]. rewrite lenN_app. change (lenN [(ty, l, x)]) with 1. lia.
Qed.
