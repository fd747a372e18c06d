(** Proofs about the block cipher model against CipherSpec. *)
From Verif Require Import Base BaseFacts BytesModel BytesFacts CipherModel CipherSpec.
From Verif Require Export CipherSpec2.
Ltac Zify.zify_post_hook ::= Z.div_mod_to_equations.

Lemma bsum_zipb x y : bsum x y = zipb addb x y.
Proof.
  unfold bsum, addb. revert y; induction x as [|a x IH]; intros [|b y]; cbn; try reflexivity.
  rewrite IH, n2b_mod. reflexivity.
Qed.
Lemma bdiff_zipb x y : bdiff x y = zipb subb x y.
Proof.
  unfold bdiff, subb. revert y; induction x as [|a x IH]; intros [|b y]; cbn; try reflexivity.
  rewrite IH, n2b_mod. do 2 f_equal. lia.
Qed.
Lemma lenN_bsum x y : lenN (bsum x y) = N.min (lenN x) (lenN y).
Proof. rewrite bsum_zipb. apply lenN_zipb. Qed.
Lemma lenN_bdiff x y : lenN (bdiff x y) = N.min (lenN x) (lenN y).
Proof. rewrite bdiff_zipb. apply lenN_zipb. Qed.
Lemma length_lenN {A} (l : list A) : length l = N.to_nat (lenN l).
Proof. unfold lenN. lia. Qed.

Lemma bdiff_bsum x y : lenN x <= lenN y -> bdiff (bsum x y) y = x.
Proof.
  intros Hl. rewrite bsum_zipb, bdiff_zipb. apply zipb_inv; [apply addb_subb|].
  unfold lenN in Hl. lia.
Qed.
Lemma bsum_bdiff x y : lenN x <= lenN y -> bsum (bdiff x y) y = x.
Proof.
  intros Hl. rewrite bsum_zipb, bdiff_zipb. apply zipb_inv; [apply subb_addb|].
  unfold lenN in Hl. lia.
Qed.
Lemma bsum_take m x y : takeN m (bsum x y) = bsum (takeN m x) y.
Proof. rewrite !bsum_zipb. apply zipb_firstn. Qed.
Lemma bdiff_take m x y : takeN m (bdiff x y) = bdiff (takeN m x) y.
Proof. rewrite !bdiff_zipb. apply zipb_firstn. Qed.

Lemma plusBytes_ret a b : getLen a = getLen b ->
  plusBytes a b = Ret (mkBytes (bsum (bdata a) (bdata b)) (bmax a)).
Proof. intros Hl. unfold plusBytes. rewrite Hl, N.eqb_refl, bsum_zipb. reflexivity. Qed.
Lemma minusBytes_ret a b : getLen a = getLen b ->
  minusBytes a b = Ret (mkBytes (bdiff (bdata a) (bdata b)) (bmax a)).
Proof. intros Hl. unfold minusBytes. rewrite Hl, N.eqb_refl, bdiff_zipb. reflexivity. Qed.

  Lemma to_int32_small x : x < 2147483648 -> to_int32 x = Z.of_N x.
  Proof.
    intros Hx. unfold to_int32. rewrite Z.mod_small by lia.
    destruct (Z.ltb_spec (Z.of_N x) 2147483648); lia.
  Qed.
  Lemma sub64_le a b : b <= a -> a < two64 -> sub64 a b = a - b.
  Proof.
    intros Hle Hlt. unfold sub64, two64 in *. replace (a + 18446744073709551616 - b) with (a - b + 1 * 18446744073709551616) by lia.
    rewrite N.mod_add by lia. apply N.mod_small. lia.
  Qed.

(** generic direction *)
Definition opl (k : kind) (x y : bytes) : bytes :=
  match k with Enc => bsum x y | Dec => bdiff x y end.


Set Default Proof Using "All".
Section Facts.
  Variable h : hashfn.
  Hypothesis hs_pos : 0 < hsize h.
  Hypothesis hs_le : hsize h <= 255.
  Hypothesis h_len : forall x, lenN (hfun h x) = hsize h.

  Local Notation bsz := (hsize h).
  Local Notation dig := (hfun h).

  Definition plain (k : kind) (st : kstate) (p : bytes) : bytes :=
    match k with Enc => p | Dec => bdiff p (kpad dig st) end.
  Definition adv (k : kind) (st : kstate) (p : bytes) : kstate := kafter dig st (plain k st p).
  Fixpoint st_of (k : kind) (st : kstate) (ps : list bytes) : kstate :=
    match ps with [] => st | p :: r => st_of k (adv k st p) r end.
  Fixpoint out_of (k : kind) (st : kstate) (ps : list bytes) : bytes :=
    match ps with [] => [] | p :: r => opl k p (kpad dig st) ++ out_of k (adv k st p) r end.

  Lemma out_of_enc st ps : out_of Enc st ps = enc_blocks dig st ps.
  Proof. revert st; induction ps as [|p r IH]; intros st; cbn; [reflexivity|]. rewrite IH. reflexivity. Qed.
  Lemma out_of_dec st ps : out_of Dec st ps = dec_blocks dig st ps.
  Proof. revert st; induction ps as [|p r IH]; intros st; cbn; [reflexivity|]. rewrite IH. reflexivity. Qed.

  Lemma out_of_app k st ps qs : out_of k st (ps ++ qs) = out_of k st ps ++ out_of k (st_of k st ps) qs.
  Proof.
    revert st; induction ps as [|p r IH]; intros st; cbn; [reflexivity|].
    rewrite IH, app_assoc. reflexivity.
  Qed.
  Lemma st_of_app k st ps qs : st_of k st (ps ++ qs) = st_of k (st_of k st ps) qs.
  Proof. revert st; induction ps as [|p r IH]; intros st; cbn; [reflexivity|]. apply IH. Qed.

  Lemma kpad_len st : lenN (kpad dig st) = bsz.
  Proof. apply h_len. Qed.
  Lemma opl_len k x st : lenN x <= bsz -> lenN (opl k x (kpad dig st)) = lenN x.
  Proof. intros Hx. destruct k; cbn; rewrite ?lenN_bsum, ?lenN_bdiff, kpad_len; lia. Qed.
  Lemma opl_take k m x y : takeN m (opl k x y) = opl k (takeN m x) y.
  Proof. destruct k; [apply bsum_take | apply bdiff_take]. Qed.

  (** ** cutting into blocks *)
  Lemma cut_fuel f1 f2 (l : bytes) :
    (length l <= f1)%nat -> (length l <= f2)%nat -> cut bsz f1 l = cut bsz f2 l.
  Proof.
    revert f2 l; induction f1 as [|f1 IH]; intros [|f2] [|x l] H1 H2; cbn [cut]; cbn [length] in *; try reflexivity; try lia.
    f_equal. apply IH.
    - rewrite (length_lenN (dropN _ _)), lenN_dropN. rewrite lenN_cons. unfold lenN. lia.
    - rewrite (length_lenN (dropN _ _)), lenN_dropN. rewrite lenN_cons. unfold lenN. lia.
  Qed.
  Lemma blocks_nil : blocks bsz [] = [].
  Proof. reflexivity. Qed.
  Lemma blocks_cons (l : bytes) : l <> [] -> blocks bsz l = takeN bsz l :: blocks bsz (dropN bsz l).
  Proof.
    intros Hl. unfold blocks. destruct l as [|x l]; [congruence|]. cbn [length cut]. f_equal.
    apply cut_fuel; [|lia].
    rewrite (length_lenN (dropN _ _)), lenN_dropN, lenN_cons. unfold lenN. lia.
  Qed.
  Lemma blocks_app1 (p l : bytes) : lenN p = bsz -> blocks bsz (p ++ l) = p :: blocks bsz l.
  Proof.
    intros Hp. rewrite blocks_cons.
    - rewrite <- Hp. rewrite takeN_app_exact, dropN_app_exact, Hp. reflexivity.
    - intros E. apply app_eq_nil in E. destruct E as [-> _]. cbn in Hp. rewrite lenN_nil in Hp. lia.
  Qed.
  Lemma blocks_short (p : bytes) : p <> [] -> lenN p <= bsz -> blocks bsz p = [p].
  Proof.
    intros Hp Hl. rewrite blocks_cons by exact Hp.
    rewrite takeN_all, dropN_all by exact Hl. reflexivity.
  Qed.
  Lemma blocks_fulls fulls (l : bytes) :
    Forall (fun p => lenN p = bsz) fulls -> blocks bsz (concat fulls ++ l) = fulls ++ blocks bsz l.
  Proof.
    induction fulls as [|p r IH]; intros HF; [reflexivity|].
    inversion HF; subst. cbn [concat app]. rewrite <- app_assoc, blocks_app1 by assumption.
    rewrite IH by assumption. reflexivity.
  Qed.
  Definition crypt (k : kind) (st : kstate) (d : bytes) : bytes := out_of k st (blocks bsz d).

  Lemma crypt_split k st fulls cur :
    Forall (fun p => lenN p = bsz) fulls -> lenN cur <= bsz ->
    crypt k st (concat fulls ++ cur) = out_of k st fulls ++ opl k cur (kpad dig (st_of k st fulls)).
  Proof.
    intros HF Hc. unfold crypt. rewrite blocks_fulls, out_of_app by assumption. f_equal.
    destruct cur as [|x cur].
    - cbn. destruct k; reflexivity.
    - rewrite blocks_short by (congruence || assumption). cbn. apply app_nil_r.
  Qed.

  (** ** the salt iterator *)
  Definition si_at (k s : bytes) (si : saltiter) : Prop :=
    bdata (si_hash si) = k /\ bdata (si_salt si) = s /\ si_obj si = h /\ si_ready si = true.

  Lemma do_hash_ret x : do_hash h x 0 = Ret (mkBytes (dig x) bsz).
  Proof.
    unfold do_hash, w32, two32. rewrite (N.mod_small 0) by lia.
    rewrite N.add_0_r, N.mod_small by lia.
    destruct (N.ltb_spec bsz bsz); [lia|reflexivity].
  Qed.

  Lemma si_next_core k s l si lbh :
    si_at k s si -> lenN k = bsz -> lenN s = bsz ->
    (if si_first si then l = repeat x00 (N.to_nat bsz) /\ bsz <= bmax lbh else bdata lbh = l) ->
    lenN l = bsz ->
    exists r si', si_next si lbh = Ret (r, si') /\
      bdata r = kpad dig (k, s, l) /\ si_first si' = false /\
      si_at (knext_key dig (k, s, l)) (knext_salt dig (k, s, l)) si'.
  Proof.
    intros (Hk & Hs & Ho & Hr) Lk Ls Hl Ll. unfold si_next. rewrite Ho, Hr.
    assert (HL : exists lb, (if si_first si then setBytes (repeat x00 (N.to_nat bsz)) lbh else Ret lbh) = Ret lb
                /\ bdata lb = l).
    { destruct (si_first si).
      - destruct Hl as [-> Hm]. unfold setBytes. rewrite lenN_repeat, N2Nat.id.
        destruct (N.ltb_spec (bmax lbh) bsz); [lia|]. eexists; split; reflexivity.
      - eexists; split; [reflexivity|exact Hl]. }
    destruct HL as (lb & -> & Hlb). cbn [bind].
    unfold getLen at 1. rewrite Hlb, Ll, N.eqb_refl. cbn [negb].
    rewrite plusBytes_ret by (unfold getLen; rewrite Hk, Hs; lia). cbn [bind].
    rewrite plusBytes_ret.
    2: { unfold getLen. cbn [bdata]. rewrite lenN_bsum, Hk, Hs, Hlb. lia. }
    cbn [bind bdata]. rewrite do_hash_ret. cbn [bind].
    rewrite plusBytes_ret.
    2: { unfold getLen. cbn [bdata]. rewrite h_len, Hs. lia. }
    cbn [bind bdata].
    rewrite plusBytes_ret.
    2: { unfold getLen. cbn [bdata]. rewrite lenN_bsum, h_len, Hs, Hlb. lia. }
    cbn [bind bdata]. rewrite do_hash_ret. cbn [bind].
    rewrite plusBytes_ret.
    2: { unfold getLen. cbn [bdata]. rewrite !h_len. lia. }
    cbn [bind bdata]. rewrite do_hash_ret. cbn [bind].
    eexists _, _. split; [reflexivity|].
    unfold kpad, knext_salt, knext_key, si_at. rewrite Hk, Hs, Hlb. cbn. auto 10.
  Qed.

  (** ** blocks *)
  Definition block_ok (k : kind) (st : kstate) (cur : bytes) (b : block) : Prop :=
    blk_len b = bsz /\ bmax (blk_data b) = bsz /\ bdata (blk_salt b) = kpad dig st /\ blk_obj b = h /\
    ((lenN cur < bsz /\ bdata (blk_data b) = cur /\ bdata (blk_dec_hash b) = []) \/
     (lenN cur = bsz /\ bdata (blk_data b) = opl k cur (kpad dig st) /\ bdata (blk_dec_hash b) = dig (plain k st cur))).

  Lemma block_ok_le k st cur b : block_ok k st cur b -> lenN cur <= bsz.
  Proof. intros (_ & _ & _ & _ & [[? _]|[? _]]); lia. Qed.

  Lemma blk_data_len k st cur b : block_ok k st cur b -> getLen (blk_data b) = lenN cur.
  Proof.
    intros (_ & _ & _ & _ & [(? & Hd & _)|(Hl & Hd & _)]); unfold getLen; rewrite Hd; [reflexivity|].
    apply opl_len. lia.
  Qed.

  Lemma blk_free_ok k st cur b : block_ok k st cur b -> blk_free b = bsz - lenN cur.
  Proof.
    intros HB. unfold blk_free. rewrite (blk_data_len _ _ _ _ HB).
    pose proof (block_ok_le _ _ _ _ HB). destruct HB as (Hn & _). rewrite Hn.
    unfold sub64, two64. replace (bsz + 18446744073709551616 - lenN cur) with (bsz - lenN cur + 1 * 18446744073709551616) by lia.
    rewrite N.mod_add by lia. apply N.mod_small. lia.
  Qed.

  Lemma blk_getResult_ok k st cur b : block_ok k st cur b ->
    exists r, blk_getResult k b = Ret r /\ bdata r = opl k cur (kpad dig st).
  Proof.
    intros HB. unfold blk_getResult. rewrite (blk_free_ok _ _ _ _ HB), (blk_data_len _ _ _ _ HB).
    destruct HB as (Hn & Hm & Hs & Ho & [(Hl & Hd & _)|(Hl & Hd & _)]).
    - destruct (N.eqb_spec (bsz - lenN cur) 0); [lia|]. cbn [negb].
      unfold copySubBytes. destruct (N.ltb_spec (lenN cur) 0); [lia|].
      unfold getLen at 1. rewrite Hs, kpad_len.
      destruct (N.ltb_spec bsz (lenN cur)); [lia|]. cbn [bind].
      unfold sliceN. rewrite dropN_0, N.sub_0_r.
      assert (HL : lenN (takeN (lenN cur) (kpad dig st)) = lenN cur) by (rewrite lenN_takeN, kpad_len; lia).
      destruct k.
      + rewrite plusBytes_ret by (unfold getLen; cbn [bdata]; rewrite Hd, HL; reflexivity).
        cbn [noexcept]. eexists; split; [reflexivity|]. cbn [bdata opl]. rewrite Hd, !bsum_zipb.
        unfold takeN, lenN. rewrite Nnat.Nat2N.id. apply zipb_firstn_r.
      + rewrite minusBytes_ret by (unfold getLen; cbn [bdata]; rewrite Hd, HL; reflexivity).
        cbn [noexcept]. eexists; split; [reflexivity|]. cbn [bdata opl]. rewrite Hd, !bdiff_zipb.
        unfold takeN, lenN. rewrite Nnat.Nat2N.id. apply zipb_firstn_r.
    - rewrite Hl, N.sub_diag. cbn [N.eqb negb noexcept]. eexists; split; [reflexivity|]. exact Hd.
  Qed.

  Lemma blk_addData_ok k st cur b d : block_ok k st cur b -> lenN cur + getLen d <= bsz ->
    exists b', blk_addData k d b = Ret b' /\ block_ok k st (cur ++ bdata d) b'.
  Proof.
    intros HB Hle. pose proof (blk_free_ok _ _ _ _ HB) as HF. pose proof (blk_data_len _ _ _ _ HB) as HDL.
    unfold blk_addData. rewrite HF.
    destruct (N.ltb_spec (bsz - lenN cur) (getLen d)); [lia|].
    unfold addcopyToBytes.
    destruct HB as (Hn & Hm & Hs & Ho & HC). rewrite Hm, HDL.
    destruct (N.ltb_spec bsz (getLen d + lenN cur)); [lia|]. cbn [bind].
    set (data1 := mkBytes (bdata (blk_data b) ++ bdata d) bsz).
    assert (HL1 : getLen data1 = lenN cur + getLen d).
    { subst data1. unfold getLen. cbn [bdata]. rewrite lenN_app. fold (getLen (blk_data b)). rewrite HDL. reflexivity. }
    assert (HF1 : blk_free (mkBlock (blk_len b) data1 (blk_salt b) (blk_dec_hash b) (blk_obj b)) = bsz - (lenN cur + getLen d)).
    { unfold blk_free. cbn [blk_len blk_data]. rewrite HL1, Hn. unfold sub64, two64.
      replace (bsz + 18446744073709551616 - (lenN cur + getLen d)) with (bsz - (lenN cur + getLen d) + 1 * 18446744073709551616) by lia.
      rewrite N.mod_add by lia. apply N.mod_small. lia. }
    rewrite HF1. cbn [blk_dec_hash].
    assert (HLc : lenN (cur ++ bdata d) = lenN cur + getLen d) by (rewrite lenN_app; reflexivity).
    destruct (N.eqb_spec (bsz - (lenN cur + getLen d)) 0) as [E|E].
    - destruct HC as [(Hl & Hd & Hh)|(Hl & Hd & Hh)].
      + unfold getLen at 1. rewrite Hh, lenN_nil. cbn [N.eqb negb]. rewrite Ho.
        assert (HDat : bdata data1 = cur ++ bdata d) by (subst data1; cbn [bdata]; rewrite Hd; reflexivity).
        destruct k.
        * rewrite do_hash_ret. cbn [bind].
          rewrite plusBytes_ret by (unfold getLen at 2; rewrite Hs, kpad_len, HL1; lia). cbn [bind].
          eexists; split; [reflexivity|]. unfold block_ok. cbn [blk_len blk_data blk_salt blk_dec_hash blk_obj bmax bdata].
          repeat split; auto. right. rewrite HLc. repeat split; [lia | rewrite HDat, Hs; reflexivity | rewrite HDat; reflexivity].
        * rewrite minusBytes_ret by (unfold getLen at 2; rewrite Hs, kpad_len, HL1; lia). cbn [bind bdata].
          rewrite do_hash_ret. cbn [bind].
          eexists; split; [reflexivity|]. unfold block_ok. cbn [blk_len blk_data blk_salt blk_dec_hash blk_obj bmax bdata].
          repeat split; auto. right. rewrite HLc. repeat split; [lia | rewrite HDat, Hs; reflexivity | rewrite HDat, Hs; reflexivity].
      + assert (bdata d = []) as Ed by (apply lenN_0; unfold getLen in *; lia).
        unfold getLen at 1. rewrite Hh, h_len. destruct (N.eqb_spec bsz 0); [lia|]. cbn [negb].
        eexists; split; [reflexivity|]. unfold block_ok, data1. cbn [blk_len blk_data blk_salt blk_dec_hash blk_obj bmax bdata].
        rewrite Ed, !app_nil_r. repeat split; auto.
    - eexists; split; [reflexivity|]. unfold block_ok, data1. cbn [blk_len blk_data blk_salt blk_dec_hash blk_obj bmax bdata].
      destruct HC as [(Hl & Hd & Hh)|(Hl & Hd & Hh)]; [|lia].
      repeat split; auto. left. rewrite HLc, Hd. repeat split; auto. lia.
  Qed.

  Lemma new_block_ok k st salt : bdata salt = kpad dig st ->
    exists b, new_block h salt = Ret b /\ block_ok k st [] b.
  Proof.
    intros Hs. unfold new_block. destruct (N.eqb_spec bsz 0); [lia|].
    unfold getLen. rewrite Hs, kpad_len, N.eqb_refl. cbn [negb].
    eexists; split; [reflexivity|]. unfold block_ok. cbn. rewrite lenN_nil. repeat split; auto.
  Qed.

  (** ** chains *)
  Definition keys_ok (st : kstate) : Prop :=
    let '(k, s, l) := st in lenN k = bsz /\ lenN s = bsz /\ lenN l = bsz.
  Lemma keys_adv k st p : keys_ok (adv k st p).
  Proof. unfold adv, kafter, keys_ok. destruct st as [[a b] c]. cbn. rewrite !h_len. auto. Qed.
  Lemma keys_st_of k st ps : keys_ok st -> keys_ok (st_of k st ps).
  Proof. revert st; induction ps as [|p r IH]; intros st Hk; cbn; [exact Hk|]. apply IH, keys_adv. Qed.

  Definition Rep (k : kind) (st0 : kstate) (fulls : list bytes) (cur : bytes) (M : N) (c : chain) : Prop :=
    let st := st_of k st0 fulls in
    Forall (fun p => lenN p = bsz) fulls /\
    c_kind c = k /\ (exists b, c_cur c = Some b /\ block_ok k st cur b) /\
    (exists r, c_res c = Some r /\ bdata r = out_of k st0 fulls /\ bmax r = M) /\
    si_at (knext_key dig st) (knext_salt dig st) (c_si c) /\ si_first (c_si c) = false /\
    c_hs c = bsz /\ c_height c = 0.

  Definition Fresh (k : kind) (pw es : bytes) (c : chain) : Prop :=
    c_kind c = k /\ c_cur c = None /\ (exists M, c_res c = Some (mkBytes [] M)) /\
    si_at pw es (c_si c) /\ si_first (c_si c) = true /\ c_hs c = bsz /\ c_height c = 0.

  Lemma new_chain_ok k pw es : getLen pw = bsz -> getLen es = bsz ->
    exists c, new_chain k h pw es = Ret c /\ Fresh k (bdata pw) (bdata es) c /\ c_res c = Some (mkBytes [] 0).
  Proof.
    intros Hp He. unfold new_chain, si_init. rewrite Hp, He, N.eqb_refl. cbn [negb bind].
    eexists; split; [reflexivity|]. unfold Fresh, si_at. cbn. repeat split; auto. eexists; reflexivity.
  Qed.

  Lemma out_of_len k st ps : Forall (fun p => lenN p = bsz) ps -> lenN (out_of k st ps) = lenN (concat ps).
  Proof.
    revert st; induction ps as [|p r IH]; intros st HF; [reflexivity|]. inversion HF; subst.
    cbn. rewrite !lenN_app, IH by assumption. rewrite opl_len by lia. reflexivity.
  Qed.

  Lemma c_free_Rep k st0 fulls cur M c : Rep k st0 fulls cur M c -> c_free c = bsz - lenN cur.
  Proof.
    intros (_ & _ & (b & Hb & HB) & _). unfold c_free. rewrite Hb, (blk_free_ok _ _ _ _ HB).
    unfold w8. apply N.mod_small. lia.
  Qed.

  (** a full block is flushed and a new one begun *)
  Lemma addBlock_full k st0 fulls cur M c :
    keys_ok st0 -> Rep k st0 fulls cur M c -> lenN cur = bsz -> lenN (concat fulls) + bsz <= M ->
    exists c', addBlock c = Ret (true, c') /\ Rep k st0 (fulls ++ [cur]) [] M c'.
  Proof.
    intros Hk0 HR Hc HM. pose proof (c_free_Rep _ _ _ _ _ _ HR) as HF.
    destruct HR as (Hfl & Hkd & (b & Hb & HB) & (r & Hr & Hrd & Hrm) & Hsi & Hsf & Hhs & Hht).
    unfold addBlock. rewrite HF, Hc, N.sub_diag. cbn [N.eqb negb]. rewrite Hb.
    unfold blk_getHash. rewrite (blk_free_ok _ _ _ _ HB), Hc, N.sub_diag. cbn [N.eqb negb].
    set (st := st_of k st0 fulls) in *.
    assert (HK : keys_ok st) by (apply keys_st_of; exact Hk0).
    pose proof HB as (_ & _ & _ & Hobj & [(? & _)|(_ & _ & Hdh)]); [lia|].
    unfold getLen at 1. rewrite Hdh, h_len. destruct (N.eqb_spec bsz 0); [lia|]. cbn [bind copyBytes].
    destruct (si_next_core (knext_key dig st) (knext_salt dig st) (dig (plain k st cur)) (c_si c) (copyBytes (blk_dec_hash b)))
      as (s' & si' & Hn & Hpad & Hf' & Hsi'); auto.
    { unfold knext_key. destruct st as [[? ?] ?]. apply h_len. }
    { unfold knext_salt. destruct st as [[? ?] ?]. apply h_len. }
    { rewrite Hsf. exact Hdh. }
    change (mkBytes (bdata (blk_dec_hash b)) (bmax (blk_dec_hash b))) with (copyBytes (blk_dec_hash b)).
    unfold bind at 2. rewrite Hn. cbn [bind]. rewrite Hkd.
    destruct (blk_getResult_ok _ _ _ _ HB) as (rr & Hrr & Hrrd). rewrite Hrr. cbn [bind]. rewrite Hr.
    unfold addcopyToBytes. unfold getLen. rewrite Hrm, Hrrd, Hrd, opl_len, out_of_len, Hc by (auto; lia).
    destruct (N.ltb_spec M (bsz + lenN (concat fulls))); [lia|]. cbn [bind].
    destruct Hsi' as (Hsk & Hss & Hso & Hsr). rewrite Hso.
    change (knext_key dig st, knext_salt dig st, dig (plain k st cur)) with (adv k st cur) in *.
    destruct (new_block_ok k (adv k st cur) s' Hpad) as (nb & Hnb & HNB). rewrite Hnb. cbn [bind].
    eexists; split; [reflexivity|]. unfold Rep. rewrite st_of_app. cbn [st_of].
    cbn [c_kind c_cur c_res c_si c_hs c_height].
    repeat split; auto.
    - apply Forall_app; auto.
    - exists nb; auto.
    - eexists; split; [reflexivity|]. cbn [bdata bmax]. split; [|reflexivity].
      rewrite out_of_app. cbn [out_of]. rewrite app_nil_r. reflexivity.
  Qed.

  Lemma addBlock_notfull k st0 fulls cur M c :
    Rep k st0 fulls cur M c -> lenN cur < bsz -> addBlock c = Ret (false, c).
  Proof.
    intros HR Hc. unfold addBlock. rewrite (c_free_Rep _ _ _ _ _ _ HR).
    destruct (N.eqb_spec (bsz - lenN cur) 0); [lia|reflexivity].
  Qed.

  (** the first block *)
  Lemma addBlock_fresh k pw es c M :
    Fresh k pw es c -> lenN pw = bsz -> lenN es = bsz -> c_res c = Some (mkBytes [] M) ->
    exists c', addBlock c = Ret (true, c') /\ Rep k (kstart bsz pw es) [] [] M c'.
  Proof.
    intros (Hkd & Hcur & _ & Hsi & Hsf & Hhs & Hht) Lp Le Hres.
    unfold addBlock, c_free. rewrite Hcur. cbn [N.eqb negb].
    destruct (si_next_core pw es (repeat x00 (N.to_nat bsz)) (c_si c) next_default)
      as (s' & si' & Hn & Hpad & Hf' & Hsi'); auto.
    { rewrite Hsf. split; [reflexivity|]. cbn. exact hs_le. }
    { rewrite lenN_repeat. apply N2Nat.id. }
    unfold bind at 2. rewrite Hn. cbn [bind]. pose proof Hsi' as (Hsk & Hss & Hso & Hsr). rewrite Hso.
    destruct (new_block_ok k (kstart bsz pw es) s' Hpad) as (nb & Hnb & HNB). rewrite Hnb. cbn [bind].
    eexists; split; [reflexivity|]. unfold Rep. cbn [st_of c_kind c_cur c_res c_si c_hs c_height out_of].
    repeat split; auto.
    - exists nb; auto.
    - eexists; split; [exact Hres|]. auto.
  Qed.

  Lemma Rep_set_cur k st0 fulls cur M c cur' b' :
    Rep k st0 fulls cur M c -> block_ok k (st_of k st0 fulls) cur' b' ->
    Rep k st0 fulls cur' M (set_cur c b').
  Proof.
    intros (Hfl & Hkd & _ & Hr & Hsi & Hsf & Hhs & Hht) HB'. unfold Rep, set_cur.
    cbn [c_kind c_cur c_res c_si c_hs c_height]. repeat split; try apply Hsi; auto. exists b'; auto.
  Qed.

  (** the loop on the remaining data *)
  Lemma addData_loop_ok k st0 fuel : keys_ok st0 -> forall pre rest mx fulls cur M c,
    lenN (pre ++ rest) < 2147483648 ->
    Rep k st0 fulls cur M c ->
    lenN (concat fulls) + lenN cur + lenN rest <= M ->
    (length rest + (if (lenN cur =? bsz)%N then 2 else 1) <= fuel)%nat ->
    exists c' fulls' cur', addData_loop fuel (mkBytes (pre ++ rest) mx) (lenN pre) c = Ret c' /\
      Rep k st0 fulls' cur' M c' /\ concat fulls' ++ cur' = concat fulls ++ cur ++ rest /\
      (cur' = [] -> cur = [] /\ rest = []).
  Proof.
    intros Hk0. induction fuel as [|fuel IH]; intros pre rest mx fulls cur M c Hlen HR HM Hfu.
    { destruct (lenN cur =? bsz); lia. }
    cbn [addData_loop]. unfold piece. rewrite (c_free_Rep _ _ _ _ _ _ HR).
    unfold getLen. cbn [bdata]. rewrite lenN_app in *.
    rewrite sub64_le by (unfold two64; lia).
    rewrite to_int32_small by lia.
    replace (lenN pre + lenN rest - lenN pre) with (lenN rest) by lia.
    set (m := N.min (bsz - lenN cur) (lenN rest)).
    assert (Hcur : lenN cur <= bsz).
    { destruct HR as (_ & _ & (b & _ & HB) & _). eapply block_ok_le; eassumption. }
    replace (Z.to_N ((Z.of_N (lenN pre) + Z.min (Z.of_N (bsz - lenN cur)) (Z.of_N (lenN rest))) mod Z.of_N two64)%Z)
      with (lenN pre + m).
    2: { rewrite Z.mod_small; unfold two64; subst m; lia. }
    unfold copySubBytes. destruct (N.ltb_spec (lenN pre + m) (lenN pre)); [lia|].
    unfold getLen at 1. cbn [bdata]. rewrite lenN_app.
    destruct (N.ltb_spec (lenN pre + lenN rest) (lenN pre + m)); [subst m; lia|]. cbn [bind].
    assert (Hsl : sliceN (lenN pre) (lenN pre + m) (pre ++ rest) = takeN m rest).
    { unfold sliceN. rewrite dropN_app_exact. f_equal. lia. }
    rewrite Hsl. cbn [bdata].
    assert (Htl : lenN (takeN m rest) = m) by (rewrite lenN_takeN; subst m; lia).
    rewrite Htl. unfold w64. rewrite N.mod_small by (unfold two64; subst m; lia).
    pose proof HR as (_ & Hkd & (b & Hb & HB) & _). rewrite Hb, Hkd.
    destruct (blk_addData_ok k _ cur b (mkBytes (takeN m rest) (lenN pre + m - lenN pre)) HB) as (b' & Hb' & HB').
    { unfold getLen. cbn [bdata]. rewrite Htl. subst m. lia. }
    rewrite Hb'. cbn [bind]. cbn [bdata] in HB'.
    pose proof (Rep_set_cur _ _ _ _ _ _ _ _ HR HB') as HR'.
    assert (Hcl : lenN (cur ++ takeN m rest) = lenN cur + m) by (rewrite lenN_app, Htl; reflexivity).
    destruct (N.ltb_spec (lenN pre + m) (lenN pre + lenN rest)) as [Hlt|Hge].
    - assert (Hfull : lenN (cur ++ takeN m rest) = bsz) by (rewrite Hcl; subst m; lia).
      destruct (addBlock_full k st0 fulls (cur ++ takeN m rest) M (set_cur c b') Hk0 HR' Hfull) as (c2 & Hc2 & HR2).
      { subst m; lia. }
      rewrite Hc2. cbn [bind].
      assert (Hpre : pre ++ rest = (pre ++ takeN m rest) ++ dropN m rest)
        by (rewrite <- app_assoc, takeN_dropN; reflexivity).
      rewrite Hpre. replace (lenN pre + m) with (lenN (pre ++ takeN m rest)) by (rewrite lenN_app, Htl; reflexivity).
      assert (Hdl : lenN (dropN m rest) = lenN rest - m) by apply lenN_dropN.
      destruct (IH (pre ++ takeN m rest) (dropN m rest) mx (fulls ++ [cur ++ takeN m rest]) [] M c2)
        as (c' & fulls' & cur' & Hloop & HRf & Hcat & Hlast); auto.
      + rewrite <- Hpre, lenN_app. exact Hlen.
      + rewrite concat_app, lenN_app. cbn [concat]. rewrite app_nil_r, Hfull, lenN_nil, Hdl. subst m; lia.
      + rewrite lenN_nil. destruct (N.eqb_spec 0 bsz); [lia|].
        rewrite (length_lenN (dropN _ _)), Hdl.
        rewrite (length_lenN rest) in Hfu. destruct (N.eqb_spec (lenN cur) bsz); subst m; lia.
      + exists c', fulls', cur'. split; [exact Hloop|]. split; [exact HRf|]. split.
        * rewrite Hcat, concat_app. cbn [concat app]. rewrite app_nil_r, <- !app_assoc, takeN_dropN. reflexivity.
        * intros Hz. apply Hlast in Hz. destruct Hz as [_ Hz]. rewrite Hz, lenN_nil in Hdl. subst m; lia.
    - assert (Ht : takeN m rest = rest) by (apply takeN_all; lia). rewrite Ht in *.
      exists (set_cur c b'), fulls, (cur ++ rest). split; [reflexivity|]. split; [exact HR'|]. split; [reflexivity|apply app_eq_nil].
  Qed.

  (** the same for the stream overload *)
  Lemma addStream_loop_ok k st0 fuel : keys_ok st0 -> forall total written rest tail fulls cur M c,
    total < 2147483648 -> written + lenN rest = total ->
    Rep k st0 fulls cur M c ->
    lenN (concat fulls) + lenN cur + lenN rest <= M ->
    (length rest + (if (lenN cur =? bsz)%N then 2 else 1) <= fuel)%nat ->
    exists c' fulls' cur', addStream_loop fuel (rest ++ tail) total written c = Ret c' /\
      Rep k st0 fulls' cur' M c' /\ concat fulls' ++ cur' = concat fulls ++ cur ++ rest /\
      (cur' = [] -> cur = [] /\ rest = []).
  Proof.
    intros Hk0. induction fuel as [|fuel IH]; intros total written rest tail fulls cur M c Htot Hw HR HM Hfu.
    { destruct (lenN cur =? bsz); lia. }
    cbn [addStream_loop]. unfold piece. rewrite (c_free_Rep _ _ _ _ _ _ HR).
    rewrite sub64_le by (unfold two64; lia).
    rewrite to_int32_small by lia.
    replace (total - written) with (lenN rest) by lia.
    set (m := N.min (bsz - lenN cur) (lenN rest)).
    assert (Hcur : lenN cur <= bsz).
    { destruct HR as (_ & _ & (b & _ & HB) & _). eapply block_ok_le; eassumption. }
    unfold newBytes.
    replace (Z.min (Z.of_N (bsz - lenN cur)) (Z.of_N (lenN rest))) with (Z.of_N m) by (subst m; lia).
    destruct (Z.ltb_spec (Z.of_N m) 0); [lia|]. cbn [bind bmax]. rewrite N2Z.id.
    unfold readExact. rewrite lenN_app.
    destruct (N.leb_spec m (lenN rest + lenN tail)); [|subst m; lia].
    rewrite takeN_app_le, dropN_app_le by (subst m; lia).
    assert (Htl : lenN (takeN m rest) = m) by (rewrite lenN_takeN; subst m; lia).
    unfold getLen. cbn [bdata]. rewrite Htl. unfold w64. rewrite N.mod_small by (unfold two64; subst m; lia).
    pose proof HR as (_ & Hkd & (b & Hb & HB) & _). rewrite Hb, Hkd.
    destruct (blk_addData_ok k _ cur b (mkBytes (takeN m rest) m) HB) as (b' & Hb' & HB').
    { unfold getLen. cbn [bdata]. rewrite Htl. subst m. lia. }
    rewrite Hb'. cbn [bind]. cbn [bdata] in HB'.
    pose proof (Rep_set_cur _ _ _ _ _ _ _ _ HR HB') as HR'.
    assert (Hcl : lenN (cur ++ takeN m rest) = lenN cur + m) by (rewrite lenN_app, Htl; reflexivity).
    destruct (N.ltb_spec (written + m) total) as [Hlt|Hge].
    - assert (Hfull : lenN (cur ++ takeN m rest) = bsz) by (rewrite Hcl; subst m; lia).
      destruct (addBlock_full k st0 fulls (cur ++ takeN m rest) M (set_cur c b') Hk0 HR' Hfull) as (c2 & Hc2 & HR2).
      { subst m; lia. }
      rewrite Hc2. cbn [bind].
      assert (Hdl : lenN (dropN m rest) = lenN rest - m) by apply lenN_dropN.
      destruct (IH total (written + m) (dropN m rest) tail (fulls ++ [cur ++ takeN m rest]) [] M c2)
        as (c' & fulls' & cur' & Hloop & HRf & Hcat & Hlast); auto.
      + subst m; lia.
      + rewrite concat_app, lenN_app. cbn [concat]. rewrite app_nil_r, Hfull, lenN_nil, Hdl. subst m; lia.
      + rewrite lenN_nil. destruct (N.eqb_spec 0 bsz); [lia|].
        rewrite (length_lenN (dropN _ _)), Hdl.
        rewrite (length_lenN rest) in Hfu. destruct (N.eqb_spec (lenN cur) bsz); subst m; lia.
      + exists c', fulls', cur'. split; [exact Hloop|]. split; [exact HRf|]. split.
        * rewrite Hcat, concat_app. cbn [concat app]. rewrite app_nil_r, <- !app_assoc, takeN_dropN. reflexivity.
        * intros Hz. apply Hlast in Hz. destruct Hz as [_ Hz]. rewrite Hz, lenN_nil in Hdl. subst m; lia.
    - assert (Ht : takeN m rest = rest) by (apply takeN_all; lia). rewrite Ht in *.
      exists (set_cur c b'), fulls, (cur ++ rest). split; [reflexivity|]. split; [exact HR'|]. split; [reflexivity|apply app_eq_nil].
  Qed.

  (** state of a chain fed with [D] in all; [started] tells whether any call was made *)
  Definition Fed (k : kind) (pw es : bytes) (started : bool) (D : bytes) (c : chain) : Prop :=
    if started then
      exists fulls cur, Rep k (kstart bsz pw es) fulls cur (lenN D) c /\ concat fulls ++ cur = D /\ (cur = [] -> D = [])
    else Fresh k pw es c /\ D = [] /\ c_res c = Some (mkBytes [] 0).

  Lemma keys_start pw es : lenN pw = bsz -> lenN es = bsz -> keys_ok (kstart bsz pw es).
  Proof. intros. cbn. rewrite lenN_repeat, N2Nat.id. auto. Qed.

  Lemma addData_start_ok k pw es started D c m :
    lenN pw = bsz -> lenN es = bsz -> Fed k pw es started D c ->
    exists c1 fulls cur, addData_start c m = Ret c1 /\
      Rep k (kstart bsz pw es) fulls cur (lenN D + m) c1 /\ concat fulls ++ cur = D /\ (cur = [] -> D = []).
  Proof.
    intros Lp Le. destruct started; cbn [Fed].
    - intros (fulls & cur & HR & Hcat & Hlast).
      destruct HR as (Hfl & Hkd & (b & Hb & HB) & (r & Hr & Hrd & Hrm) & Hsi & Hsf & Hhs & Hht).
      unfold addData_start. rewrite Hr. cbn [c_cur]. rewrite Hb.
      eexists _, fulls, cur. split; [reflexivity|]. split; [|split; [exact Hcat|exact Hlast]].
      unfold Rep. cbn [c_kind c_cur c_res c_si c_hs c_height]. repeat split; try apply Hsi; auto.
      + exists b; auto.
      + eexists; split; [reflexivity|]. cbn. rewrite Hrd, Hrm. auto.
    - intros (HF & -> & Hres). unfold addData_start. rewrite Hres. cbn [c_cur].
      pose proof HF as (Hkd & Hcur & _ & Hsi & Hsf & Hhs & Hht). rewrite Hcur.
      destruct (addBlock_fresh k pw es (mkChain (c_kind c) None (Some (addSize m (mkBytes [] 0))) (c_si c) (c_hs c) (c_height c)) m)
        as (c' & Hc' & HR); auto.
      { unfold Fresh. cbn. repeat split; try apply Hsi; auto. eexists; reflexivity. }
      rewrite Hc'. cbn [bind]. exists c', [], []. split; [reflexivity|]. split; [|split; reflexivity].
      rewrite lenN_nil. exact HR.
  Qed.

  Lemma addChunk_ok k pw es started D c x fuel :
    lenN pw = bsz -> lenN es = bsz -> Fed k pw es started D c ->
    lenN (chunk_data x) < 2147483648 -> (length (chunk_data x) + 2 <= fuel)%nat ->
    exists c', addChunk fuel x c = Ret c' /\ Fed k pw es true (D ++ chunk_data x) c'.
  Proof.
    intros Lp Le HF Hlen Hfu. pose proof (keys_start pw es Lp Le) as HK.
    destruct (addData_start_ok k pw es started D c (lenN (chunk_data x)) Lp Le HF)
      as (c1 & fulls & cur & Hs & HR & Hcat & Hlast).
    assert (HDl : lenN D = lenN (concat fulls) + lenN cur) by (rewrite <- Hcat, lenN_app; reflexivity).
    destruct x as [d|d|d rest]; cbn [chunk_data] in *.
    - cbn [addChunk]. unfold addData, fromArray. unfold getLen. cbn [bdata]. rewrite Hs. cbn [bind].
      destruct (addData_loop_ok k (kstart bsz pw es) fuel HK [] d (lenN d) fulls cur (lenN D + lenN d) c1) as (c' & fulls' & cur' & Hl & HR' & Hcat' & Hlast');
        auto; [lia | destruct (lenN cur =? bsz); lia |].
      cbn [app] in Hl. rewrite lenN_nil in Hl. exists c'. split; [exact Hl|].
      exists fulls', cur'. rewrite lenN_app, Hcat'. split; [exact HR'|]. split; [rewrite <- Hcat, <- app_assoc; reflexivity|].
      intros Hz. destruct (Hlast' Hz) as [Hz1 ->]. rewrite (Hlast Hz1). reflexivity.
    - cbn [addChunk]. unfold addData, fromArray. unfold getLen. cbn [bdata]. rewrite Hs. cbn [bind].
      destruct (addData_loop_ok k (kstart bsz pw es) fuel HK [] d (lenN d) fulls cur (lenN D + lenN d) c1) as (c' & fulls' & cur' & Hl & HR' & Hcat' & Hlast');
        auto; [lia | destruct (lenN cur =? bsz); lia |].
      cbn [app] in Hl. rewrite lenN_nil in Hl. exists c'. split; [exact Hl|].
      exists fulls', cur'. rewrite lenN_app, Hcat'. split; [exact HR'|]. split; [rewrite <- Hcat, <- app_assoc; reflexivity|].
      intros Hz. destruct (Hlast' Hz) as [Hz1 ->]. rewrite (Hlast Hz1). reflexivity.
    - cbn [addChunk]. unfold addStream. rewrite Hs. cbn [bind].
      destruct (addStream_loop_ok k (kstart bsz pw es) fuel HK (lenN d) 0 d rest fulls cur (lenN D + lenN d) c1 Hlen) as (c' & fulls' & cur' & Hl & HR' & Hcat' & Hlast');
        auto; [lia | destruct (lenN cur =? bsz); lia |].
      exists c'. split; [exact Hl|].
      exists fulls', cur'. rewrite lenN_app, Hcat'. split; [exact HR'|]. split; [rewrite <- Hcat, <- app_assoc; reflexivity|].
      intros Hz. destruct (Hlast' Hz) as [Hz1 ->]. rewrite (Hlast Hz1). reflexivity.
  Qed.

  Lemma addChunks_ok k pw es xs fuel : forall started D c,
    lenN pw = bsz -> lenN es = bsz -> Fed k pw es started D c ->
    Forall (fun x => lenN (chunk_data x) < 2147483648 /\ (length (chunk_data x) + 2 <= fuel)%nat) xs ->
    exists c', addChunks fuel xs c = Ret c' /\
      Fed k pw es (match xs with [] => started | _ => true end) (D ++ concat (map chunk_data xs)) c'.
  Proof.
    induction xs as [|x xs IH]; intros started D c Lp Le HF HA; cbn [addChunks map concat].
    - exists c. rewrite app_nil_r. auto.
    - inversion HA as [|? ? [H1 H2] HA']; subst.
      destruct (addChunk_ok k pw es started D c x fuel Lp Le HF H1 H2) as (c1 & Hc1 & HF1).
      rewrite Hc1. cbn [bind].
      destruct (IH true _ c1 Lp Le HF1 HA') as (c' & Hc' & HF').
      exists c'. split; [exact Hc'|]. rewrite app_assoc. destruct xs; exact HF'.
  Qed.

  Lemma getResult_ok k pw es D c : Fed k pw es true D c ->
    exists r c', getResult c = Ret (r, c') /\ bdata r = crypt k (kstart bsz pw es) D.
  Proof.
    intros (fulls & cur & HR & Hcat & _).
    destruct HR as (Hfl & Hkd & (b & Hb & HB) & (r & Hr & Hrd & Hrm) & Hsi & Hsf & Hhs & Hht).
    unfold getResult. rewrite Hb, Hkd.
    destruct (blk_getResult_ok _ _ _ _ HB) as (rr & Hrr & Hrrd). rewrite Hrr. cbn [bind]. rewrite Hr.
    pose proof (block_ok_le _ _ _ _ HB) as Hle.
    unfold addcopyToBytes, getLen. rewrite Hrm, Hrrd, Hrd, opl_len, out_of_len by auto.
    rewrite <- Hcat, lenN_app.
    destruct (N.ltb_spec (lenN (concat fulls) + lenN cur) (lenN cur + lenN (concat fulls))); [lia|]. cbn [bind].
    eexists _, _. split; [reflexivity|]. cbn [bdata]. rewrite crypt_split by auto. reflexivity.
  Qed.

  (** ** the whole run *)
  Definition chunks_ok (fuel : nat) (xs : list chunk) : Prop :=
    xs <> [] /\ Forall (fun x => lenN (chunk_data x) < 2147483648 /\ (length (chunk_data x) + 2 <= fuel)%nat) xs.

  Lemma run_chain_crypt k pw es xs fuel :
    getLen pw = bsz -> getLen es = bsz -> chunks_ok fuel xs ->
    run_chain fuel k h pw es xs = Ret (crypt k (kstart bsz (bdata pw) (bdata es)) (concat (map chunk_data xs))).
  Proof.
    intros Lp Le [Hne HA]. unfold run_chain.
    destruct (new_chain_ok k pw es Lp Le) as (c & Hc & HF & Hres). rewrite Hc. cbn [bind].
    destruct (addChunks_ok k (bdata pw) (bdata es) xs fuel false [] c Lp Le) as (c' & Hc' & HF'); auto.
    { cbn. auto. }
    rewrite Hc'. cbn [bind].
    destruct xs as [|x xs]; [congruence|].
    destruct (getResult_ok _ _ _ _ _ HF') as (r & c2 & Hr & Hrd). rewrite Hr. cbn [bind].
    rewrite Hrd. reflexivity.
  Qed.

  (** ** list-level facts *)
  Lemma crypt_cons k st d : d <> [] ->
    crypt k st d = opl k (takeN bsz d) (kpad dig st) ++ crypt k (adv k st (takeN bsz d)) (dropN bsz d).
  Proof. intros Hd. unfold crypt. rewrite blocks_cons by exact Hd. reflexivity. Qed.

  Lemma crypt_len_aux k m : forall st d, (length d <= m)%nat -> lenN (crypt k st d) = lenN d.
  Proof.
    induction m as [|m IH]; intros st [|x d] Hm; cbn [length] in Hm; try (unfold crypt; rewrite blocks_nil; reflexivity); try lia.
    rewrite crypt_cons by congruence. rewrite lenN_app.
    rewrite opl_len by (rewrite lenN_takeN; lia).
    rewrite IH.
    - rewrite lenN_takeN, lenN_dropN. lia.
    - rewrite (length_lenN (dropN _ _)), lenN_dropN, lenN_cons. unfold lenN. lia.
  Qed.
  Lemma crypt_len k st d : lenN (crypt k st d) = lenN d.
  Proof. eapply crypt_len_aux. reflexivity. Qed.

  Lemma dec_enc_aux m : forall st d, (length d <= m)%nat -> crypt Dec st (crypt Enc st d) = d.
  Proof.
    induction m as [|m IH]; intros st [|x d] Hm; cbn [length] in Hm; try (unfold crypt; rewrite blocks_nil; reflexivity); try lia.
    rewrite (crypt_cons Enc) by congruence.
    set (e := opl Enc (takeN bsz (x :: d)) (kpad dig st)).
    assert (He : lenN e = lenN (takeN bsz (x :: d))) by (subst e; apply opl_len; rewrite lenN_takeN; lia).
    assert (Hp : opl Dec e (kpad dig st) = takeN bsz (x :: d)).
    { subst e. cbn [opl]. apply bdiff_bsum. rewrite kpad_len, lenN_takeN. lia. }
    assert (Hadv : adv Dec st e = adv Enc st (takeN bsz (x :: d))).
    { unfold adv. cbn [plain]. change (bdiff e (kpad dig st)) with (opl Dec e (kpad dig st)). rewrite Hp. reflexivity. }
    set (T := crypt Enc (adv Enc st (takeN bsz (x :: d))) (dropN bsz (x :: d))).
    assert (HT : lenN T = lenN (dropN bsz (x :: d))) by apply crypt_len.
    assert (Hne : e ++ T <> []).
    { intros E. apply app_eq_nil in E. destruct E as [E _]. rewrite E, lenN_takeN, lenN_nil, lenN_cons in He. lia. }
    rewrite crypt_cons by exact Hne.
    assert (Htk : takeN bsz (e ++ T) = e /\ dropN bsz (e ++ T) = T).
    { destruct (N.leb_spec (lenN (x :: d)) bsz) as [Hs|Hs].
      - rewrite lenN_dropN in HT.
        assert (T = []) as -> by (apply lenN_0; lia).
        rewrite app_nil_r, takeN_all, dropN_all by (rewrite He, lenN_takeN; lia). auto.
      - assert (Hen : lenN e = bsz) by (rewrite He, lenN_takeN; lia).
        rewrite <- Hen, takeN_app_exact, dropN_app_exact. auto. }
    destruct Htk as [-> ->]. rewrite Hp, Hadv. subst T. rewrite IH.
    - apply takeN_dropN.
    - rewrite (length_lenN (dropN _ _)), lenN_dropN, lenN_cons. unfold lenN. lia.
  Qed.
  Lemma dec_enc st d : crypt Dec st (crypt Enc st d) = d.
  Proof. eapply dec_enc_aux. reflexivity. Qed.
End Facts.
