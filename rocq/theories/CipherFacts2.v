(** Further facts about the cipher: bijectivity, prefixes, oversized calls, reported sizes, the stream variant. *)
From Verif Require Import Base BaseFacts BytesModel BytesFacts CipherModel CipherSpec CipherFacts.
Ltac Zify.zify_post_hook ::= Z.div_mod_to_equations.

Set Default Proof Using "All".
Section Facts2.
  Variable h : hashfn.
  Hypothesis hpos : 0 < hsize h.
  Hypothesis hle : hsize h <= 255.
  Hypothesis hlen : forall x, lenN (hfun h x) = hsize h.
  Local Notation bsz := (hsize h).
  Local Notation dig := (hfun h).


  Lemma crypt_spec_enc pw es d : crypt h Enc (kstart bsz pw es) d = spec_enc dig bsz pw es d.
  Proof. apply (out_of_enc h hpos hle hlen). Qed.
  Lemma crypt_spec_dec pw es d : crypt h Dec (kstart bsz pw es) d = spec_dec dig bsz pw es d.
  Proof. apply (out_of_dec h hpos hle hlen). Qed.

  Definition spec_of (k : kind) := match k with Enc => spec_enc | Dec => spec_dec end.
  Lemma crypt_spec k pw es d : crypt h k (kstart bsz pw es) d = spec_of k dig bsz pw es d.
  Proof. destruct k; [apply crypt_spec_enc | apply crypt_spec_dec]. Qed.

  Lemma run_chain_spec k pw es xs fuel :
    getLen pw = bsz -> getLen es = bsz -> chunks_ok fuel xs ->
    run_chain fuel k h pw es xs = Ret (spec_of k dig bsz (bdata pw) (bdata es) (concat (map chunk_data xs))).
  Proof. intros. rewrite (run_chain_crypt h hpos hle hlen) by auto. rewrite crypt_spec. reflexivity. Qed.

  Lemma enc_dec_aux m : forall st d, (length d <= m)%nat -> crypt h Enc st (crypt h Dec st d) = d.
  Proof.
    induction m as [|m IH]; intros st [|x d] Hm; cbn [length] in Hm; try (unfold crypt; rewrite (blocks_nil h hpos hle hlen); reflexivity); try lia.
    rewrite (crypt_cons h hpos hle hlen Dec) by congruence.
    set (e := opl Dec (takeN bsz (x :: d)) (kpad dig st)).
    assert (He : lenN e = lenN (takeN bsz (x :: d))) by (subst e; apply (opl_len h hpos hle hlen); auto; rewrite lenN_takeN; lia).
    pose proof hpos as Hpos.
    assert (Hp : opl Enc e (kpad dig st) = takeN bsz (x :: d)).
    { subst e. cbn [opl]. apply bsum_bdiff. rewrite (kpad_len h hpos hle hlen), lenN_takeN by auto. lia. }
    assert (Hadv : adv h Enc st e = adv h Dec st (takeN bsz (x :: d))) by reflexivity.
    set (T := crypt h Dec (adv h Dec st (takeN bsz (x :: d))) (dropN bsz (x :: d))).
    assert (HT : lenN T = lenN (dropN bsz (x :: d))) by (apply (crypt_len h hpos hle hlen); auto).
    assert (Hne : e ++ T <> []).
    { intros E. apply app_eq_nil in E. destruct E as [E _]. rewrite E, lenN_takeN, lenN_nil, lenN_cons in He. lia. }
    rewrite (crypt_cons h hpos hle hlen) by exact Hne.
    assert (Htk : takeN bsz (e ++ T) = e /\ dropN bsz (e ++ T) = T).
    { destruct (N.leb_spec (lenN (x :: d)) bsz) as [Hs|Hs].
      - rewrite lenN_dropN in HT.
        assert (T = []) as -> by (apply lenN_0; lia).
        rewrite app_nil_r, takeN_all, dropN_all by (rewrite He, lenN_takeN; lia). auto.
      - assert (Hen : lenN e = bsz) by (rewrite He, lenN_takeN; lia).
        rewrite <- Hen, takeN_app_exact, dropN_app_exact. auto. }
    destruct Htk as [-> ->]. rewrite Hp, Hadv. subst T. rewrite IH.
    - apply takeN_dropN.
    - rewrite (length_lenN (dropN _ _)), lenN_dropN, lenN_cons. unfold lenN. lia.
  Qed.
  Lemma enc_dec st d : crypt h Enc st (crypt h Dec st d) = d.
  Proof. eapply enc_dec_aux. reflexivity. Qed.

  (** prefix causality *)
  Lemma crypt_prefix_aux k m : forall st p q, (length p <= m)%nat ->
    takeN (lenN p) (crypt h k st (p ++ q)) = crypt h k st p.
  Proof.
    pose proof hpos as Hpos.
    induction m as [|m IH]; intros st p q Hm; (destruct p as [|x p]; [unfold crypt at 2; rewrite (blocks_nil h hpos hle hlen); reflexivity|]); cbn [length] in Hm; try lia.
    rewrite (crypt_cons h hpos hle hlen k st ((x :: p) ++ q)) by (cbn; congruence).
    rewrite (crypt_cons h hpos hle hlen k st (x :: p)) by congruence.
    destruct (N.leb_spec bsz (lenN (x :: p))) as [Hs|Hs].
    - rewrite (takeN_app_le bsz (x :: p) q), (dropN_app_le bsz (x :: p) q) by exact Hs.
      set (o := opl k (takeN bsz (x :: p)) (kpad dig st)).
      assert (Ho : lenN o = bsz) by (subst o; rewrite (opl_len h hpos hle hlen) by (auto; rewrite lenN_takeN; lia); rewrite lenN_takeN; lia).
      rewrite takeN_app_ge by lia. rewrite Ho. f_equal.
      replace (lenN (x :: p) - bsz) with (lenN (dropN bsz (x :: p))) by apply lenN_dropN.
      apply IH. rewrite (length_lenN (dropN _ _)), lenN_dropN, lenN_cons. unfold lenN. lia.
    - rewrite (takeN_all bsz (x :: p)), (dropN_all bsz (x :: p)) by lia.
      unfold crypt at 2. rewrite (blocks_nil h hpos hle hlen). cbn [out_of]. rewrite app_nil_r.
      rewrite takeN_app_le.
      + rewrite (opl_take h hpos hle hlen). f_equal. rewrite takeN_takeN.
        rewrite takeN_app_le by lia. apply takeN_all. lia.
      + rewrite (opl_len h hpos hle hlen) by (auto; rewrite lenN_takeN; lia). rewrite lenN_takeN, lenN_app. lia.
  Qed.
  Lemma crypt_prefix k st p q : takeN (lenN p) (crypt h k st (p ++ q)) = crypt h k st p.
  Proof. eapply crypt_prefix_aux. reflexivity. Qed.

  (** ** sizes reported *)
  Lemma fed_sizes k pw es started D c : Fed h k pw es started D c ->
    getHeight c = 0 /\
    getDataSize c = sub64 0 (c_free c) /\
    (if started then (c_free c = 0 /\ D <> []) \/ (0 < c_free c /\ c_free c <= bsz) else c_free c = 0).
  Proof.
    pose proof hpos as Hpos. intros HF. destruct started.
    - destruct HF as (fulls & cur & HR & Hcat & _).
      pose proof (c_free_Rep h hpos hle hlen _ _ _ _ _ _ HR) as Hfr.
      destruct HR as (_ & _ & (b & _ & HB) & _ & _ & _ & Hhs & Hht).
      pose proof (block_ok_le h hpos hle hlen _ _ _ _ HB) as Hle. unfold getHeight, getDataSize. rewrite Hht.
      split; [reflexivity|]. split; [reflexivity|].
      destruct (N.eq_dec (lenN cur) bsz) as [E|E].
      + left. split; [lia|]. intros ->. apply app_eq_nil in Hcat. destruct Hcat as [_ ->].
        rewrite lenN_nil in E. lia.
      + right. lia.
    - destruct HF as ((_ & Hc & _ & _ & _ & _ & Hht) & _ & _). unfold getHeight, getDataSize, c_free.
      rewrite Hht, Hc. auto.
  Qed.

  Lemma fed_sizes_wrong k pw es D c : Fed h k pw es true D c -> lenN D < 2 ^ 63 ->
    getHeight c = 0 /\ getDataSize c <> lenN D.
  Proof.
    pose proof hle as Hle. intros HF HD. destruct (fed_sizes _ _ _ _ _ _ HF) as (H1 & H2 & H3).
    split; [exact H1|]. rewrite H2. change (2 ^ 63) with 9223372036854775808 in HD.
    unfold sub64, two64. destruct H3 as [(-> & Hne)|(Hp & Hl)].
    - change ((0 + 18446744073709551616 - 0) mod 18446744073709551616) with 0.
      intros E. symmetry in E. apply lenN_0 in E. congruence.
    - rewrite N.mod_small by lia. lia.
  Qed.
End Facts2.

(** ** construction *)
Lemma new_chain_iff h k pw es :
  (getLen pw = hsize h /\ getLen es = hsize h -> exists c, new_chain k h pw es = Ret c) /\
  (~ (getLen pw = hsize h /\ getLen es = hsize h) -> new_chain k h pw es = Throw InvalidArgument).
Proof.
  unfold new_chain, si_init. split.
  - intros [-> ->]. rewrite N.eqb_refl. cbn. eauto.
  - intros Hn. destruct (N.eqb_spec (getLen pw) (hsize h)); [|reflexivity].
    destruct (N.eqb_spec (getLen es) (hsize h)); [|reflexivity]. tauto.
Qed.

(** ** oversized calls *)
Lemma to_int32_cases x :
  (to_int32 x < 0)%Z /\ 2147483648 <= x mod 4294967296 \/
  to_int32 x = Z.of_N (x mod 4294967296) /\ x mod 4294967296 < 2147483648.
Proof.
  unfold to_int32. destruct (Z.ltb_spec (Z.of_N x mod 4294967296) 2147483648); [right|left]; lia.
Qed.

Lemma copySub_neg data written e : (e < 0)%Z -> written < two64 -> getLen data < two64 - 2147483648 ->
  (- 2147483648 <= e)%Z ->
  written <= getLen data ->
  copySubBytes written (Z.to_N ((Z.of_N written + e) mod Z.of_N two64)%Z) data = Throw
     (if Z.of_N written + e <? 0 then LengthError else InvalidArgument)%Z.
Proof.
  intros He Hw Hd Hm Hwd. unfold copySubBytes, two64 in *.
  destruct (Z.ltb_spec (Z.of_N written + e) 0).
  - replace ((Z.of_N written + e) mod Z.of_N 18446744073709551616)%Z with (Z.of_N written + e + Z.of_N 18446744073709551616)%Z by lia.
    destruct (N.ltb_spec (Z.to_N (Z.of_N written + e + Z.of_N 18446744073709551616)) written); [lia|].
    destruct (N.ltb_spec (getLen data) (Z.to_N (Z.of_N written + e + Z.of_N 18446744073709551616))); [reflexivity|lia].
  - rewrite Z.mod_small by lia.
    destruct (N.ltb_spec (Z.to_N (Z.of_N written + e)) written); [reflexivity|lia].
Qed.

Lemma addData_loop_big fuel : forall data written c c',
  getLen data < two64 - 2147483648 -> written <= getLen data ->
  2147483648 <= getLen data - written ->
  addData_loop fuel data written c <> Ret c'.
Proof.
  induction fuel as [|fuel IH]; intros data written c c' Hd Hw Hrem; cbn [addData_loop]; [discriminate|].
  unfold piece. rewrite (sub64_le) by (unfold two64 in *; lia).
  set (rem := getLen data - written) in *.
  destruct (to_int32_cases rem) as [[Hneg _]|[Heq Hlow]].
  - rewrite Z.min_r by lia. rewrite copySub_neg; try assumption; try (unfold two64 in *; lia).
    + cbn. discriminate.
    + unfold to_int32. destruct (Z.ltb_spec (Z.of_N rem mod 4294967296) 2147483648); lia.
  - rewrite Heq.
    set (m := N.min (c_free c) (rem mod 4294967296)).
    replace (Z.to_N ((Z.of_N written + Z.min (Z.of_N (c_free c)) (Z.of_N (rem mod 4294967296))) mod Z.of_N two64)%Z)
      with (written + m).
    2: { unfold two64 in *. rewrite Z.mod_small; subst m; lia. }
    unfold copySubBytes. destruct (N.ltb_spec (written + m) written); [discriminate|].
    destruct (N.ltb_spec (getLen data) (written + m)); [discriminate|]. cbn [bind].
    destruct (c_cur c) as [b|]; [|discriminate].
    match goal with |- context [blk_addData ?k ?d ?b] => destruct (blk_addData k d b) as [b'| | |] end; cbn [bind]; try discriminate.
    assert (HL : getLen (mkBytes (sliceN written (written + m) (bdata data)) (written + m - written)) = m).
    { unfold getLen. cbn [bdata]. rewrite lenN_sliceN; unfold getLen in *; lia. }
    rewrite HL. unfold w64. rewrite N.mod_small by (unfold two64 in *; subst m; lia).
    destruct (N.ltb_spec (written + m) (getLen data)); [|subst m; lia].
    destruct (addBlock (set_cur c b')) as [[bb c2]| | |]; cbn [bind]; try discriminate.
    apply IH; subst m; lia.
Qed.

Lemma addStream_loop_big fuel : forall s total written c c',
  total < two64 -> written <= total ->
  2147483648 <= total - written ->
  addStream_loop fuel s total written c <> Ret c'.
Proof.
  induction fuel as [|fuel IH]; intros s total written c c' Hd Hw Hrem; cbn [addStream_loop]; [discriminate|].
  unfold piece. rewrite (sub64_le) by assumption.
  set (rem := total - written) in *.
  destruct (to_int32_cases rem) as [[Hneg _]|[Heq Hlow]].
  - rewrite Z.min_r by lia. unfold newBytes. destruct (Z.ltb_spec (to_int32 rem) 0); [|lia]. cbn. discriminate.
  - rewrite Heq. unfold newBytes.
    set (m := N.min (c_free c) (rem mod 4294967296)).
    replace (Z.min (Z.of_N (c_free c)) (Z.of_N (rem mod 4294967296))) with (Z.of_N m) by (subst m; lia).
    destruct (Z.ltb_spec (Z.of_N m) 0); [lia|]. cbn [bind bmax]. rewrite N2Z.id.
    unfold readExact. destruct (N.leb_spec m (lenN s)); [|discriminate].
    destruct (c_cur c) as [b|]; [|discriminate].
    match goal with |- context [blk_addData ?k ?d ?b] => destruct (blk_addData k d b) as [b'| | |] end; cbn [bind]; try discriminate.
    unfold getLen. cbn [bdata]. rewrite lenN_takeN, N.min_l by lia.
    unfold w64. rewrite N.mod_small by (unfold two64 in *; subst m; lia).
    destruct (N.ltb_spec (written + m) total); [|subst m; lia].
    destruct (addBlock (set_cur c b')) as [[bb c2]| | |]; cbn [bind]; try discriminate.
    apply IH; subst m; lia.
Qed.

Lemma addData_big fuel d c c' :
  2147483648 <= lenN d -> lenN d < two64 - 2147483648 -> addData fuel (fromArray d) c <> Ret c'.
Proof.
  intros Hl Hb. unfold addData. destruct (addData_start c (getLen (fromArray d))); cbn [bind]; try discriminate.
  apply addData_loop_big; unfold getLen; cbn [bdata fromArray]; unfold two64 in *; lia.
Qed.
Lemma addStream_big fuel s total c c' :
  2147483648 <= total -> total < two64 -> addStream fuel s total c <> Ret c'.
Proof.
  intros Hl Hb. unfold addStream. destruct (addData_start c total); cbn [bind]; try discriminate.
  apply addStream_loop_big; lia.
Qed.

(** a chain that throws at once: low 32 bits of the length are >= 2^31 *)
Lemma addData_big_throw h k pw es started D c fuel d : hash_ok h ->
  lenN pw = hsize h -> lenN es = hsize h -> Fed h k pw es started D c ->
  2147483648 <= lenN d mod 4294967296 -> lenN d < two64 - 2147483648 ->
  addData (S fuel) (fromArray d) c = Throw LengthError.
Proof.
  intros (Hp & Hl & Hn) Lp Le HF Hlow Hb. unfold addData.
  destruct (addData_start_ok h Hp Hl Hn k pw es started D c (getLen (fromArray d)) Lp Le HF) as (c1 & fulls & cur & -> & HR & _).
  cbn [bind addData_loop]. unfold piece. unfold getLen. cbn [bdata fromArray].
  rewrite (sub64_le) by (unfold two64 in *; lia). rewrite N.sub_0_r.
  destruct (to_int32_cases (lenN d)) as [[Hneg _]|[Heq Hlow']]; [|lia].
  rewrite Z.min_r by lia. rewrite copySub_neg; try assumption; try (unfold two64, getLen in *; cbn [bdata fromArray]; lia).
  - destruct (Z.ltb_spec (Z.of_N 0 + to_int32 (lenN d)) 0); [reflexivity|lia].
  - unfold to_int32. destruct (Z.ltb_spec (Z.of_N (lenN d) mod 4294967296) 2147483648); lia.
Qed.

(** a chain that runs forever: length >= 2^32 and low 32 bits < 2^31 *)
Lemma addData_loop_hang h k st0 fuel : hash_ok h -> keys_ok h st0 -> forall pre rest mx fulls cur M c,
  lenN (pre ++ rest) < two64 - 2147483648 ->
  4294967296 <= lenN rest -> lenN rest mod 4294967296 < 2147483648 ->
  Rep h k st0 fulls cur M c ->
  lenN (concat fulls) + lenN cur + lenN rest <= M ->
  addData_loop fuel (mkBytes (pre ++ rest) mx) (lenN pre) c = OutOfFuel.
Proof.
  intros (Hp & Hl & Hn) Hk0. induction fuel as [|fuel IH]; intros pre rest mx fulls cur M c Hlen Hbig Hlow HR HM; [reflexivity|].
  cbn [addData_loop]. unfold piece. rewrite (c_free_Rep h Hp Hl Hn _ _ _ _ _ _ HR).
  unfold getLen. cbn [bdata]. rewrite lenN_app in *.
  rewrite (sub64_le) by (unfold two64 in *; lia).
  replace (lenN pre + lenN rest - lenN pre) with (lenN rest) by lia.
  destruct (to_int32_cases (lenN rest)) as [[Hneg ?]|[Heq _]]; [lia|]. rewrite Heq.
  set (m := N.min (hsize h - lenN cur) (lenN rest mod 4294967296)).
  assert (Hcur : lenN cur <= hsize h).
  { destruct HR as (_ & _ & (b & _ & HB) & _). eapply block_ok_le; eassumption. }
  replace (Z.to_N ((Z.of_N (lenN pre) + Z.min (Z.of_N (hsize h - lenN cur)) (Z.of_N (lenN rest mod 4294967296))) mod Z.of_N two64)%Z)
    with (lenN pre + m).
  2: { unfold two64 in *. rewrite Z.mod_small; subst m; lia. }
  unfold copySubBytes. destruct (N.ltb_spec (lenN pre + m) (lenN pre)); [lia|].
  unfold getLen at 1. cbn [bdata]. rewrite lenN_app.
  destruct (N.ltb_spec (lenN pre + lenN rest) (lenN pre + m)); [subst m; lia|]. cbn [bind].
  assert (Hsl : sliceN (lenN pre) (lenN pre + m) (pre ++ rest) = takeN m rest).
  { unfold sliceN. rewrite dropN_app_exact. f_equal. lia. }
  rewrite Hsl. cbn [bdata].
  assert (Htl : lenN (takeN m rest) = m) by (rewrite lenN_takeN; subst m; lia).
  rewrite Htl. unfold w64. rewrite N.mod_small by (unfold two64 in *; subst m; lia).
  pose proof HR as (_ & Hkd & (b & Hb & HB) & _). rewrite Hb, Hkd.
  destruct (blk_addData_ok h Hp Hl Hn k _ cur b (mkBytes (takeN m rest) (lenN pre + m - lenN pre)) HB) as (b' & Hb' & HB').
  { unfold getLen. cbn [bdata]. rewrite Htl. subst m. lia. }
  rewrite Hb'. cbn [bind]. cbn [bdata] in HB'.
  pose proof (Rep_set_cur h Hp Hl Hn _ _ _ _ _ _ _ _ HR HB') as HR'.
  assert (Hcl : lenN (cur ++ takeN m rest) = lenN cur + m) by (rewrite lenN_app, Htl; reflexivity).
  destruct (N.ltb_spec (lenN pre + m) (lenN pre + lenN rest)) as [_|?]; [|subst m; lia].
  assert (Hpre : pre ++ rest = (pre ++ takeN m rest) ++ dropN m rest)
    by (rewrite <- app_assoc, takeN_dropN; reflexivity).
  assert (Hdl : lenN (dropN m rest) = lenN rest - m) by apply lenN_dropN.
  destruct (N.eq_dec (lenN cur + m) (hsize h)) as [Hfull|Hnf].
  - destruct (addBlock_full h Hp Hl Hn k st0 fulls (cur ++ takeN m rest) M (set_cur c b') Hk0 HR') as (c2 & Hc2 & HR2).
    { rewrite Hcl. exact Hfull. }
    { subst m; lia. }
    rewrite Hc2. cbn [bind].
    rewrite Hpre. replace (lenN pre + m) with (lenN (pre ++ takeN m rest)) by (rewrite lenN_app, Htl; reflexivity).
    apply (IH _ _ mx (fulls ++ [cur ++ takeN m rest]) [] M c2); auto.
    + rewrite <- Hpre, lenN_app. exact Hlen.
    + rewrite Hdl. subst m; lia.
    + rewrite Hdl. subst m; lia.
    + rewrite concat_app, lenN_app. cbn [concat]. rewrite app_nil_r, Hcl, lenN_nil, Hdl. subst m; lia.
  - rewrite (addBlock_notfull h Hp Hl Hn _ _ _ _ _ _ HR') by lia. cbn [bind].
    rewrite Hpre. replace (lenN pre + m) with (lenN (pre ++ takeN m rest)) by (rewrite lenN_app, Htl; reflexivity).
    apply (IH _ _ mx fulls (cur ++ takeN m rest) M (set_cur c b')); auto.
    + rewrite <- Hpre, lenN_app. exact Hlen.
    + rewrite Hdl. subst m; lia.
    + rewrite Hdl. subst m; lia.
    + rewrite Hcl, Hdl. subst m; lia.
Qed.

Lemma addData_big_hang h k pw es started D c fuel d : hash_ok h ->
  lenN pw = hsize h -> lenN es = hsize h -> Fed h k pw es started D c ->
  4294967296 <= lenN d -> lenN d mod 4294967296 < 2147483648 -> lenN d < two64 - 2147483648 ->
  addData fuel (fromArray d) c = OutOfFuel.
Proof.
  intros (Hp & Hl & Hn) Lp Le HF Hbig Hlow Hb. unfold addData.
  destruct (addData_start_ok h Hp Hl Hn k pw es started D c (getLen (fromArray d)) Lp Le HF) as (c1 & fulls & cur & -> & HR & Hcat & _).
  cbn [bind]. apply (addData_loop_hang h k (kstart (hsize h) pw es) fuel (conj Hp (conj Hl Hn)) (keys_start h Hp Hl Hn pw es Lp Le)
    [] d (lenN d) fulls cur (lenN D + getLen (fromArray d)) c1); auto.
  unfold getLen. cbn [bdata fromArray]. rewrite <- Hcat, lenN_app. lia.
Qed.

(** ** the stream variant *)
Lemma si_next_stream_first si : si_first si = true -> 0 < hsize (si_obj si) ->
  si_next si stream_next_default = Throw LengthError.
Proof.
  intros Hf Hp. unfold si_next. rewrite Hf. unfold setBytes, stream_next_default. cbn [bmax].
  rewrite lenN_repeat, N2Nat.id. destruct (N.ltb_spec 0 (hsize (si_obj si))); [reflexivity|lia].
Qed.

Lemma enc_stream_terminates bd k h pw es inp c : 0 < hsize h ->
  new_schain k h pw es = Ret c -> enc_stream bd inp c = Crash Terminate.
Proof.
  intros Hp. unfold new_schain, si_init.
  destruct (negb (getLen pw =? hsize h)); [discriminate|].
  destruct (negb (getLen es =? hsize h)); [discriminate|]. cbn [bind].
  intros E. injection E as <-. unfold enc_stream. cbn [s_cur].
  unfold setBlock, s_free. cbn [s_cur N.eqb negb s_si].
  rewrite si_next_stream_first by (reflexivity || exact Hp). reflexivity.
Qed.

(** ** statements in the form used by Properties_Cipher.v *)
Section Final.
  Variable h : hashfn.
  Hypothesis Hh : hash_ok h.


  Lemma sizes_chunks fuel xs : sizes_ok fuel xs <-> chunks_ok fuel xs.
  Proof. unfold sizes_ok, chunks_ok. change (2 ^ 31) with 2147483648. reflexivity. Qed.

  Lemma chain_spec_lemma k pw es xs fuel :
    getLen pw = hsize h -> getLen es = hsize h -> sizes_ok fuel xs ->
    run_chain fuel k h pw es xs =
      Ret ((match k with Enc => spec_enc | Dec => spec_dec end) (hfun h) (hsize h) (bdata pw) (bdata es)
             (concat (map chunk_data xs))).
  Proof.
    destruct Hh as (Hp & Hl & Hn). intros Lp Le HS. apply sizes_chunks in HS.
    rewrite (run_chain_spec h Hp Hl Hn) by assumption. reflexivity.
  Qed.

  Lemma round_trip_lemma pw es xs ys fuel1 fuel2 c :
    getLen pw = hsize h -> getLen es = hsize h -> sizes_ok fuel1 xs -> sizes_ok fuel2 ys ->
    run_chain fuel1 Enc h pw es xs = Ret c -> concat (map chunk_data ys) = c ->
    run_chain fuel2 Dec h pw es ys = Ret (concat (map chunk_data xs)).
  Proof.
    intros Lp Le HX HY HE HC. rewrite chain_spec_lemma in HE by assumption. injection HE as HE.
    rewrite chain_spec_lemma, HC, <- HE by assumption. f_equal.
    destruct Hh as (Hp & Hl & Hn).
    rewrite <- (crypt_spec_enc h Hp Hl Hn), <- (crypt_spec_dec h Hp Hl Hn). apply (dec_enc h Hp Hl Hn).
  Qed.

  Lemma split_indep_lemma k pw es xs ys fuel1 fuel2 :
    getLen pw = hsize h -> getLen es = hsize h -> sizes_ok fuel1 xs -> sizes_ok fuel2 ys ->
    concat (map chunk_data xs) = concat (map chunk_data ys) ->
    run_chain fuel1 k h pw es xs = run_chain fuel2 k h pw es ys /\ is_ret (run_chain fuel1 k h pw es xs) = true.
  Proof. intros. rewrite !chain_spec_lemma by assumption. rewrite H3. split; reflexivity. Qed.

  Lemma length_lemma k pw es xs fuel r :
    getLen pw = hsize h -> getLen es = hsize h -> sizes_ok fuel xs ->
    run_chain fuel k h pw es xs = Ret r -> lenN r = lenN (concat (map chunk_data xs)).
  Proof.
    destruct Hh as (Hp & Hl & Hn). intros Lp Le HS. apply sizes_chunks in HS.
    rewrite (run_chain_crypt h Hp Hl Hn) by assumption. intros E. injection E as <-.
    apply (crypt_len h Hp Hl Hn).
  Qed.

  Lemma prefix_lemma k pw es xs ys fuel1 fuel2 r1 r2 :
    getLen pw = hsize h -> getLen es = hsize h -> sizes_ok fuel1 xs -> sizes_ok fuel2 ys ->
    (exists q, concat (map chunk_data ys) = concat (map chunk_data xs) ++ q) ->
    run_chain fuel1 k h pw es xs = Ret r1 -> run_chain fuel2 k h pw es ys = Ret r2 ->
    exists t, r2 = r1 ++ t.
  Proof.
    destruct Hh as (Hp & Hl & Hn). intros Lp Le HX HY [q Hq]. apply sizes_chunks in HX. apply sizes_chunks in HY.
    rewrite !(run_chain_crypt h Hp Hl Hn) by assumption. intros E1 E2. injection E1 as <-. injection E2 as <-.
    set (p := concat (map chunk_data xs)) in *. rewrite Hq.
    exists (dropN (lenN p) (crypt h k (kstart (hsize h) (bdata pw) (bdata es)) (p ++ q))).
    rewrite <- (crypt_prefix h Hp Hl Hn k _ p q) at 1. symmetry. apply takeN_dropN.
  Qed.

  Lemma no_integrity_lemma pw es p :
    getLen pw = hsize h -> getLen es = hsize h ->
    exists! c, lenN c = lenN p /\ spec_dec (hfun h) (hsize h) (bdata pw) (bdata es) c = p.
  Proof.
    destruct Hh as (Hp & Hl & Hn). intros Lp Le.
    exists (spec_enc (hfun h) (hsize h) (bdata pw) (bdata es) p).
    rewrite <- (crypt_spec_enc h Hp Hl Hn). repeat split.
    - apply (crypt_len h Hp Hl Hn).
    - rewrite <- (crypt_spec_dec h Hp Hl Hn). apply (dec_enc h Hp Hl Hn).
    - intros c (_ & Hc). rewrite <- (crypt_spec_dec h Hp Hl Hn) in Hc. rewrite <- Hc. apply (enc_dec h Hp Hl Hn).
  Qed.

  Lemma any_decrypts_lemma pw es xs fuel :
    getLen pw = hsize h -> getLen es = hsize h -> sizes_ok fuel xs ->
    exists r, run_chain fuel Dec h pw es xs = Ret r /\ lenN r = lenN (concat (map chunk_data xs)).
  Proof.
    intros Lp Le HS. eexists. split; [apply chain_spec_lemma; assumption|].
    eapply length_lemma; [exact Lp|exact Le|exact HS|]. apply (chain_spec_lemma Dec); assumption.
  Qed.

  Lemma reach_fed k pw es xs fuel c0 c :
    getLen pw = hsize h -> getLen es = hsize h ->
    Forall (fun x => lenN (chunk_data x) < 2 ^ 31 /\ (length (chunk_data x) + 2 <= fuel)%nat) xs ->
    new_chain k h pw es = Ret c0 -> addChunks fuel xs c0 = Ret c ->
    Fed h k (bdata pw) (bdata es) (match xs with [] => false | _ => true end) (concat (map chunk_data xs)) c.
  Proof.
    destruct Hh as (Hp & Hl & Hn). intros Lp Le HA Hc0 Hc.
    destruct (new_chain_ok h Hp Hl Hn k pw es Lp Le) as (c1 & Hc1 & HF & Hres).
    rewrite Hc0 in Hc1. injection Hc1 as <-.
    destruct (addChunks_ok h Hp Hl Hn k (bdata pw) (bdata es) xs fuel false [] c0 Lp Le) as (c' & Hc' & HF'); auto.
    { cbn. auto. }
    rewrite Hc in Hc'. injection Hc' as <-. exact HF'.
  Qed.
End Final.

Lemma lt63 x : x < 2 ^ 63 -> x < two64 - 2147483648.
Proof. change (2 ^ 63) with 9223372036854775808. unfold two64. lia. Qed.

Lemma size_lemma h k pw es xs fuel c0 c :
  hash_ok h -> getLen pw = hsize h -> getLen es = hsize h ->
  sizes_ok fuel xs -> new_chain k h pw es = Ret c0 -> addChunks fuel xs c0 = Ret c ->
  lenN (concat (map chunk_data xs)) < 2 ^ 63 ->
  getHeight c = 0 /\ getDataSize c <> lenN (concat (map chunk_data xs)).
Proof.
  intros Hh Lp Le [Hne HA] H0 H1 Hs.
  pose proof (reach_fed h Hh k pw es xs fuel c0 c Lp Le HA H0 H1) as HF.
  destruct xs as [|x xs]; [congruence|].
  destruct Hh as (Hp & Hl & Hn).
  exact (fed_sizes_wrong h Hp Hl Hn _ _ _ _ _ HF Hs).
Qed.
