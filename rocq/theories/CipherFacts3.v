(** Facts about oversized stream calls and about the size a chain reports (C07, C08). *)
From Verif Require Import Base BaseFacts BytesModel BytesFacts CipherModel CipherSpec CipherFacts CipherFacts2.
Ltac Zify.zify_post_hook ::= Z.div_mod_to_equations.

(** ** streams *)
Lemma addStream_big_throw fuel s total c c1 : addData_start c total = Ret c1 ->
  2147483648 <= total mod 4294967296 -> total < two64 ->
  addStream (S fuel) s total c = Throw InvalidArgument.
Proof.
  intros H1 Hlow Hb. unfold addStream. rewrite H1. cbn [bind addStream_loop]. unfold piece.
  rewrite sub64_le by lia. rewrite N.sub_0_r.
  destruct (to_int32_cases total) as [[Hneg _]|[Heq Hlow']]; [|lia].
  rewrite Z.min_r by lia. unfold newBytes. destruct (Z.ltb_spec (to_int32 total) 0); [reflexivity|lia].
Qed.

(** what one round does while the low 32 bits of the rest are below 2^31 *)
Section Stream.
  Variable h : hashfn.
  Hypothesis Hh : hash_ok h.
  Variable k : kind.
  Variable st0 : kstate.
  Hypothesis Hk0 : keys_ok h st0.

  Lemma round_ok f s total written fulls cur M c : total < two64 -> written <= total ->
    4294967296 <= total - written -> (total - written) mod 4294967296 < 2147483648 ->
    Rep h k st0 fulls cur M c -> lenN (concat fulls) + lenN cur + (total - written) <= M ->
    let m := N.min (hsize h - lenN cur) ((total - written) mod 4294967296) in
    (lenN s < m /\ addStream_loop (S f) s total written c = Throw RuntimeError) \/
    (m <= lenN s /\ exists fulls' cur' c', addStream_loop (S f) s total written c =
       addStream_loop f (dropN m s) total (written + m) c' /\ Rep h k st0 fulls' cur' M c' /\
       lenN (concat fulls') + lenN cur' = lenN (concat fulls) + lenN cur + m /\ lenN cur' < hsize h).
  Proof using Hh Hk0.
    destruct Hh as (Hp & Hl & Hn). intros Hb Hw Hbig Hlow HR HM m.
    assert (Hcur : lenN cur <= hsize h).
    { destruct HR as (_ & _ & (b & _ & HB) & _). eapply block_ok_le; eassumption. }
    cbn [addStream_loop]. unfold piece. rewrite (c_free_Rep h Hp Hl Hn _ _ _ _ _ _ HR).
    rewrite sub64_le by lia.
    destruct (to_int32_cases (total - written)) as [[_ ?]|[Heq _]]; [lia|]. rewrite Heq.
    replace (Z.min (Z.of_N (hsize h - lenN cur)) (Z.of_N ((total - written) mod 4294967296))) with (Z.of_N m) by (subst m; lia).
    unfold newBytes. destruct (Z.ltb_spec (Z.of_N m) 0); [lia|]. cbn [bind bmax]. rewrite N2Z.id.
    unfold readExact. destruct (N.leb_spec m (lenN s)) as [Hm|Hm]; [right|left; auto].
    split; [exact Hm|].
    assert (Htl : lenN (takeN m s) = m) by (rewrite lenN_takeN; lia).
    unfold getLen. cbn [bdata]. rewrite Htl.
    unfold w64. rewrite N.mod_small by (unfold two64 in *; subst m; lia).
    pose proof HR as (_ & Hkd & (b & Hb' & HB) & _). rewrite Hb', Hkd.
    destruct (blk_addData_ok h Hp Hl Hn k _ cur b (mkBytes (takeN m s) m) HB) as (b' & Hb'' & HB').
    { unfold getLen. cbn [bdata]. rewrite Htl. subst m. lia. }
    rewrite Hb''. cbn [bind]. cbn [bdata] in HB'.
    pose proof (Rep_set_cur h Hp Hl Hn _ _ _ _ _ _ _ _ HR HB') as HR'.
    assert (Hcl : lenN (cur ++ takeN m s) = lenN cur + m) by (rewrite lenN_app, Htl; reflexivity).
    destruct (N.ltb_spec (written + m) total) as [_|?]; [|subst m; lia].
    destruct (N.eq_dec (lenN cur + m) (hsize h)) as [Hfull|Hnf].
    - destruct (addBlock_full h Hp Hl Hn k st0 fulls (cur ++ takeN m s) M (set_cur c b') Hk0 HR') as (c2 & Hc2 & HR2).
      { rewrite Hcl. exact Hfull. }
      { subst m; lia. }
      rewrite Hc2. cbn [bind]. exists (fulls ++ [cur ++ takeN m s]), [], c2.
      split; [reflexivity|]. split; [exact HR2|]. split; [|rewrite lenN_nil; exact Hp].
      rewrite concat_app, lenN_app. cbn [concat]. rewrite app_nil_r, Hcl, lenN_nil. lia.
    - rewrite (addBlock_notfull h Hp Hl Hn _ _ _ _ _ _ HR') by lia. cbn [bind].
      exists fulls, (cur ++ takeN m s), (set_cur c b').
      split; [reflexivity|]. split; [exact HR'|]. split; lia.
  Qed.

  Lemma loop_hang f : forall s total written fulls cur M c, total < two64 -> written <= total ->
    4294967296 <= total - written -> (total - written) mod 4294967296 < 2147483648 ->
    (total - written) mod 4294967296 <= lenN s ->
    Rep h k st0 fulls cur M c -> lenN (concat fulls) + lenN cur + (total - written) <= M ->
    addStream_loop f s total written c = OutOfFuel.
  Proof using Hh Hk0.
    induction f as [|f IH]; intros s total written fulls cur M c Hb Hw Hbig Hlow Hs HR HM; [reflexivity|].
    destruct (round_ok f s total written fulls cur M c Hb Hw Hbig Hlow HR HM) as [[Hm _]|(Hm & fu & cu & c' & -> & HR' & HL & _)].
    - lia.
    - set (m := N.min (hsize h - lenN cur) ((total - written) mod 4294967296)) in *.
      assert (Hmm : m <= (total - written) mod 4294967296) by (subst m; lia). clearbody m.
      apply (IH _ _ _ fu cu M c'); try lia; auto; try (rewrite lenN_dropN); lia.
  Qed.

  Lemma loop_short f : forall s total written fulls cur M c, total < two64 -> written <= total ->
    4294967296 <= total - written -> (total - written) mod 4294967296 < 2147483648 ->
    lenN s < (total - written) mod 4294967296 ->
    Rep h k st0 fulls cur M c -> lenN (concat fulls) + lenN cur + (total - written) <= M ->
    (length s + (if (lenN cur =? hsize h)%N then 2 else 1) <= f)%nat ->
    addStream_loop f s total written c = Throw RuntimeError.
  Proof using Hh Hk0.
    pose proof Hh as (Hp & Hl & Hn).
    induction f as [|f IH]; intros s total written fulls cur M c Hb Hw Hbig Hlow Hs HR HM Hf.
    { destruct (lenN cur =? hsize h); lia. }
    assert (Hcur : lenN cur <= hsize h).
    { destruct HR as (_ & _ & (b & _ & HB) & _). eapply block_ok_le; eassumption. }
    destruct (round_ok f s total written fulls cur M c Hb Hw Hbig Hlow HR HM) as [[_ ->]|(Hm & fu & cu & c' & -> & HR' & HL & Hcu)].
    - reflexivity.
    - set (m := N.min (hsize h - lenN cur) ((total - written) mod 4294967296)) in *.
      assert (Hmm : m <= (total - written) mod 4294967296) by (subst m; lia).
      assert (Hm1 : lenN cur = hsize h \/ 0 < m) by (subst m; lia). clearbody m.
      apply (IH _ _ _ fu cu M c'); try lia; auto; try (rewrite lenN_dropN); try lia.
      rewrite length_lenN in Hf |- *. rewrite lenN_dropN.
      destruct (N.eqb_spec (lenN cu) (hsize h)); [lia|].
      destruct (N.eqb_spec (lenN cur) (hsize h)); lia.
  Qed.
End Stream.

Section Calls.
  Variable h : hashfn.
  Hypothesis Hh : hash_ok h.
  Variables (k : kind) (pw es : Bytes) (xs : list chunk) (fuel : nat) (c0 c : chain).
  Hypothesis Lp : getLen pw = hsize h.
  Hypothesis Le : getLen es = hsize h.
  Hypothesis HA : Forall (fun x => lenN (chunk_data x) < 2 ^ 31 /\ (length (chunk_data x) + 2 <= fuel)%nat) xs.
  Hypothesis H0 : new_chain k h pw es = Ret c0.
  Hypothesis H1 : addChunks fuel xs c0 = Ret c.

  Lemma stream_throws s total n : 2 ^ 31 <= total mod 2 ^ 32 -> total < 2 ^ 64 ->
    addStream (S n) s total c = Throw InvalidArgument.
  Proof using Hh Lp Le HA H0 H1.
    intros H2 H3. destruct Hh as (Hp & Hl & Hn).
    pose proof (reach_fed h Hh k pw es xs fuel c0 c Lp Le HA H0 H1) as HF.
    destruct (addData_start_ok h Hp Hl Hn _ _ _ _ _ c total Lp Le HF) as (c1 & fulls & cur & Hs & _).
    exact (addStream_big_throw n s total c c1 Hs H2 H3).
  Qed.

  Lemma stream_hangs s total n : 2 ^ 32 <= total -> total mod 2 ^ 32 < 2 ^ 31 -> total < 2 ^ 64 ->
    total mod 2 ^ 32 <= lenN s -> addStream n s total c = OutOfFuel.
  Proof using Hh Lp Le HA H0 H1.
    intros H2 H3 H4 H5. destruct Hh as (Hp & Hl & Hn).
    pose proof (reach_fed h Hh k pw es xs fuel c0 c Lp Le HA H0 H1) as HF.
    destruct (addData_start_ok h Hp Hl Hn _ _ _ _ _ c total Lp Le HF) as (c1 & fulls & cur & Hs & HR & Hcat & _).
    unfold addStream. rewrite Hs. cbn [bind].
    eapply (loop_hang h Hh k _ (keys_start h Hp Hl Hn _ _ Lp Le) n s total 0 fulls cur _ c1 H4);
      rewrite ?N.sub_0_r; auto; try exact HR; try apply N.le_0_l.
    rewrite <- Hcat, lenN_app. lia.
  Qed.

  Lemma stream_short s total n : 2 ^ 32 <= total -> total mod 2 ^ 32 < 2 ^ 31 -> total < 2 ^ 64 ->
    lenN s < total mod 2 ^ 32 -> (length s + 2 <= n)%nat -> addStream n s total c = Throw RuntimeError.
  Proof using Hh Lp Le HA H0 H1.
    intros H2 H3 H4 H5 H6. destruct Hh as (Hp & Hl & Hn).
    pose proof (reach_fed h Hh k pw es xs fuel c0 c Lp Le HA H0 H1) as HF.
    destruct (addData_start_ok h Hp Hl Hn _ _ _ _ _ c total Lp Le HF) as (c1 & fulls & cur & Hs & HR & Hcat & _).
    unfold addStream. rewrite Hs. cbn [bind].
    eapply (loop_short h Hh k _ (keys_start h Hp Hl Hn _ _ Lp Le) n s total 0 fulls cur _ c1 H4);
      rewrite ?N.sub_0_r; auto; try exact HR; try apply N.le_0_l.
    - rewrite <- Hcat, lenN_app. lia.
    - destruct (lenN cur =? hsize h); lia.
  Qed.

  (** ** the size reported: minus what is still free in the last block *)
  Lemma size_exact : getDataSize c = match xs with [] => 0 | _ => minus_free (hsize h) (lenN (concat (map chunk_data xs))) end.
  Proof using Hh Lp Le HA H0 H1.
    pose proof (reach_fed h Hh k pw es xs fuel c0 c Lp Le HA H0 H1) as HF.
    destruct Hh as (Hp & Hl & Hn).
    destruct (fed_sizes h Hp Hl Hn _ _ _ _ _ _ HF) as (_ & HS & HC).
    destruct xs as [|x r]; [rewrite HS, HC; reflexivity|].
    rewrite HS. clear HS HC H1 HA. revert HF. generalize (concat (map chunk_data (x :: r))). intros D (fulls & cur & HR & Hcat & Hlast).
    rewrite (c_free_Rep h Hp Hl Hn _ _ _ _ _ _ HR).
    destruct HR as (Hfl & _ & (b & _ & HB) & _). pose proof (block_ok_le h Hp Hl Hn _ _ _ _ HB) as Lc.
    assert (exists q, lenN (concat fulls) = hsize h * q) as [q Hq].
    { clear - Hfl. induction Hfl as [|y l Hy _ [q IH]]; [exists 0; rewrite N.mul_0_r; reflexivity|].
      exists (q + 1). cbn [concat]. rewrite lenN_app, IH, Hy. lia. }
    assert (HD : lenN D = hsize h * q + lenN cur) by (rewrite <- Hcat, lenN_app, Hq; reflexivity).
    unfold minus_free, blocks_used, sub64, two64. change (2 ^ 64) with 18446744073709551616. f_equal.
    destruct (N.eq_dec (lenN cur) 0) as [Hz|Hz].
    - apply lenN_0 in Hz. pose proof (Hlast Hz) as HDz. rewrite HDz, Hz. change (lenN (@nil byte)) with 0.
      rewrite N.div_small by lia. lia.
    - rewrite HD.
      replace ((hsize h * q + lenN cur + hsize h - 1) / hsize h) with (q + 1); [lia|].
      apply N.div_unique with (r := lenN cur - 1); lia.
  Qed.
End Calls.
