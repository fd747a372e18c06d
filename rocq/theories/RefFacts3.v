(** The API is the reference machine: the cipher on data of any length. *)
From Coq Require Import Strings.Byte.
From Verif Require Import Base BaseFacts BytesModel BytesFacts CipherModel CipherSpec CipherFacts CipherFacts2 HeaderModel ApiModel ApiFacts ApiFacts10 RefSpec2.
Ltac Zify.zify_post_hook ::= Z.div_mod_to_equations.

(** ** more rounds change nothing *)
Lemma data_loop_fuel f1 : forall f2 data written c, (f1 <= f2)%nat ->
  addData_loop f1 data written c = OutOfFuel \/ addData_loop f2 data written c = addData_loop f1 data written c.
Proof.
  induction f1 as [|f1 IH]; intros f2 data written c L; [left; reflexivity|]. destruct f2 as [|f2]; [lia|]. cbn [addData_loop].
  destruct (copySubBytes _ _ data) as [part| | |]; cbn [bind]; try (right; reflexivity). destruct (c_cur c) as [b|]; [|right; reflexivity].
  destruct (blk_addData _ _ b) as [b'| | |]; cbn [bind]; try (right; reflexivity). destruct (_ <? getLen data); [|right; reflexivity].
  destruct (addBlock _) as [[x c']| | |]; cbn [bind]; try (right; reflexivity). apply IH. lia.
Qed.
Lemma stream_loop_fuel f1 : forall f2 s total written c, (f1 <= f2)%nat ->
  addStream_loop f1 s total written c = OutOfFuel \/ addStream_loop f2 s total written c = addStream_loop f1 s total written c.
Proof.
  induction f1 as [|f1 IH]; intros f2 s total written c L; [left; reflexivity|]. destruct f2 as [|f2]; [lia|]. cbn [addStream_loop].
  destruct (newBytes _) as [part| | |]; cbn [bind]; try (right; reflexivity). destruct (readExact _ s) as [[got s']|]; [|right; reflexivity].
  cbv zeta. destruct (c_cur c) as [b|]; [|right; reflexivity].
  destruct (blk_addData _ _ b) as [b'| | |]; cbn [bind]; try (right; reflexivity). destruct (_ <? total); [|right; reflexivity].
  destruct (addBlock _) as [[x c']| | |]; cbn [bind]; try (right; reflexivity). apply IH. lia.
Qed.
Lemma via_data_fuel h f1 f2 k key salt data : (f1 <= f2)%nat -> via_data h f1 k key salt data = OutOfFuel \/ via_data h f2 k key salt data = via_data h f1 k key salt data.
Proof.
  intros L. unfold via_data, addData. destruct (new_chain k h key salt) as [c| | |]; cbn [bind]; try (right; reflexivity).
  destruct (addData_start c (getLen data)) as [c1| | |]; cbn [bind]; try (right; reflexivity).
  destruct (data_loop_fuel f1 f2 data 0 c1 L) as [->| ->]; [left|right]; reflexivity.
Qed.
Lemma via_stream_fuel h f1 f2 k key salt s total : (f1 <= f2)%nat ->
  via_stream h f1 k key salt s total = OutOfFuel \/ via_stream h f2 k key salt s total = via_stream h f1 k key salt s total.
Proof.
  intros L. unfold via_stream, addStream. destruct (new_chain k h key salt) as [c| | |]; cbn [bind]; try (right; reflexivity).
  destruct (addData_start c total) as [c1| | |]; cbn [bind]; try (right; reflexivity).
  destruct (stream_loop_fuel f1 f2 s total 0 c1 L) as [->| ->]; [left|right]; reflexivity.
Qed.

Section One.
  Variable h : hashfn.
  Hypothesis Hh : hash_ok h.
  (** ** a stream that is long enough for the low 32 bits *)
  Lemma stream_loop_hang k st0 fuel : keys_ok h st0 -> forall s total w fulls cur M c,
    total < two64 -> w <= total -> 4294967296 <= total - w -> (total - w) mod 4294967296 < 2147483648 -> (total - w) mod 4294967296 <= lenN s ->
    Rep h k st0 fulls cur M c -> lenN (concat fulls) + lenN cur + (total - w) <= M ->
    addStream_loop fuel s total w c = OutOfFuel.
  Proof.
    pose proof Hh as (Hp & Hl & Hn). intros Hk0. induction fuel as [|fuel IH]; intros s total w fulls cur M c Ht Hw Hbig Hlow Hs HR HM; [reflexivity|].
    cbn [addStream_loop]. unfold piece. rewrite (c_free_Rep h Hp Hl Hn _ _ _ _ _ _ HR). rewrite sub64_le by (unfold two64 in *; lia).
    set (rem := total - w) in *. destruct (to_int32_cases rem) as [[Hneg ?]|[Heq _]]; [lia|]. rewrite Heq.
    set (m := N.min (hsize h - lenN cur) (rem mod 4294967296)).
    assert (Hcur : lenN cur <= hsize h). { destruct HR as (_ & _ & (b & _ & HB) & _). eapply block_ok_le; eassumption. }
    replace (Z.min (Z.of_N (hsize h - lenN cur)) (Z.of_N (rem mod 4294967296))) with (Z.of_N m) by (subst m; lia).
    unfold newBytes. destruct (Z.ltb_spec (Z.of_N m) 0); [lia|]. cbn [bind bmax]. rewrite N2Z.id.
    unfold readExact. destruct (N.leb_spec m (lenN s)) as [Lm|Lm]; [|subst m; lia].
    assert (Htl : lenN (takeN m s) = m) by (rewrite lenN_takeN; lia).
    unfold getLen. cbn [bdata]. rewrite Htl. unfold w64. rewrite N.mod_small by (unfold two64 in *; subst m; lia).
    pose proof HR as (_ & Hkd & (b & Hb & HB) & _). rewrite Hb, Hkd.
    destruct (blk_addData_ok h Hp Hl Hn k _ cur b (mkBytes (takeN m s) m) HB) as (b' & Hb' & HB').
    { unfold getLen. cbn [bdata]. rewrite Htl. subst m. lia. }
    rewrite Hb'. cbn [bind]. cbn [bdata] in HB'. pose proof (Rep_set_cur h Hp Hl Hn _ _ _ _ _ _ _ _ HR HB') as HR'.
    assert (Hcl : lenN (cur ++ takeN m s) = lenN cur + m) by (rewrite lenN_app, Htl; reflexivity).
    destruct (N.ltb_spec (w + m) total) as [_|?]; [|subst m; lia].
    destruct (N.eq_dec (lenN cur + m) (hsize h)) as [Hfull|Hnf].
    - destruct (addBlock_full h Hp Hl Hn k st0 fulls (cur ++ takeN m s) M (set_cur c b') Hk0 HR') as (c2 & Hc2 & HR2).
      { rewrite Hcl. exact Hfull. }
      { subst m; lia. }
      rewrite Hc2. cbn [bind]. apply (IH _ _ _ (fulls ++ [cur ++ takeN m s]) [] M c2); auto; try (rewrite lenN_dropN); try (subst m rem; lia).
      rewrite concat_app, lenN_app. cbn [concat]. rewrite app_nil_r, Hcl, lenN_nil. subst m rem; lia.
    - rewrite (addBlock_notfull h Hp Hl Hn _ _ _ _ _ _ HR') by lia. cbn [bind].
      apply (IH _ _ _ fulls (cur ++ takeN m s) M (set_cur c b')); auto; try (rewrite lenN_dropN); try (subst m rem; lia).
  Qed.
  (** ** a stream that is too short for the low 32 bits *)
  Lemma stream_loop_short k st0 fuel : keys_ok h st0 -> forall s total w fulls cur M c,
    total < two64 -> w <= total -> (total - w) mod 4294967296 < 2147483648 -> lenN s < (total - w) mod 4294967296 ->
    Rep h k st0 fulls cur M c -> lenN (concat fulls) + lenN cur + (total - w) <= M ->
    (N.to_nat (lenN s) + (if (lenN cur =? hsize h)%N then 2 else 1) <= fuel)%nat ->
    addStream_loop fuel s total w c = Throw RuntimeError.
  Proof.
    pose proof Hh as (Hp & Hl & Hn). intros Hk0. induction fuel as [|fuel IH]; intros s total w fulls cur M c Ht Hw Hlow Hs HR HM Hfu.
    { destruct (lenN cur =? hsize h); lia. }
    cbn [addStream_loop]. unfold piece. rewrite (c_free_Rep h Hp Hl Hn _ _ _ _ _ _ HR). rewrite sub64_le by (unfold two64 in *; lia).
    set (rem := total - w) in *. destruct (to_int32_cases rem) as [[Hneg ?]|[Heq _]]; [lia|]. rewrite Heq.
    set (m := N.min (hsize h - lenN cur) (rem mod 4294967296)).
    assert (Hcur : lenN cur <= hsize h). { destruct HR as (_ & _ & (b & _ & HB) & _). eapply block_ok_le; eassumption. }
    replace (Z.min (Z.of_N (hsize h - lenN cur)) (Z.of_N (rem mod 4294967296))) with (Z.of_N m) by (subst m; lia).
    unfold newBytes. destruct (Z.ltb_spec (Z.of_N m) 0); [lia|]. cbn [bind bmax]. rewrite N2Z.id.
    unfold readExact. destruct (N.leb_spec m (lenN s)) as [Lm|Lm]; [|reflexivity].
    assert (Htl : lenN (takeN m s) = m) by (rewrite lenN_takeN; lia).
    unfold getLen. cbn [bdata]. rewrite Htl. unfold w64. rewrite N.mod_small by (unfold two64 in *; subst m rem; lia).
    pose proof HR as (_ & Hkd & (b & Hb & HB) & _). rewrite Hb, Hkd.
    destruct (blk_addData_ok h Hp Hl Hn k _ cur b (mkBytes (takeN m s) m) HB) as (b' & Hb' & HB').
    { unfold getLen. cbn [bdata]. rewrite Htl. subst m. lia. }
    rewrite Hb'. cbn [bind]. cbn [bdata] in HB'. pose proof (Rep_set_cur h Hp Hl Hn _ _ _ _ _ _ _ _ HR HB') as HR'.
    assert (Hcl : lenN (cur ++ takeN m s) = lenN cur + m) by (rewrite lenN_app, Htl; reflexivity).
    assert (rem mod 4294967296 <= rem) by (apply N.mod_le; discriminate).
    destruct (N.ltb_spec (w + m) total) as [_|?]; [|subst rem; lia].
    assert (m = hsize h - lenN cur) as Em by (subst m; lia).
    destruct (addBlock_full h Hp Hl Hn k st0 fulls (cur ++ takeN m s) M (set_cur c b') Hk0 HR') as (c2 & Hc2 & HR2).
    { rewrite Hcl. lia. }
    { lia. }
    assert ((total - (w + m)) mod 4294967296 = rem mod 4294967296 - m) as Em2 by (clear - Lm Hs H0; subst rem; lia).
    rewrite Hc2. cbn [bind]. apply (IH _ _ _ (fulls ++ [cur ++ takeN m s]) [] M c2); auto; rewrite ?Em2, ?lenN_dropN; try lia.
    - rewrite concat_app, lenN_app. cbn [concat]. rewrite app_nil_r, Hcl, lenN_nil. subst rem; lia.
    - rewrite lenN_nil. destruct (N.eqb_spec 0 (hsize h)); [lia|]. destruct (N.eqb_spec (lenN cur) (hsize h)); lia.
  Qed.

  (** ** all lengths *)
  Variables (k : kind) (key salt : Bytes).
  Hypothesis Lk : getLen key = hsize h.
  Hypothesis Ls : getLen salt = hsize h.
  Lemma start_ok m : exists c c1 fulls cur, new_chain k h key salt = Ret c /\ Fed h k (bdata key) (bdata salt) false [] c /\ addData_start c m = Ret c1 /\
    Rep h k (kstart (hsize h) (bdata key) (bdata salt)) fulls cur m c1 /\ concat fulls ++ cur = [].
  Proof.
    pose proof Hh as (Hp & Hl & Hn). destruct (new_chain_ok h Hp Hl Hn k key salt Lk Ls) as (c & E & HF & Hres).
    assert (Fed h k (bdata key) (bdata salt) false [] c) as F by (cbn; auto).
    destruct (addData_start_ok h Hp Hl Hn k (bdata key) (bdata salt) false [] c m Lk Ls F) as (c1 & fulls & cur & E1 & R & C & _).
    exists c, c1, fulls, cur. rewrite lenN_nil in R. auto.
  Qed.
  Definition out (n : N) (fuel : nat) (r : outcome Bytes) (good : Prop) : Prop := (r = OutOfFuel /\ (fuel < N.to_nat n + 2)%nat) \/ good.
  Lemma data_small fuel data : getLen data < limit ->
    out (getLen data) fuel (via_data h fuel k key salt data) (exists r, via_data h fuel k key salt data = Ret r /\ bdata r = spec_k k (hfun h) (hsize h) (bdata key) (bdata salt) (bdata data)).
  Proof.
    intros L. unfold out. destruct (Nat.le_gt_cases (N.to_nat (getLen data) + 2) fuel) as [F|F].
    - right. apply (via_data_ok h Hh); assumption.
    - destruct (via_data_fuel h fuel (N.to_nat (getLen data) + 2) k key salt data ltac:(lia)) as [E|E]; [left; auto|right]. rewrite <- E. apply (via_data_ok h Hh); try assumption. lia.
  Qed.
  Lemma data_forever fuel data : getLen data < 2 ^ 63 -> forever (getLen data) = true -> via_data h fuel k key salt data = OutOfFuel.
  Proof.
    intros L F. unfold forever in F. rewrite andb_true_iff, N.leb_le, N.ltb_lt in F. unfold limit in F. destruct F as [F1 F2]. change (2 ^ 63) with 9223372036854775808 in L.
    destruct (start_ok 0) as (c & _ & _ & _ & E & Fd & _). unfold via_data. rewrite E. cbn [bind]. rewrite addData_cap.
    rewrite (addData_big_hang h k (bdata key) (bdata salt) false [] c fuel (bdata data) Hh Lk Ls Fd); try assumption; try reflexivity. unfold two64, getLen in *. lia.
  Qed.
  Lemma data_refused fuel data : getLen data < 2 ^ 63 -> limit <= getLen data -> forever (getLen data) = false ->
    via_data h fuel k key salt data = (if (fuel =? 0)%nat then OutOfFuel else Throw LengthError).
  Proof.
    intros L L2 F. unfold forever in F. rewrite andb_false_iff, N.leb_gt, N.ltb_ge in F. unfold limit in *. change (2 ^ 63) with 9223372036854775808 in L.
    assert (2147483648 <= lenN (bdata data) mod 4294967296) as X.
    { unfold getLen in *. destruct F as [F|F]; [|exact F]. rewrite N.mod_small; lia. }
    destruct fuel as [|fuel]; cbn [Nat.eqb].
    - destruct (start_ok (getLen data)) as (c & c1 & fulls & cur & E & Fd & E1 & _). unfold via_data, addData. rewrite E. cbn [bind]. rewrite E1. reflexivity.
    - destruct (start_ok 0) as (c & _ & _ & _ & E & Fd & _). unfold via_data. rewrite E. cbn [bind]. rewrite addData_cap.
      rewrite (addData_big_throw h k (bdata key) (bdata salt) false [] c fuel (bdata data) Hh Lk Ls Fd X); [reflexivity|]. unfold two64, getLen in *. lia.
  Qed.
  Lemma stream_small fuel s n : n < limit -> n <= lenN s ->
    out n fuel (via_stream h fuel k key salt s n) (exists r, via_stream h fuel k key salt s n = Ret r /\ bdata r = spec_k k (hfun h) (hsize h) (bdata key) (bdata salt) (takeN n s)).
  Proof.
    intros L L2. unfold out. destruct (Nat.le_gt_cases (N.to_nat n + 2) fuel) as [F|F].
    - right. apply (via_stream_ok h Hh); assumption.
    - destruct (via_stream_fuel h fuel (N.to_nat n + 2) k key salt s n ltac:(lia)) as [E|E]; [left; auto|right]. rewrite <- E. apply (via_stream_ok h Hh); try assumption. lia.
  Qed.
  Definition throws (r : outcome Bytes) : Prop := exists e, r = Throw e /\ e <> PointerThrown.
  Lemma stream_short fuel s n : n < limit -> lenN s < n -> out n fuel (via_stream h fuel k key salt s n) (throws (via_stream h fuel k key salt s n)).
  Proof.
    intros L L2. unfold out, throws. pose proof (via_stream_calm h Hh fuel k key salt s n) as C. destruct (via_stream h fuel k key salt s n) as [r|e|c|] eqn:E; cbn [calm] in C.
    - apply (via_stream_inv h Hh) in E; [lia|]. unfold limit in L. change (2 ^ 64) with 18446744073709551616. lia.
    - right. eauto.
    - destruct C.
    - left. split; [reflexivity|]. destruct (Nat.le_gt_cases (N.to_nat n + 2) fuel) as [F|F]; [|exact F]. destruct (via_stream_ends h Hh fuel k key salt s n L F E).
  Qed.
  Lemma stream_forever fuel s n : n < two64 -> forever n = true -> n mod 4294967296 <= lenN s -> via_stream h fuel k key salt s n = OutOfFuel.
  Proof.
    intros L F Lm. unfold forever in F. rewrite andb_true_iff, N.leb_le, N.ltb_lt in F. unfold limit in F. destruct F as [F1 F2]. pose proof Hh as (Hp & Hl & Hn).
    destruct (start_ok n) as (c & c1 & fulls & cur & E & Fd & E1 & R & C). unfold via_stream, addStream. rewrite E. cbn [bind]. rewrite E1. cbn [bind].
    rewrite (stream_loop_hang k _ fuel (keys_start h Hp Hl Hn _ _ Lk Ls) s n 0 fulls cur n c1); try rewrite N.sub_0_r; try assumption; try lia; [reflexivity|].
    rewrite <- lenN_app, C. apply N.le_refl.
  Qed.
  Lemma stream_big_short fuel s n : n < two64 -> forever n = true -> lenN s < n mod 4294967296 -> out n fuel (via_stream h fuel k key salt s n) (throws (via_stream h fuel k key salt s n)).
  Proof.
    intros L F Lm. unfold forever in F. rewrite andb_true_iff, N.leb_le, N.ltb_lt in F. unfold limit in F. destruct F as [F1 F2].
    pose proof Hh as (Hp & Hl & Hn). unfold out, throws. destruct (Nat.le_gt_cases (N.to_nat n + 2) fuel) as [Fu|Fu].
    - right. exists RuntimeError. split; [|discriminate].
      destruct (start_ok n) as (c & c1 & fulls & cur & E & Fd & E1 & R & C). unfold via_stream, addStream. rewrite E. cbn [bind]. rewrite E1. cbn [bind].
      apply app_eq_nil in C as [C ->]. assert (n mod 4294967296 <= n) by (apply N.mod_le; discriminate).
      rewrite (stream_loop_short k _ fuel (keys_start h Hp Hl Hn _ _ Lk Ls) s n 0 fulls [] n c1); rewrite ?N.sub_0_r; try assumption; try lia; [reflexivity| |].
      + rewrite C. apply N.le_refl.
      + destruct (_ =? _); lia.
    - destruct (via_stream_fuel h fuel (N.to_nat n + 2) k key salt s n ltac:(lia)) as [E|E]; [left; auto|right]. rewrite <- E.
      exists RuntimeError. split; [|discriminate].
      destruct (start_ok n) as (c & c1 & fulls & cur & Ec & Fd & E1 & R & C). unfold via_stream, addStream. rewrite Ec. cbn [bind]. rewrite E1. cbn [bind].
      apply app_eq_nil in C as [C ->]. assert (n mod 4294967296 <= n) by (apply N.mod_le; discriminate).
      rewrite (stream_loop_short k _ _ (keys_start h Hp Hl Hn _ _ Lk Ls) s n 0 fulls [] n c1); rewrite ?N.sub_0_r; try assumption; try lia; [reflexivity| |].
      + rewrite C. apply N.le_refl.
      + destruct (_ =? _); lia.
  Qed.
  Lemma stream_refused fuel s n : n < two64 -> limit <= n -> forever n = false -> via_stream h fuel k key salt s n = (if (fuel =? 0)%nat then OutOfFuel else Throw InvalidArgument).
  Proof.
    intros L L2 F. unfold forever in F. rewrite andb_false_iff, N.leb_gt, N.ltb_ge in F. unfold limit in *.
    assert (2147483648 <= n mod 4294967296) as X by (destruct F as [F|F]; [rewrite N.mod_small; lia|exact F]).
    destruct (start_ok n) as (c & c1 & fulls & cur & Ec & Fd & E1 & R & C). unfold via_stream, addStream. rewrite Ec. cbn [bind]. rewrite E1. cbn [bind].
    destruct fuel as [|fuel]; [reflexivity|]. cbn [addStream_loop Nat.eqb]. unfold piece. rewrite sub64_le by (unfold two64 in *; lia). rewrite N.sub_0_r.
    destruct (to_int32_cases n) as [[Hneg _]|[_ ?]]; [|lia]. rewrite Z.min_r by lia. unfold newBytes. destruct (Z.ltb_spec (to_int32 n) 0); [reflexivity|lia].
  Qed.
End One.
