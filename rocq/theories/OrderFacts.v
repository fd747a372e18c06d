(** Lemmas about machines that keep the bytes of numbers in either order: numbers, chain hashes,
    encrypted blocks, random bytes. *)
From Coq Require Import Strings.String.
From Verif Require Import Base BaseFacts BytesModel BytesSpec BytesFacts BytesFacts2 PwModel PwSpec CipherModel ChModel ChSpec ChFacts ChFacts2
  HeaderModel HeaderSpec HeaderFacts HeaderFacts2 FileModel MiscModel OrderModel OrderSpec.
Open Scope N_scope.
Open Scope list_scope.
Ltac Zify.zify_post_hook ::= Z.div_mod_to_equations.

(** ** numbers *)
Lemma mem_loop o v : rev (mem8 o v) = u64_on o v.
Proof. unfold u64_on. rewrite u64_be8. destruct o; cbn [mem8]; [apply rev_involutive|reflexivity]. Qed.
Lemma u64_on_len o v : lenN (u64_on o v) = 8.
Proof. destruct o; unfold u64_on; [|unfold lenN; rewrite rev_length; fold (lenN (u64 v))]; apply u64_len. Qed.
Lemma fromLong_on_true o v : fromLong_on o v true = Ret (mkBytes (u64_on o v) 8).
Proof.
  unfold fromLong_on, newBytes. cbn [Z.ltb Z.compare bind]. change (Z.to_N 8) with 8. rewrite mem_loop.
  apply fromLong_loop_zeros; [|rewrite u64_on_len; lia]. intros E. apply (f_equal lenN) in E. rewrite u64_on_len in E. discriminate.
Qed.
Lemma fromLong_on_false o v : fromLong_on o v false = Ret (mkBytes (strip (u64_on o v)) 8).
Proof.
  unfold fromLong_on, newBytes. cbn [Z.ltb Z.compare bind]. change (Z.to_N 8) with 8. rewrite mem_loop.
  apply fromLong_loop_strip. rewrite u64_on_len. lia.
Qed.
Lemma zeros_val n l : be_val (repeat x00 n ++ l) = be_val l.
Proof. induction n as [|n IH]; [reflexivity|]. cbn [repeat app]. change (x00 :: ?x) with ([x00] ++ x). rewrite be_val_app, IH. change (be_val [x00]) with 0. lia. Qed.
Lemma val_zeros n l : be_val (l ++ repeat x00 n) = be_val l * 256 ^ N.of_nat n.
Proof.
  rewrite be_val_app. unfold lenN. rewrite repeat_length. replace (be_val (repeat x00 n)) with 0; [lia|].
  rewrite <- (app_nil_r (repeat x00 n)), zeros_val. reflexivity.
Qed.
Lemma rev_repeat {A} (x : A) n : rev (repeat x n) = repeat x n.
Proof. induction n as [|n IH]; [reflexivity|]. cbn [repeat rev]. rewrite IH. clear IH. induction n as [|n IH]; [reflexivity|]. cbn [repeat app]. rewrite IH. reflexivity. Qed.
Lemma toLong_on_val o b : getLen b <= 8 -> toLong_on o b = Ret (number_on o (bdata b)).
Proof.
  intros L. unfold toLong_on. destruct (N.ltb_spec 8 (getLen b)); [lia|]. f_equal. unfold getLen in L.
  destruct o; cbn [val8 number_on].
  - rewrite <- (rev_involutive (_ ++ _)), le_val_rev, rev_app_distr, rev_involutive, rev_repeat. apply zeros_val.
  - rewrite le_val_rev, val_zeros. f_equal. f_equal. unfold lenN in *. lia.
Qed.
Lemma toLong_on_long o b : 8 < getLen b -> toLong_on o b = Throw LengthError.
Proof. intros L. unfold toLong_on. destruct (N.ltb_spec 8 (getLen b)); [reflexivity|lia]. Qed.
Lemma u64_val v : v < two64 -> be_val (u64 v) = v.
Proof. rewrite u64_be8. apply be8_val. Qed.
Lemma number_own o v : v < two64 -> number_on o (u64_on o v) = v.
Proof.
  intros Hv. unfold number_on. rewrite u64_on_len. destruct o; cbn [u64_on].
  - apply u64_val. exact Hv.
  - rewrite rev_involutive, u64_val by exact Hv. change (256 ^ (8 - 8)) with 1. lia.
Qed.
Lemma number_other o o' v : o <> o' -> number_on o' (u64_on o v) = swap v.
Proof.
  intros Ho. unfold number_on, swap. rewrite u64_on_len. destruct o, o'; try congruence; cbn [u64_on]; [|reflexivity].
  change (256 ^ (8 - 8)) with 1. lia.
Qed.
Lemma strip_split l : exists n, l = repeat x00 n ++ strip l.
Proof.
  induction l as [|x l [n IH]]; [exists O; reflexivity|]. cbn [strip]. destruct (N.eqb_spec (b2n x) 0) as [E|].
  - exists (S n). cbn [repeat app]. rewrite <- IH. f_equal. apply b2n_inj. rewrite E. reflexivity.
  - exists O. reflexivity.
Qed.
Lemma number_strip o l : lenN l = 8 -> number_on o (strip l) = number_on o l.
Proof.
  intros L. destruct o; cbn [number_on]; [apply strip_val|]. destruct (strip_split l) as [n E].
  assert (N.of_nat n + lenN (strip l) = 8) as Hn. { transitivity (lenN (repeat x00 n ++ strip l)); [|rewrite <- E; exact L]. rewrite lenN_app. unfold lenN at 2. rewrite repeat_length. reflexivity. }
  rewrite L. change (256 ^ (8 - 8)) with 1. transitivity (be_val (rev (repeat x00 n ++ strip l)) * 1); [|rewrite <- E; reflexivity].
  rewrite rev_app_distr, rev_repeat, val_zeros. replace (8 - lenN (strip l)) with (N.of_nat n) by lia. lia.
Qed.
Lemma strip8 o v : lenN (strip (u64_on o v)) <= 8.
Proof. pose proof (strip_len (u64_on o v)). rewrite u64_on_len in *. assumption. Qed.
Lemma numbers_kept o v z : v < two64 -> exists b, fromLong_on o v z = Ret b /\ toLong_on o b = Ret v.
Proof.
  intros Hv. destruct z.
  - rewrite fromLong_on_true. eexists. split; [reflexivity|]. rewrite toLong_on_val; cbn [bdata]; [rewrite number_own by exact Hv; reflexivity|].
    unfold getLen. cbn [bdata]. rewrite u64_on_len. lia.
  - rewrite fromLong_on_false. eexists. split; [reflexivity|]. rewrite toLong_on_val; cbn [bdata]; [rewrite number_strip, number_own; [reflexivity|exact Hv|apply u64_on_len]|].
    unfold getLen. cbn [bdata]. apply strip8.
Qed.
Lemma numbers_sent o o' v z : o <> o' -> v < two64 -> exists b, fromLong_on o v z = Ret b /\ toLong_on o' b = Ret (swap v).
Proof.
  intros Ho Hv. destruct z.
  - rewrite fromLong_on_true. eexists. split; [reflexivity|]. rewrite toLong_on_val; cbn [bdata]; [rewrite (number_other o o' v Ho); reflexivity|].
    unfold getLen. cbn [bdata]. rewrite u64_on_len. lia.
  - rewrite fromLong_on_false. eexists. split; [reflexivity|]. rewrite toLong_on_val; cbn [bdata]; [rewrite number_strip, (number_other o o' v Ho); [reflexivity|apply u64_on_len]|].
    unfold getLen. cbn [bdata]. apply strip8.
Qed.
Lemma swap_lt v : swap v < two64.
Proof.
  unfold swap. pose proof (be_val_lt (rev (u64 v))) as H. replace (lenN (rev (u64 v))) with 8 in H; [exact H|].
  symmetry. exact (u64_on_len Big v).
Qed.
Lemma swap_swap v : v < two64 -> swap (swap v) = v.
Proof.
  intros Hv. assert (u64 (swap v) = rev (u64 v)) as E.
  { apply be_val_inj; [rewrite u64_len; symmetry; exact (u64_on_len Big v)|]. rewrite u64_val by apply swap_lt. reflexivity. }
  unfold swap at 1. rewrite E, rev_involutive. apply u64_val. exact Hv.
Qed.
Lemma swap_moves v : v < 4311744512 -> swap v = v -> v = 0.
Proof.
  intros Hv E. assert (u64 v = rev (u64 v)) as P.
  { apply be_val_inj; [rewrite u64_len; symmetry; exact (u64_on_len Big v)|]. change (be_val (rev (u64 v))) with (swap v). rewrite E. apply u64_val.
    unfold two64. lia. }
  unfold u64 in P. cbn [big_endian app rev] in P. injection P as P0 P1 P2 P3 _ _ _ _.
  apply (f_equal b2n) in P0. apply (f_equal b2n) in P1. apply (f_equal b2n) in P2. apply (f_equal b2n) in P3.
  rewrite !b2n_n2b in P0, P1, P2, P3. rewrite !N.div_div in P0 by discriminate. rewrite !N.div_div in P1 by discriminate.
  rewrite !N.div_div in P2 by discriminate. rewrite !N.div_div in P3 by discriminate. clear E.
  change ((v / 72057594037927936) mod 256 = v mod 256) in P0. change ((v / 281474976710656) mod 256 = (v / 256) mod 256) in P1.
  change ((v / 1099511627776) mod 256 = (v / 65536) mod 256) in P2. change ((v / 4294967296) mod 256 = (v / 16777216) mod 256) in P3.
  rewrite (N.div_small v 72057594037927936) in P0 by lia. rewrite (N.div_small v 281474976710656) in P1 by lia.
  rewrite (N.div_small v 1099511627776) in P2 by lia. change (0 mod 256) with 0 in *.
  assert (v mod 65536 = 0) as Q1 by (clear P2 P3; lia). assert (v mod 16777216 = 0) as Q2 by (clear P0 P1 P3; lia). clear P0 P1 P2 Q1.
  replace 4294967296 with (16777216 * 256) in P3 by reflexivity. rewrite <- N.div_div in P3 by discriminate.
  pose proof (N.div_mod v 16777216 ltac:(discriminate)) as D. rewrite Q2 in D. set (w := v / 16777216) in *. clearbody w. clear Q2. lia.
Qed.

(** ** the machine of the other Model files *)
Lemma bind_ext {A B} (m : outcome A) (f g : A -> outcome B) : (forall a, f a = g a) -> bind m f = bind m g.
Proof. intros E. destruct m; cbn [bind]; auto. Qed.
Lemma dbind_ext {A B} (m : dres A) (f g : A -> dres B) : (forall a, f a = g a) -> dbind m f = dbind m g.
Proof. intros E. destruct m as [[|]| | |]; cbn [dbind]; auto. Qed.
Lemma fromLong_little v z : fromLong_on Little v z = fromLong v z.
Proof. unfold fromLong_on, mem8. rewrite rev_involutive. reflexivity. Qed.
Lemma toLong_little b : toLong_on Little b = toLong b.
Proof.
  destruct (N.le_gt_cases (getLen b) 8); [|rewrite toLong_on_long, toLong_long by assumption; reflexivity].
  rewrite toLong_on_val, toLong_val by assumption. reflexivity.
Qed.
Ltac exts := repeat match goal with
  | |- bind _ _ = bind _ _ => apply bind_ext; intros
  | |- dbind _ _ = dbind _ _ => apply dbind_ext; intros
  | |- (let '(_, _) := ?x in _) = _ => destruct x
  end.
Lemma partNum_little c n : partNum_on Little c n = partNum c n.
Proof. unfold partNum_on, partNum. apply bind_ext. intros. apply toLong_little. Qed.
Lemma perform_b_little h clk c data t : performChainHash_b_on Little h clk c data t = performChainHash_b h clk c data t.
Proof.
  unfold performChainHash_b_on, performChainHash_b. apply bind_ext. intros m.
  destruct m as [|p]; [reflexivity|]. destruct p as [p|p|]; [| |reflexivity]; (destruct p as [p|p|]; [| |]); try reflexivity; try (destruct p as [p|p|]; try reflexivity);
  rewrite ?partNum_little; do 4 (exts; rewrite ?partNum_little); reflexivity.
Qed.
Lemma perform_s_little h clk c data t : performChainHash_s_on Little h clk c data t = performChainHash_s h clk c data t.
Proof.
  unfold performChainHash_s_on, performChainHash_s. apply bind_ext. intros m.
  destruct m as [|p]; [reflexivity|]. destruct p as [p|p|]; [| |reflexivity]; (destruct p as [p|p|]; [| |]); try reflexivity; try (destruct p as [p|p|]; try reflexivity);
  rewrite ?partNum_little; do 4 (exts; rewrite ?partNum_little); reflexivity.
Qed.

(** ** chain hashes *)
Section Usable.
Variable c : chainhash.
Variable mode : N.
Variable d : chd.
Variable ps : list bytes.
Hypothesis Hval : ch_val c = true.
Hypothesis Hmode : ch_mode c = Some mode.
Hypothesis Hdata : ch_data c = Some d.
Hypothesis Hm : 1 <= mode <= 5.
Hypothesis Hr : rep mode ps d.
Hypothesis Hc : lenN ps = lenN (layout mode).

Lemma num_big j nm l p : nth_error (layout mode) j = Some (str nm, l) -> nth_error ps j = Some p -> lenN p = 8 ->
  partNum_on Big c nm = Ret (be_val (rev p)).
Proof using Hval Hdata Hm Hr Hc.
  intros Hn Hj H8. unfold partNum_on. rewrite (u_part c d Hval Hdata).
  destruct (get_bytes mode ps d j _ l p Hm Hr Hn Hj) as (b & -> & <-).
  cbn [bind]. rewrite toLong_on_val by (unfold getLen; lia). unfold number_on. rewrite H8. change (256 ^ (8 - 8)) with 1. rewrite N.mul_1_r. reflexivity.
Qed.
Lemma perform_big h clk :
  (forall pw timeout, performChainHash_s_on Big h clk c pw timeout = call_string h clk (described mode (flip mode (concat ps))) pw (ch_iters c) timeout) /\
  (forall data timeout, performChainHash_b_on Big h clk c data timeout = call_bytes h clk (described mode (flip mode (concat ps))) data (ch_iters c) timeout).
Proof using Hval Hmode Hdata Hm Hr Hc.
  unfold performChainHash_s_on, performChainHash_b_on. rewrite (u_getMode c mode Hval Hmode). cbn [bind].
  pose proof (complete_parts mode ps d Hm Hr Hc) as Hps. pose proof (complete_len mode ps d Hm Hr Hc) as (H1 & H3 & H4 & H5).
  pose proof num_big as Un. pose proof (u_bytes c mode d ps Hval Hdata Hm Hr) as Ub. rewrite Hps in Un, Ub. pose proof (u_getIters c Hval) as Ui.
  revert Un Ub H1 H3 H4 H5. pattern mode. apply modes5; [exact Hm|..]; intros Un Ub H1 H3 H4 H5; cbn [layout ChSpec.cut] in Un, Ub; cbn [described flip].
  - rewrite Ui. split; reflexivity.
  - destruct (Ub 0%nat "S"%string None _ eq_refl eq_refl) as (b & -> & E). cbn [bind]. rewrite E, Ui. split; reflexivity.
  - specialize (H3 eq_refl). rewrite (Un 0%nat "SN"%string _ _ eq_refl eq_refl) by (rewrite lenN_takeN; lia). cbn [bind]. rewrite Ui.
    cbn [bind]. rewrite takeN_all by lia. split; reflexivity.
  - specialize (H4 eq_refl). rewrite (Un 0%nat "SN"%string _ _ eq_refl eq_refl) by (rewrite lenN_takeN; lia). cbn [bind].
    destruct (Ub 1%nat "S"%string None _ eq_refl eq_refl) as (b & -> & E). cbn [bind]. rewrite E, Ui.
    assert (lenN (rev (takeN 8 (concat ps))) = 8) as L by (unfold lenN at 1; rewrite rev_length; fold (lenN (takeN 8 (concat ps))); rewrite lenN_takeN; lia).
    set (r := rev (takeN 8 (concat ps))) in *. set (t := dropN 8 (concat ps)) in *.
    assert (takeN 8 (r ++ t) = r) as -> by (rewrite <- L; apply takeN_app_exact).
    assert (dropN 8 (r ++ t) = t) as -> by (rewrite <- L; apply dropN_app_exact). split; reflexivity.
  - specialize (H5 eq_refl). set (x := concat ps) in *.
    rewrite (Un 0%nat "SN"%string _ _ eq_refl eq_refl) by (rewrite lenN_takeN; lia). cbn [bind].
    rewrite (Un 1%nat "A"%string _ _ eq_refl eq_refl) by (rewrite lenN_takeN, lenN_dropN; lia). cbn [bind].
    rewrite (Un 2%nat "B"%string _ _ eq_refl eq_refl) by (rewrite lenN_takeN, !lenN_dropN; lia). cbn [bind].
    rewrite (Un 3%nat "C"%string _ _ eq_refl eq_refl) by (rewrite lenN_takeN, !lenN_dropN; lia). cbn [bind].
    rewrite Ui. cbn [bind]. rewrite !dropN_dropN. change (8 + 8) with 16. change (8 + 16) with 24.
    rewrite (takeN_all 8 (dropN 24 x)) by (rewrite lenN_dropN; lia).
    assert (forall l : bytes, lenN l = 8 -> lenN (rev l) = 8) as Lr by (intros l Hl; unfold lenN in *; rewrite rev_length; exact Hl).
    assert (lenN (takeN 8 x) = 8 /\ lenN (takeN 8 (dropN 8 x)) = 8 /\ lenN (takeN 8 (dropN 16 x)) = 8 /\ lenN (dropN 24 x) = 8) as (L1 & L2 & L3 & L4)
      by (rewrite !lenN_takeN, !lenN_dropN; lia).
    apply Lr in L1, L2, L3, L4.
    set (r1 := rev (takeN 8 x)) in *. set (r2 := rev (takeN 8 (dropN 8 x))) in *. set (r3 := rev (takeN 8 (dropN 16 x))) in *. set (r4 := rev (dropN 24 x)) in *.
    assert (takeN 8 (r1 ++ r2 ++ r3 ++ r4) = r1) as -> by (rewrite <- L1; apply takeN_app_exact).
    assert (dropN 8 (r1 ++ r2 ++ r3 ++ r4) = r2 ++ r3 ++ r4) as E8 by (rewrite <- L1; apply dropN_app_exact).
    assert (dropN 8 (r2 ++ r3 ++ r4) = r3 ++ r4) as E16 by (rewrite <- L2; apply dropN_app_exact).
    assert (dropN 8 (r3 ++ r4) = r4) as E24 by (rewrite <- L3; apply dropN_app_exact).
    assert (dropN 16 (r1 ++ r2 ++ r3 ++ r4) = r3 ++ r4) as -> by (change 16 with (8 + 8); rewrite <- dropN_dropN, E8; exact E16).
    assert (dropN 24 (r1 ++ r2 ++ r3 ++ r4) = r4) as -> by (change 24 with (8 + (8 + 8)); rewrite <- !dropN_dropN, E8, E16; exact E24).
    rewrite E8. assert (takeN 8 (r2 ++ r3 ++ r4) = r2) as -> by (rewrite <- L2; apply takeN_app_exact).
    assert (takeN 8 (r3 ++ r4) = r3) as -> by (rewrite <- L3; apply takeN_app_exact). split; reflexivity.
Qed.
End Usable.
Lemma perform_on bd o c h clk : built bd c -> ch_val c = true ->
  exists mode d, ch_mode c = Some mode /\ ch_data c = Some d /\
    (forall pw timeout, performChainHash_s_on o h clk c pw timeout =
       call_string h clk (described_on o mode (bdata (cd_block d))) pw (ch_iters c) timeout) /\
    (forall data timeout, performChainHash_b_on o h clk c data timeout =
       call_bytes h clk (described_on o mode (bdata (cd_block d))) data (ch_iters c) timeout).
Proof.
  intros Hb Hv. destruct o.
  - destruct (perform_dispatch bd c h clk Hb Hv) as (mode & d & E1 & E2 & E3 & E4 & _). exists mode, d. cbn [described_on].
    split; [exact E1|]. split; [exact E2|]. split; intros; [rewrite perform_s_little; apply E3|rewrite perform_b_little; apply E4].
  - destruct (usable_rep c (built_inv bd c Hb) Hv) as (mode & d & ps & E1 & E2 & H1 & Hr & Hc & Hi).
    exists mode, d. destruct (rep_block _ _ _ Hr) as [-> _]. cbn [bdata described_on].
    destruct (perform_big c mode d ps Hv E1 E2 H1 Hr Hc h clk) as [A B]. auto.
Qed.
Lemma swap_bound : swap 4311744512 = 4311744512 /\ forall v, v < 4311744512 -> swap v = v -> v = 0.
Proof. split; [vm_compute; reflexivity|exact swap_moves]. Qed.
