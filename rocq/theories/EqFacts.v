(** Facts for [Properties_Eq]. *)
From Coq Require Import Lia.
From Verif Require Import Base BaseFacts BytesModel BytesSpec CipherModel PwModel PwSpec ChModel ChSpec ChFacts ChFacts2 EqModel.
Open Scope N_scope.
Open Scope list_scope.

Lemma eq_bytes a b : (eqBytes a b = true <-> bdata a = bdata b) /\ neqBytes a b = negb (eqBytes a b).
Proof.
  unfold eqBytes, neqBytes, getLen. destruct (N.eqb_spec (lenN (bdata a)) (lenN (bdata b))) as [E|E].
  - split; [apply eqb_bytes_spec|reflexivity].
  - split; [|reflexivity]. split; [discriminate|]. intros X. rewrite X in E. contradiction.
Qed.
Lemma eq_timed a b : eqTimed a b = true <-> fst a = fst b /\ bdata (snd a) = bdata (snd b).
Proof. unfold eqTimed. rewrite Bool.andb_true_iff, N.eqb_eq. rewrite (proj1 (eq_bytes (snd a) (snd b))). reflexivity. Qed.
Lemma eq_format a b : 1 <= a <= 5 -> 1 <= b <= 5 -> (format_eqb a b = true <-> a = b).
Proof.
  intros Ha Hb. pattern a. apply modes5; [exact Ha|..]; pattern b; (apply modes5; [exact Hb|..]); vm_compute; split; congruence.
Qed.
Lemma eq_data bd m1 ops1 m2 ops2 : 1 <= m1 <= 5 -> Forall cdop_ok ops1 -> 1 <= m2 <= 5 -> Forall cdop_ok ops2 ->
  let ps1 := spec_cd_run m1 [] ops1 in let ps2 := spec_cd_run m2 [] ops2 in
  (cd_eqb (cd_run bd (newChd m1) ops1) (cd_run bd (newChd m2) ops2) = true <->
   lenN ps1 = lenN (layout m1) /\ lenN ps2 = lenN (layout m2) /\ concat ps1 = concat ps2).
Proof.
  intros H1 O1 H2 O2 ps1 ps2. destruct (cd_refines bd m1 ops1 (AddPart (mkBytes [] 0)) H1 O1 I) as (B1 & _ & C1 & _). destruct (cd_refines bd m2 ops2 (AddPart (mkBytes [] 0)) H2 O2 I) as (B2 & _ & C2 & _).
  fold ps1 in B1, C1. fold ps2 in B2, C2. unfold cd_eqb. rewrite <- C1, <- C2, <- B1, <- B2, <- (proj1 (eq_bytes _ _)).
  destruct (cd_complete (cd_run bd (newChd m1) ops1)), (cd_complete (cd_run bd (newChd m2) ops2)); cbn [andb]; intuition congruence.
Qed.
(** a complete list of parts is determined by the bytes: only the last part can have any length *)
Lemma parts_unique ls : Forall (fun l => snd l <> None) (removelast ls) -> forall ps qs, prefix_ok ls ps -> prefix_ok ls qs -> length ps = length ls -> length qs = length ls -> concat ps = concat qs -> ps = qs.
Proof.
  induction ls as [|[nm l] ls IH]; intros F [|p ps] [|q qs] Hp Hq Lp Lq E; try discriminate; try reflexivity. cbn [length] in Lp, Lq. injection Lp as Lp. injection Lq as Lq. destruct Hp as [P1 P2], Hq as [Q1 Q2]. cbn [concat] in E.
  destruct ls as [|l' ls'].
  - destruct ps, qs; try discriminate. cbn [concat] in E. rewrite !app_nil_r in E. rewrite E. reflexivity.
  - cbn [removelast] in F. inversion F as [|? ? N1 F']; subst. cbn [snd] in N1. destruct l as [n|]; [|contradiction]. cbn [fits_part] in P1, Q1. apply N.eqb_eq in P1, Q1.
    assert (p = q) as ->. { apply (f_equal (takeN n)) in E. rewrite <- P1 in E at 1. rewrite takeN_app_exact in E. rewrite <- Q1 in E. rewrite takeN_app_exact in E. exact E. }
    apply app_inv_head in E. f_equal. exact (IH F' _ _ P2 Q2 Lp Lq E).
Qed.
Lemma eq_data_mode bd m ops1 ops2 : 1 <= m <= 5 -> Forall cdop_ok ops1 -> Forall cdop_ok ops2 ->
  let ps1 := spec_cd_run m [] ops1 in let ps2 := spec_cd_run m [] ops2 in
  (cd_eqb (cd_run bd (newChd m) ops1) (cd_run bd (newChd m) ops2) = true <-> lenN ps1 = lenN (layout m) /\ ps1 = ps2).
Proof.
  intros Hm O1 O2 ps1 ps2. pose proof (eq_data bd m ops1 m ops2 Hm O1 Hm O2) as E. cbv zeta in E. fold ps1 ps2 in E. rewrite E. split.
  - intros (L1 & L2 & X). split; [exact L1|]. pose proof (cd_run_rep bd m ops1 Hm O1 [] _ (rep_new m Hm)) as (_ & R1 & _). pose proof (cd_run_rep bd m ops2 Hm O2 [] _ (rep_new m Hm)) as (_ & R2 & _).
    apply (parts_unique (layout m)); try assumption; try (unfold lenN in *; fold ps1 ps2; lia). clear. destruct m as [|[[[]|[]|]|[[]|[]|]|]]; cbn; repeat constructor; discriminate.
  - intros (L & X). rewrite <- X. auto.
Qed.
Lemma eq_chain bd c1 c2 m d1 d2 : built bd c1 -> built bd c2 -> ch_val c1 = true -> ch_val c2 = true -> ch_mode c1 = Some m -> ch_mode c2 = Some m ->
  ch_data c1 = Some d1 -> ch_data c2 = Some d2 -> ch_iters c1 = ch_iters c2 -> cd_eqb d1 d2 = true ->
  forall h clk, (forall pw t, performChainHash_s h clk c1 pw t = performChainHash_s h clk c2 pw t) /\ (forall x t, performChainHash_b h clk c1 x t = performChainHash_b h clk c2 x t).
Proof.
  intros B1 B2 V1 V2 M1 M2 D1 D2 I E h clk. destruct (perform_dispatch bd c1 h clk B1 V1) as (m1 & e1 & X1 & Y1 & S1 & T1 & _). destruct (perform_dispatch bd c2 h clk B2 V2) as (m2 & e2 & X2 & Y2 & S2 & T2 & _).
  rewrite M1 in X1. rewrite M2 in X2. injection X1 as <-. injection X2 as <-. rewrite D1 in Y1. rewrite D2 in Y2. injection Y1 as <-. injection Y2 as <-.
  assert (bdata (cd_block d1) = bdata (cd_block d2)) as Q. { unfold cd_eqb in E. destruct (cd_complete d1 && cd_complete d2); [|discriminate]. apply (proj1 (eq_bytes _ _)) in E. exact E. }
  split; intros x t; [rewrite S1, S2|rewrite T1, T2]; rewrite Q, I; reflexivity.
Qed.
