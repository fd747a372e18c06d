(** Lemmas about performing described chain hashes, and about time-limited descriptions. *)
From Coq Require Import Strings.String.
From Verif Require Import Base BaseFacts BytesModel BytesSpec BytesFacts BytesFacts2 CipherModel CipherFacts
  PwModel PwSpec PwFacts ChModel ChSpec ChFacts.

Ltac spl := repeat match goal with |- _ /\ _ => split end.

(** ** contents of complete blocks *)
Lemma complete_parts mode ps d : 1 <= mode <= 5 -> rep mode ps d -> lenN ps = lenN (layout mode) ->
  ps = cut (layout mode) (concat ps).
Proof.
  intros Hm (_ & Hp & _). revert Hp. pattern mode. apply modes5; [exact Hm|..]; intros Hp Hc; parts ps;
    try discriminate Hc; cbn [layout prefix_ok fits_part] in Hp; rewrite ?N.eqb_eq in Hp;
    repeat match goal with H : _ /\ _ |- _ => destruct H end; try contradiction; cbn [layout cut concat]; rewrite ?app_nil_r.
  - reflexivity.
  - reflexivity.
  - rewrite takeN_all by lia. reflexivity.
  - rewrite takeN_app_le, takeN_all, dropN_app_ge by lia. replace (8 - lenN p) with 0 by lia. reflexivity.
  - rewrite !takeN_app_le, !takeN_all by lia.
    assert (H8 : forall a b : bytes, lenN a = 8 -> dropN 8 (a ++ b) = b) by (intros a b Ha; rewrite dropN_app_ge by lia; rewrite Ha; reflexivity).
    rewrite !H8 by assumption. rewrite !takeN_app_le, !takeN_all by lia. reflexivity.
Qed.

Lemma complete_len mode ps d : 1 <= mode <= 5 -> rep mode ps d -> lenN ps = lenN (layout mode) ->
  (mode = 1 -> concat ps = []) /\ (mode = 3 -> lenN (concat ps) = 8) /\
  (mode = 4 -> 8 <= lenN (concat ps)) /\ (mode = 5 -> lenN (concat ps) = 32).
Proof.
  intros Hm (_ & Hp & _). revert Hp. pattern mode. apply modes5; [exact Hm|..]; intros Hp Hc; parts ps;
    try discriminate Hc; cbn [layout prefix_ok fits_part] in Hp; rewrite ?N.eqb_eq in Hp;
    repeat match goal with H : _ /\ _ |- _ => destruct H end; try contradiction; cbn [concat];
    (split; [intros HX; try discriminate HX; try reflexivity|
     split; [intros HX; try discriminate HX|split; [intros HX; try discriminate HX|intros HX; try discriminate HX]]]);
    rewrite ?lenN_app; change (lenN (@nil byte)) with 0; lia.
Qed.
Lemma described_wf mode ps d : 1 <= mode <= 5 -> rep mode ps d -> lenN ps = lenN (layout mode) ->
  mode_wf (described mode (concat ps)) /\ salt_len (described mode (concat ps)) <= 275.
Proof.
  intros Hm Hr Hc. destruct (complete_len mode ps d Hm Hr Hc) as (_ & H3 & _ & H5). destruct Hr as (_ & _ & Hl).
  assert (H8 : forall l, lenN l <= 8 -> be_val l < 2 ^ 64).
  { intros l H. eapply N.lt_le_trans; [apply be_val_lt|]. change (2 ^ 64) with (256 ^ 8). apply N.pow_le_mono_r; lia. }
  assert (Ht : forall l : bytes, be_val (takeN 8 l) < 2 ^ 64) by (intros l; apply H8; rewrite lenN_takeN; lia).
  revert H3 H5. pattern mode. apply modes5; [exact Hm|..]; intros H3 H5; cbn [described mode_wf salt_len].
  - split; [exact I|lia].
  - split; [exact I|lia].
  - specialize (H3 eq_refl). split; [apply H8; lia|lia].
  - split; [apply Ht|]. rewrite lenN_dropN. lia.
  - specialize (H5 eq_refl). split; [|lia]. repeat split; try apply Ht. apply H8. rewrite lenN_dropN. lia.
Qed.
Lemma described_fits h mode ps d : hash_ok h -> 1 <= mode <= 5 -> rep mode ps d -> lenN ps = lenN (layout mode) ->
  fits h (described mode (concat ps)).
Proof.
  intros Hh Hm Hr Hc. destruct (described_wf mode ps d Hm Hr Hc) as [A B]. pose proof Hh as (_ & Hs & _).
  split; [exact Hh|]. split; [exact A|]. lia.
Qed.

(** reading the parts of a usable description *)
Lemma get_bytes mode ps d j nm l p : 1 <= mode <= 5 -> rep mode ps d ->
  nth_error (layout mode) j = Some (nm, l) -> nth_error ps j = Some p -> exists b, getPart d nm = Ret b /\ bdata b = p.
Proof. intros Hm Hr Hn Hj. pose proof (getPart_at mode ps d j nm l Hm Hr Hn) as H. rewrite Hj in H. exact H. Qed.

Section Usable.
Variable c : chainhash.
Variable mode : N.
Variable d : chd.
Variable ps : list bytes.
Hypothesis Hval : ch_val c = true.
Hypothesis Hmode : ch_mode c = Some mode.
Hypothesis Hdata : ch_data c = Some d.
Hypothesis Hm : 1 <= mode <= 5.
Hypothesis Hr : rep mode ps d.
Hypothesis Hc : lenN ps = lenN (layout mode).

Lemma u_getMode : ch_getMode c = Ret mode.
Proof using Hval Hmode. unfold ch_getMode. rewrite Hval, Hmode. reflexivity. Qed.
Lemma u_getIters : ch_getIters c = Ret (ch_iters c).
Proof using Hval. unfold ch_getIters. rewrite Hval. reflexivity. Qed.
Lemma u_part nm : partOf c nm = getPart d (str nm).
Proof using Hval Hdata. unfold partOf, ch_getData. rewrite Hval, Hdata. reflexivity. Qed.
Lemma u_num j nm l p : nth_error (layout mode) j = Some (str nm, l) -> nth_error ps j = Some p -> lenN p <= 8 ->
  partNum c nm = Ret (be_val p).
Proof using Hval Hdata Hm Hr.
  intros Hn Hj H8. unfold partNum. rewrite u_part. destruct (get_bytes mode ps d j _ l p Hm Hr Hn Hj) as (b & -> & <-).
  cbn [bind]. apply toLong_val. exact H8.
Qed.
Lemma u_bytes j nm l p : nth_error (layout mode) j = Some (str nm, l) -> nth_error ps j = Some p ->
  exists b, partOf c nm = Ret b /\ bytesToString b = p.
Proof using Hval Hdata Hm Hr. intros Hn Hj. rewrite u_part. exact (get_bytes mode ps d j _ l p Hm Hr Hn Hj). Qed.

Lemma perform_s_dispatch h clk pw timeout :
  performChainHash_s h clk c pw timeout = call_string h clk (described mode (concat ps)) pw (ch_iters c) timeout.
Proof using Hval Hmode Hdata Hm Hr Hc.
  unfold performChainHash_s. rewrite u_getMode. cbn [bind].
  pose proof (complete_parts mode ps d Hm Hr Hc) as Hps. pose proof (complete_len mode ps d Hm Hr Hc) as (H1 & H3 & H4 & H5).
  pose proof u_num as Un. pose proof u_bytes as Ub. rewrite Hps in Un, Ub.
  revert Un Ub H1 H3 H4 H5. pattern mode. apply modes5; [exact Hm|..]; intros Un Ub H1 H3 H4 H5; cbn [layout cut] in Un, Ub; cbn [described].
  - rewrite u_getIters. reflexivity.
  - destruct (Ub 0%nat "S"%string None _ eq_refl eq_refl) as (b & -> & E). cbn [bind]. rewrite E, u_getIters. reflexivity.
  - rewrite (Un 0%nat "SN"%string _ _ eq_refl eq_refl) by (rewrite lenN_takeN; lia). cbn [bind]. rewrite u_getIters.
    cbn [bind]. rewrite takeN_all by (rewrite H3; [lia|reflexivity]). reflexivity.
  - rewrite (Un 0%nat "SN"%string _ _ eq_refl eq_refl) by (rewrite lenN_takeN; lia). cbn [bind].
    destruct (Ub 1%nat "S"%string None _ eq_refl eq_refl) as (b & -> & E). cbn [bind]. rewrite E, u_getIters. reflexivity.
  - rewrite (Un 0%nat "SN"%string _ _ eq_refl eq_refl) by (rewrite lenN_takeN; lia). cbn [bind].
    rewrite (Un 1%nat "A"%string _ _ eq_refl eq_refl) by (rewrite lenN_takeN; lia). cbn [bind].
    rewrite (Un 2%nat "B"%string _ _ eq_refl eq_refl) by (rewrite lenN_takeN; lia). cbn [bind].
    rewrite (Un 3%nat "C"%string _ _ eq_refl eq_refl) by (rewrite lenN_takeN; lia). cbn [bind].
    rewrite u_getIters. cbn [bind]. rewrite !dropN_dropN. change (8 + 8) with 16. change (8 + 16) with 24.
    rewrite (takeN_all 8 (dropN 24 (concat ps))) by (rewrite lenN_dropN, H5; [lia|reflexivity]). reflexivity.
Qed.
Lemma perform_b_dispatch h clk data timeout :
  performChainHash_b h clk c data timeout = call_bytes h clk (described mode (concat ps)) data (ch_iters c) timeout.
Proof using Hval Hmode Hdata Hm Hr Hc.
  unfold performChainHash_b. rewrite u_getMode. cbn [bind].
  pose proof (complete_parts mode ps d Hm Hr Hc) as Hps. pose proof (complete_len mode ps d Hm Hr Hc) as (H1 & H3 & H4 & H5).
  pose proof u_num as Un. pose proof u_bytes as Ub. rewrite Hps in Un, Ub.
  revert Un Ub H1 H3 H4 H5. pattern mode. apply modes5; [exact Hm|..]; intros Un Ub H1 H3 H4 H5; cbn [layout cut] in Un, Ub; cbn [described].
  - rewrite u_getIters. reflexivity.
  - destruct (Ub 0%nat "S"%string None _ eq_refl eq_refl) as (b & -> & E). cbn [bind]. rewrite E, u_getIters. reflexivity.
  - rewrite (Un 0%nat "SN"%string _ _ eq_refl eq_refl) by (rewrite lenN_takeN; lia). cbn [bind]. rewrite u_getIters.
    cbn [bind]. rewrite takeN_all by (rewrite H3; [lia|reflexivity]). reflexivity.
  - rewrite (Un 0%nat "SN"%string _ _ eq_refl eq_refl) by (rewrite lenN_takeN; lia). cbn [bind].
    destruct (Ub 1%nat "S"%string None _ eq_refl eq_refl) as (b & -> & E). cbn [bind]. rewrite E, u_getIters. reflexivity.
  - rewrite (Un 0%nat "SN"%string _ _ eq_refl eq_refl) by (rewrite lenN_takeN; lia). cbn [bind].
    rewrite (Un 1%nat "A"%string _ _ eq_refl eq_refl) by (rewrite lenN_takeN; lia). cbn [bind].
    rewrite (Un 2%nat "B"%string _ _ eq_refl eq_refl) by (rewrite lenN_takeN; lia). cbn [bind].
    rewrite (Un 3%nat "C"%string _ _ eq_refl eq_refl) by (rewrite lenN_takeN; lia). cbn [bind].
    rewrite u_getIters. cbn [bind]. rewrite !dropN_dropN. change (8 + 8) with 16. change (8 + 16) with 24.
    rewrite (takeN_all 8 (dropN 24 (concat ps))) by (rewrite lenN_dropN, H5; [lia|reflexivity]). reflexivity.
Qed.
End Usable.

Lemma usable_rep c : ch_inv c -> ch_val c = true -> exists mode d ps, ch_mode c = Some mode /\ ch_data c = Some d /\
  1 <= mode <= 5 /\ rep mode ps d /\ lenN ps = lenN (layout mode) /\ 1 <= ch_iters c <= 1000000000.
Proof.
  intros (_ & Hd & Hv) E. destruct (Hv E) as (mode & d & E1 & E2 & H1 & H2 & H3 & H4).
  destruct (Hd d E2) as (mode' & ps & Hmo & Hr). pose proof (rep_mode _ _ _ Hr). pose proof (rep_ind _ _ _ Hr).
  exists mode, d, ps. assert (mode' = mode) by congruence. subst mode'. spl; try tauto; congruence.
Qed.
(** C16 *)
Lemma perform_documented bd c h clk pw : built bd c -> ch_val c = true -> hash_ok h ->
  exists mode d b, ch_mode c = Some mode /\ ch_data c = Some d /\
    performChainHash_s h clk c pw 0 = Ret (Done b) /\
    bdata b = iterated (hfun h) (described mode (bdata (cd_block d))) pw (N.to_nat (ch_iters c - 1)).
Proof.
  intros Hb Hv Hh. destruct (usable_rep c (built_inv bd c Hb) Hv) as (mode & d & ps & E1 & E2 & H1 & Hr & Hc & Hi).
  pose proof (perform_s_dispatch c mode d ps Hv E1 E2 H1 Hr Hc h clk pw 0) as Hp.
  destruct (string_documented h clk (described mode (concat ps)) pw (ch_iters c)
    (described_fits h mode ps d Hh H1 Hr Hc) ltac:(lia)) as (b & Eb & Hbd).
  exists mode, d, b. destruct (rep_block _ _ _ Hr) as [-> _]. cbn [bdata]. spl; congruence.
Qed.
Lemma perform_dispatch bd c h clk : built bd c -> ch_val c = true ->
  exists mode d, ch_mode c = Some mode /\ ch_data c = Some d /\
    (forall pw timeout, performChainHash_s h clk c pw timeout =
       call_string h clk (described mode (bdata (cd_block d))) pw (ch_iters c) timeout) /\
    (forall data timeout, performChainHash_b h clk c data timeout =
       call_bytes h clk (described mode (bdata (cd_block d))) data (ch_iters c) timeout) /\
    (hash_ok h -> fits h (described mode (bdata (cd_block d)))).
Proof.
  intros Hb Hv. destruct (usable_rep c (built_inv bd c Hb) Hv) as (mode & d & ps & E1 & E2 & H1 & Hr & Hc & Hi).
  exists mode, d. destruct (rep_block _ _ _ Hr) as [-> _]. cbn [bdata]. spl; try assumption.
  - intros. apply (perform_s_dispatch c mode d ps); assumption.
  - intros. apply (perform_b_dispatch c mode d ps); assumption.
  - intros Hh. apply (described_fits h mode ps d Hh H1 Hr Hc).
Qed.
Lemma perform_invalid h clk c : ch_val c = false ->
  (forall pw t, performChainHash_s h clk c pw t = Throw RuntimeError) /\
  (forall data t, performChainHash_b h clk c data t = Throw RuntimeError).
Proof. intros E. unfold performChainHash_s, performChainHash_b, ch_getMode. rewrite E. auto. Qed.

(** C18 *)
Lemma setter_valid_iff bd c o c' : built bd c -> op_built bd o -> is_setter o = true -> ch_step bd c o = Ret c' ->
  (ch_val c' = true <-> usable c').
Proof. intros Hb Ho Hs E. apply (step_inv bd c o c' (built_inv bd c Hb) (op_built_inv bd o Ho) E); exact Hs. Qed.
Lemma ctor_valid_iff bd mode iters d : (forall x, d = Some x -> made bd x) ->
  (1 <= mode <= 5 -> exists c, newChainHash mode iters d = Ret c /\ ch_mode c = Some mode /\ ch_iters c = iters /\ ch_data c = d /\
     (ch_val c = true <-> usable c)) /\
  (~ 1 <= mode <= 5 -> newChainHash mode iters d = Throw InvalidArgument).
Proof.
  intros Hd. unfold newChainHash. pose proof (ch_mode_valid_spec mode) as Hv. destruct (ch_mode_valid mode).
  - split; [|tauto]. intros Hm. eexists. split; [reflexivity|]. cbn [ch_revalidate ch_mode ch_iters ch_data]. repeat split.
    all: apply (revalidate_inv (mkCH (Some mode) d iters false)); [apply good_some; exact Hm|apply (made_good bd); exact Hd].
  - split; [intros Hm; apply Hv in Hm; discriminate|reflexivity].
Qed.
Lemma getters_valid bd c : built bd c ->
  (ch_val c = true -> usable c /\ exists mode d, ch_mode c = Some mode /\ ch_data c = Some d /\
      ch_getMode c = Ret mode /\ ch_getData c = Ret (Some d) /\ ch_getIters c = Ret (ch_iters c)) /\
  (ch_val c = false -> ch_getMode c = Throw RuntimeError /\ ch_getData c = Throw RuntimeError /\ ch_getIters c = Throw RuntimeError).
Proof.
  intros Hb. split; intros E.
  - destruct (built_inv bd c Hb) as (_ & _ & Hv). specialize (Hv E). split; [exact Hv|].
    destruct Hv as (mode & d & E1 & E2 & _). exists mode, d. unfold ch_getMode, ch_getData, ch_getIters. rewrite E, E1, E2. auto.
  - unfold ch_getMode, ch_getData, ch_getIters. rewrite E. auto.
Qed.
Lemma setter_outcome bd c o : op_built bd o ->
  match ch_step bd c o with Ret _ => True | Throw e =>
      (exists m, o = CMode m /\ ~ 1 <= m <= 5 /\ e = InvalidArgument) \/ (exists s, o = CAssign s /\ ch_val s = false /\ e = RuntimeError)
  | _ => False end.
Proof.
  intros Ho. destruct o as [n|m|d|src|o]; cbn [ch_step]; try exact I.
  - unfold ch_setMode. pose proof (ch_mode_valid_spec m) as Hv. destruct (ch_mode_valid m); [exact I|].
    left. exists m. split; [reflexivity|]. split; [|reflexivity]. intros Hm. apply Hv in Hm. discriminate.
  - assert (Hb : ch_inv src) by (apply (op_built_inv bd _ Ho)). unfold ch_assign, ch_getMode, ch_getIters.
    destruct (ch_val src) eqn:E.
    + destruct (usable_rep src Hb E) as (mode & d & ps & -> & _ & H1 & _). cbn [bind].
      apply ch_mode_valid_spec in H1. rewrite H1. exact I.
    + right. exists src. auto.
Qed.
(** C58 *)
Lemma shared_inv bd ops : Forall cdop_ok ops -> forall c, ch_inv c ->
  ch_inv (shared_run bd c ops) /\ ch_val (shared_run bd c ops) = ch_val c.
Proof.
  induction 1 as [|o ops Ho _ IH]; intros c Hc; [split; [exact Hc|reflexivity]|]. cbn [shared_run].
  destruct (IH _ (mutate_inv bd c o Hc Ho)) as [A B]. split; [exact A|]. rewrite B. apply mutate_val.
Qed.
Lemma shared_valid_stays bd c ops : built bd c -> Forall cdop_ok ops ->
  ch_val (shared_run bd c ops) = ch_val c /\ (ch_val c = true -> usable (shared_run bd c ops)).
Proof.
  intros Hb Ho. destruct (shared_inv bd ops Ho c (built_inv bd c Hb)) as [(_ & _ & A) B]. split; [exact B|].
  intros E. apply A. congruence.
Qed.
Lemma frozen_step bd c o : ch_inv c -> ch_val c = true -> cdop_ok o ->
  (forall d, ch_mode c = Some 2 -> ch_data c = Some d -> bdata (cd_block d) <> []) ->
  ch_mutate (fun d => cd_step bd d o) c = c.
Proof.
  intros Hc Hv Ho Hx. destruct (usable_rep c Hc Hv) as (mode & d & ps & E1 & E2 & H1 & Hr & Hl & _).
  unfold ch_mutate. rewrite E2. destruct (cd_step bd d o) as [d'| | |] eqn:Es; try reflexivity.
  destruct (complete_step bd mode ps d o d' H1 Hr Ho Hl Es) as (_ & _ & _ & [-> | [-> Hn]]).
  - destruct c as [m0 d0 i0 v0]. cbn in *. rewrite E2. reflexivity.
  - exfalso. apply (Hx d E1 E2). destruct (rep_block _ _ _ Hr) as [-> _]. exact Hn.
Qed.
Lemma frozen bd c ops : built bd c -> ch_val c = true -> Forall cdop_ok ops ->
  (forall d, ch_mode c = Some 2 -> ch_data c = Some d -> bdata (cd_block d) <> []) ->
  shared_run bd c ops = c.
Proof.
  intros Hb Hv Ho Hx. apply built_inv in Hb. induction Ho as [|o ops Ho _ IH]; [reflexivity|]. cbn [shared_run].
  rewrite (frozen_step bd c o Hb Hv Ho Hx). exact IH.
Qed.
Lemma refresh bd c ops : built bd c -> Forall cdop_ok ops ->
  exists c', ch_setIters (ch_iters c) (shared_run bd c ops) = Ret c' /\ (ch_val c' = true <-> usable c') /\
    ch_mode c' = ch_mode (shared_run bd c ops) /\ ch_data c' = ch_data (shared_run bd c ops).
Proof.
  intros Hb Ho. destruct (shared_inv bd ops Ho c (built_inv bd c Hb)) as [(A & B & _) _].
  eexists. split; [reflexivity|]. split; [|split; reflexivity].
  apply (revalidate_inv (mkCH _ _ _ _) A B).
Qed.

(** ** time-limited descriptions *)
Definition ct_inv (c : chtimed) : Prop :=
  good_mode (ct_mode c) /\ good_data (ct_data c) /\ (ct_val c = true -> tusable c).
Lemma ct_check_usable c : good_mode (ct_mode c) -> good_data (ct_data c) ->
  match ct_check (ct_mode c) (ct_data c) (ct_time c) with
  | Ret v => v = true <-> tusable c
  | Crash Undefined => ct_time c = None /\ ct_mode c <> None /\ ct_data c <> None
  | _ => False
  end.
Proof.
  intros Hm Hd. unfold tusable, ct_check. destruct (ct_mode c) as [mo|]; [|split; [discriminate|intros (? & ? & ? & ? & _); discriminate]].
  destruct (ct_data c) as [d|]; [|split; [discriminate|intros (? & ? & ? & _ & ? & _); discriminate]].
  destruct (ct_time c) as [t|]; [|spl; congruence].
  specialize (Hm mo eq_refl). destruct (Hd d eq_refl) as (mode & ps & Hmo & Hr).
  pose proof (rep_complete mode ps d Hmo Hr) as Hcp. pose proof (rep_mode _ _ _ Hr) as Hmd. pose proof (rep_ind _ _ _ Hr) as Hi.
  pose proof (format_eqb_spec mo mode Hm Hmo) as Hf.
  unfold MAX_RUNTIME, cd_completedFormat. rewrite Hmd.
  assert (Hl : (255 <? cd_len d) = false).
  { unfold cd_len, w8. pose proof (N.mod_upper_bound (getLen (cd_block d)) 256). lia. }
  rewrite Hl. split.
  - intros E. destruct (N.ltb_spec 0 t); [|discriminate]. destruct (N.leb_spec t 86400000); [|discriminate].
    cbn [negb andb] in E. destruct (format_eqb mo mode && cd_complete d) eqn:E2; [|discriminate].
    apply andb_true_iff in E2. destruct E2 as [E2 E3]. apply Hf in E2. subst mo. apply Hcp in E3.
    exists mode, d, t. spl; try reflexivity; try assumption; try lia.
  - intros (mo' & d' & t' & [= <-] & [= <-] & [= <-] & _ & Hit & Hmm & Hii).
    destruct (N.ltb_spec 0 t); [|lia]. destruct (N.leb_spec t 86400000); [|lia].
    cbn [negb andb]. assert (Hmm' : mo = mode) by congruence.
    assert (format_eqb mo mode = true) as -> by (apply Hf; exact Hmm').
    assert (cd_complete d = true) as -> by (apply Hcp; congruence). reflexivity.
Qed.
Lemma ct_revalidate_inv c c' : good_mode (ct_mode c) -> good_data (ct_data c) -> ct_revalidate c = Ret c' ->
  ct_inv c' /\ (ct_val c' = true <-> tusable c').
Proof.
  intros Hm Hd E. pose proof (ct_check_usable c Hm Hd) as H. unfold ct_revalidate in E.
  destruct (ct_check (ct_mode c) (ct_data c) (ct_time c)) as [v| | |]; try discriminate. cbn [bind] in E. injection E as <-.
  assert (H' : v = true <-> tusable (mkCHT (ct_mode c) (ct_data c) (ct_time c) v)) by exact H.
  split; [|exact H']. split; [exact Hm|]. split; [exact Hd|]. apply H'.
Qed.
Definition top_inv (o : ctop) : Prop :=
  match o with TData d => good_data d | TAssign src => ct_inv src | TShared o => cdop_ok o | _ => True end.
Lemma ct_mutate_val f c : ct_val (ct_mutate f c) = ct_val c.
Proof. unfold ct_mutate. destruct (ct_data c); [|reflexivity]. destruct (f c0); reflexivity. Qed.
Lemma ct_mutate_inv bd c o : ct_inv c -> cdop_ok o -> ct_inv (ct_mutate (fun d => cd_step bd d o) c).
Proof.
  intros Hc Ho. pose proof Hc as (Hm & Hd & Hv). split; [|split].
  - unfold ct_mutate. destruct (ct_data c); [|exact Hm]. destruct (cd_step bd c0 o); exact Hm.
  - unfold ct_mutate. destruct (ct_data c) as [d|] eqn:E; [|rewrite E; exact Hd].
    destruct (cd_step bd d o) as [d'| | |] eqn:Es; try (rewrite E; exact Hd).
    intros x [= <-]. destruct (Hd d eq_refl) as (mode & ps & Hmo & Hr).
    pose proof (cd_step_refines bd mode ps d o Hmo Hr Ho) as Hs. destruct (spec_cd mode ps o).
    + destruct Hs as (d2 & E2 & Hr2). exists mode, l. split; [exact Hmo|]. congruence.
    + congruence.
  - rewrite ct_mutate_val. intros Hx. destruct (Hv Hx) as (mode & d & t & E1 & E2 & E3 & H1 & H2 & H3 & H4).
    unfold ct_mutate. rewrite E2. destruct (cd_step bd d o) as [d'| | |] eqn:Es; try (exists mode, d, t; tauto).
    destruct (Hd d E2) as (mode' & ps & Hmo & Hr). assert (mode' = mode) by (pose proof (rep_mode _ _ _ Hr); congruence). subst mode'.
    pose proof (rep_ind _ _ _ Hr) as Hi.
    destruct (complete_step bd mode ps d o d' Hmo Hr Ho ltac:(congruence) Es) as (ps' & Hr' & Hl' & _).
    exists mode, d', t. cbn [ct_mode ct_data ct_time]. pose proof (rep_mode _ _ _ Hr'). pose proof (rep_ind _ _ _ Hr').
    spl; try assumption; try tauto; congruence.
Qed.
Lemma ct_step_inv bd c o c' : ct_inv c -> top_inv o -> ct_step bd c o = Ret c' -> ct_inv c'.
Proof.
  intros Hc Ho E. pose proof Hc as (Hm & Hd & Hv). destruct o as [n|m|d|src|o]; cbn [ct_step top_inv] in *.
  - exact (proj1 (ct_revalidate_inv (mkCHT (ct_mode c) (ct_data c) (Some n) (ct_val c)) c' Hm Hd E)).
  - unfold ct_setMode in E. destruct (ch_mode_valid m) eqn:Em; [|discriminate]. apply ch_mode_valid_spec in Em.
    exact (proj1 (ct_revalidate_inv (mkCHT (Some m) (ct_data c) (ct_time c) (ct_val c)) c' (good_some m Em) Hd E)).
  - exact (proj1 (ct_revalidate_inv (mkCHT (ct_mode c) d (ct_time c) (ct_val c)) c' Hm Ho E)).
  - unfold ct_assign in E. destruct (ct_getMode src) as [m| | |]; try discriminate. cbn [bind] in E.
    destruct (ch_mode_valid m) eqn:Em; [|discriminate]. cbn [bind] in E. destruct (ct_getTime src) as [it| | |]; try discriminate.
    cbn [bind ct_mode ct_val] in E. apply ch_mode_valid_spec in Em. destruct Ho as (_ & Ho & _).
    exact (proj1 (ct_revalidate_inv (mkCHT (Some m) (ct_data src) (Some it) (ct_val c)) c' (good_some m Em) Ho E)).
  - injection E as <-. apply ct_mutate_inv; assumption.
Qed.
Scheme tbuilt_mut := Minimality for tbuilt Sort Prop with top_built_mut := Minimality for top_built Sort Prop.
Lemma tbuilt_inv bd c : tbuilt bd c -> ct_inv c.
Proof.
  intros H. apply (tbuilt_mut bd ct_inv top_inv); try exact H; cbn [top_inv]; auto.
  - split; [intros x; discriminate|]. split; [intros x; discriminate|]. discriminate.
  - intros mode rt d c0 Hd E. unfold newChainHashTimed in E. destruct (ch_mode_valid mode) eqn:Em; [|discriminate].
    apply ch_mode_valid_spec in Em.
    exact (proj1 (ct_revalidate_inv (mkCHT (Some mode) d (Some rt) false) c0 (good_some mode Em) (made_good bd d Hd) E)).
  - intros c0 o c' _ Hc _ Ho E. apply (ct_step_inv bd c0 o c' Hc Ho E).
  - intros d Hd. apply (made_good bd). exact Hd.
Qed.
(** a setter reads the indeterminate run time exactly when mode and data are set but the time is not *)
Lemma ct_undefined bd c o : tbuilt bd c -> top_built bd o ->
  (exists m, o = TMode m /\ 1 <= m <= 5) \/ (exists d, o = TData (Some d)) ->
  (ct_step bd c o = Crash Undefined <->
     ct_time c = None /\ (ct_mode c <> None \/ exists m, o = TMode m) /\ (ct_data c <> None \/ exists d, o = TData d)).
Proof.
  intros Hb Ho Hk. pose proof (tbuilt_inv bd c Hb) as (Hm & Hd & _).
  destruct Hk as [(m & -> & H5)|(d & ->)]; cbn [ct_step].
  - unfold ct_setMode. pose proof H5 as Hv. apply ch_mode_valid_spec in Hv. rewrite Hv. unfold ct_revalidate, ct_check.
    cbn [ct_mode ct_data ct_time]. destruct (ct_data c) as [d|]; cbn [bind].
    + destruct (ct_time c); cbn [bind]; split; try discriminate; try tauto.
      * intros [? _]; discriminate.
      * intros _. split; [reflexivity|]. split; [right; eauto|left; discriminate].
    + split; [discriminate|]. intros (_ & _ & [?|(d & ?)]); congruence.
  - unfold ct_setData, ct_revalidate, ct_check. cbn [ct_mode ct_data ct_time]. destruct (ct_mode c) as [m|]; cbn [bind].
    + destruct (ct_time c); cbn [bind]; split; try discriminate; try tauto.
      * intros [? _]; discriminate.
      * intros _. split; [reflexivity|]. split; [left; discriminate|right; eauto].
    + split; [discriminate|]. intros (_ & [?|(m & ?)] & _); congruence.
Qed.

(** ** timed chain hashes end or go on, they do not fail *)
Section TimedOutcome.
Variable h : hashfn.
Variable m : saltmode.
Hypothesis Hh : hash_ok h.
Hypothesis Hm : mode_wf m.
Hypothesis Hsz : hsize h + salt_len m < 2 ^ 32.
Variable clk : nat -> N.
Variable rt : N.
Definition ends_or_runs {A} (o : outcome A) : Prop := match o with Ret _ | OutOfFuel => True | _ => False end.
Lemma string_timed_loop_ends fuel : forall it p i x, lenN x = hsize h ->
  ends_or_runs (string_timed_loop h clk fuel (sf_of m) (salt_len m) rt it p (w64 (start_of m + i)) (mkBytes x (hsize h + salt_len m))).
Proof using Hh Hm Hsz.
  induction fuel as [|fuel IH]; intros it p i x Hx; [exact I|].
  cbn [string_timed_loop]. rewrite w64_add. rewrite (add_salt_ok h Hh m Hm Hsz) by (try rewrite Hx; lia). cbn [bind bdata].
  rewrite (do_hash_ok h Hh m Hm Hsz). cbn [bind].
  assert (Hx' : lenN (hfun h (x ++ salt_at m (i + 1))) = hsize h) by apply Hh.
  destruct (_ =? 0); [destruct (rt <=? clk p); [exact I|]|]; apply IH; exact Hx'.
Qed.
Lemma string_timed_ends fuel pw : ends_or_runs (call_string_timed fuel h clk m pw rt).
Proof using Hh Hm Hsz.
  rewrite call_string_timed_chain. unfold string_timed. rewrite (do_hash_ok h Hh m Hm Hsz). cbn [bind].
  assert (Hs : start_of m < 2 ^ 64) by (destruct m; cbn in *; lia).
  assert (Hst : start_of m = w64 (start_of m + 0)) by (rewrite N.add_0_r; symmetry; apply w64_small; exact Hs).
  assert (Hl : lenN (hfun h (pw ++ salt_text (sf_of m) (start_of m))) = hsize h) by apply Hh. revert Hl.
  generalize (hfun h (pw ++ salt_text (sf_of m) (start_of m))). intros x Hl. rewrite Hst.
  pose proof (string_timed_loop_ends fuel 1 0 0 x Hl) as H. destruct (string_timed_loop _ _ _ _ _ _ _ _ _ _); try contradiction; exact I.
Qed.
Lemma bytes_timed_loop_ends fuel : forall it p i x cap, lenN x + salt_len m <= cap -> cap < 2 ^ 64 ->
  ends_or_runs (bytes_timed_loop h clk fuel (sf_of m) (salt_len m) rt it p (w64 (start_of m + i)) (mkBytes x cap)).
Proof using Hh Hm Hsz.
  induction fuel as [|fuel IH]; intros it p i x cap Hx Hc; [exact I|].
  cbn [bytes_timed_loop]. rewrite w64_add. rewrite (add_salt_ok h Hh m Hm Hsz) by assumption. cbn [bind bdata].
  rewrite (do_hash_ok h Hh m Hm Hsz). cbn [bind].
  assert (Hx' : lenN (hfun h (x ++ salt_at m i)) + salt_len m <= hsize h + salt_len m) by (replace (lenN (hfun h _)) with (hsize h) by (symmetry; apply Hh); lia).
  destruct (_ =? 0); [destruct (rt <=? clk p); [exact I|]|]; apply IH; try exact Hx'; lia.
Qed.
Lemma bytes_timed_ends fuel data : getLen data <= bmax data -> bmax data + salt_len m < 2 ^ 64 ->
  ends_or_runs (call_bytes_timed fuel h clk m data rt).
Proof using Hh Hm Hsz.
  intros Hd Hc. rewrite call_bytes_timed_chain. unfold bytes_timed, copyExtra.
  assert (Hs : start_of m < 2 ^ 64) by (destruct m; cbn in *; lia).
  assert (Hst : start_of m = w64 (start_of m + 0)) by (rewrite N.add_0_r; symmetry; apply w64_small; exact Hs). rewrite Hst.
  pose proof (bytes_timed_loop_ends fuel 0 0 0 (bdata data) (bmax data + salt_len m) ltac:(unfold getLen in Hd; lia) Hc) as H.
  destruct (bytes_timed_loop _ _ _ _ _ _ _ _ _ _); try contradiction; exact I.
Qed.
End TimedOutcome.

Section TUsable.
Variable c : chtimed.
Variable mode t : N.
Variable d : chd.
Variable ps : list bytes.
Hypothesis Hval : ct_val c = true.
Hypothesis Hmode : ct_mode c = Some mode.
Hypothesis Hdata : ct_data c = Some d.
Hypothesis Htime : ct_time c = Some t.
Hypothesis Hm : 1 <= mode <= 5.
Hypothesis Hr : rep mode ps d.
Hypothesis Hc : lenN ps = lenN (layout mode).

Lemma t_getMode : ct_getMode c = Ret mode.
Proof using Hval Hmode. unfold ct_getMode. rewrite Hval, Hmode. reflexivity. Qed.
Lemma t_getTime : ct_getTime c = Ret t.
Proof using Hval Htime. unfold ct_getTime. rewrite Hval, Htime. reflexivity. Qed.
Lemma t_part nm : tpartOf c nm = getPart d (str nm).
Proof using Hval Hdata. unfold tpartOf, ct_getData. rewrite Hval, Hdata. reflexivity. Qed.
Lemma t_num j nm l p : nth_error (layout mode) j = Some (str nm, l) -> nth_error ps j = Some p -> lenN p <= 8 ->
  tpartNum c nm = Ret (be_val p).
Proof using Hval Hdata Hm Hr.
  intros Hn Hj H8. unfold tpartNum. rewrite t_part. destruct (get_bytes mode ps d j _ l p Hm Hr Hn Hj) as (b & -> & <-).
  cbn [bind]. apply toLong_val. exact H8.
Qed.
Lemma t_bytes j nm l p : nth_error (layout mode) j = Some (str nm, l) -> nth_error ps j = Some p ->
  exists b, tpartOf c nm = Ret b /\ bytesToString b = p.
Proof using Hval Hdata Hm Hr. intros Hn Hj. rewrite t_part. exact (get_bytes mode ps d j _ l p Hm Hr Hn Hj). Qed.
Lemma t_no nm : ~ In (str nm) (map fst (layout mode)) -> tpartOf c nm = Throw InvalidArgument.
Proof using Hval Hdata Hm Hr. intros Hn. rewrite t_part. exact (getPart_unknown mode ps d _ Hm Hr Hn). Qed.

Ltac notin := vm_compute; intuition discriminate.
Lemma performTimed_s_eq h clks fuel pw :
  performTimed_s h clks fuel c pw =
  (_ <- call_string_timed fuel h (clks (N.to_nat mode)) (described mode (concat ps)) pw t ;; Throw InvalidArgument).
Proof using Hval Hmode Hdata Htime Hm Hr Hc.
  unfold performTimed_s, timed_perform. rewrite t_getMode. cbn [bind].
  pose proof (complete_parts mode ps d Hm Hr Hc) as Hps. pose proof (complete_len mode ps d Hm Hr Hc) as (H1 & H3 & H4 & H5).
  pose proof t_num as Un. pose proof t_bytes as Ub. pose proof t_no as Uo. rewrite Hps in Un, Ub.
  revert Un Ub Uo H1 H3 H4 H5. pattern mode. apply modes5; [exact Hm|..]; intros Un Ub Uo H1 H3 H4 H5; cbn [layout cut] in Un, Ub, Uo;
    cbn [described timed_switch].
  - unfold timed_case1. rewrite t_getTime. cbn [bind call_string_timed]. change (N.to_nat 1) with 1%nat.
    destruct (chainhashTimed_s _ _ _ _ _); cbn [bind]; try reflexivity.
    unfold timed_case2. rewrite (Uo "S"%string) by notin. reflexivity.
  - unfold timed_case2. destruct (Ub 0%nat "S"%string None _ eq_refl eq_refl) as (b & -> & E). cbn [bind]. rewrite E, t_getTime.
    cbn [bind call_string_timed]. change (N.to_nat 2) with 2%nat.
    destruct (chainhashWithConstantSaltTimed_s _ _ _ _ _ _); cbn [bind]; try reflexivity.
    unfold timed_case3, tpartNum. rewrite (Uo "SN"%string) by notin. reflexivity.
  - unfold timed_case3. rewrite (Un 0%nat "SN"%string _ _ eq_refl eq_refl) by (rewrite lenN_takeN; lia). cbn [bind]. rewrite t_getTime.
    rewrite takeN_all by (rewrite H3; [lia|reflexivity]).
    cbn [bind call_string_timed]. change (N.to_nat 3) with 3%nat.
    destruct (chainhashWithCountSaltTimed_s _ _ _ _ _ _); cbn [bind]; try reflexivity.
    unfold timed_case4. rewrite (Un 0%nat "SN"%string _ _ eq_refl eq_refl) by (rewrite lenN_takeN; lia). cbn [bind].
    rewrite (Uo "S"%string) by notin. reflexivity.
  - unfold timed_case4. rewrite (Un 0%nat "SN"%string _ _ eq_refl eq_refl) by (rewrite lenN_takeN; lia). cbn [bind].
    destruct (Ub 1%nat "S"%string None _ eq_refl eq_refl) as (b & -> & E). cbn [bind]. rewrite E, t_getTime.
    cbn [bind call_string_timed]. change (N.to_nat 4) with 4%nat.
    destruct (chainhashWithCountAndConstantSaltTimed_s _ _ _ _ _ _ _); cbn [bind]; try reflexivity.
    unfold timed_case5. rewrite (Un 0%nat "SN"%string _ _ eq_refl eq_refl) by (rewrite lenN_takeN; lia). cbn [bind].
    unfold tpartNum. rewrite (Uo "A"%string) by notin. reflexivity.
  - unfold timed_case5. rewrite (Un 0%nat "SN"%string _ _ eq_refl eq_refl) by (rewrite lenN_takeN; lia). cbn [bind].
    rewrite (Un 1%nat "A"%string _ _ eq_refl eq_refl) by (rewrite lenN_takeN; lia). cbn [bind].
    rewrite (Un 2%nat "B"%string _ _ eq_refl eq_refl) by (rewrite lenN_takeN; lia). cbn [bind].
    rewrite (Un 3%nat "C"%string _ _ eq_refl eq_refl) by (rewrite lenN_takeN; lia). cbn [bind].
    rewrite t_getTime. cbn [bind call_string_timed]. rewrite !dropN_dropN. change (8 + 8) with 16. change (8 + 16) with 24.
    rewrite (takeN_all 8 (dropN 24 (concat ps))) by (rewrite lenN_dropN, H5; [lia|reflexivity]). change (N.to_nat 5) with 5%nat.
    destruct (chainhashWithQuadraticCountSaltTimed_s _ _ _ _ _ _ _ _ _); reflexivity.
Qed.
Lemma performTimed_b_eq h clks fuel data :
  performTimed_b h clks fuel c data =
  (_ <- call_bytes_timed fuel h (clks (N.to_nat mode)) (described mode (concat ps)) data t ;; Throw InvalidArgument).
Proof using Hval Hmode Hdata Htime Hm Hr Hc.
  unfold performTimed_b, timed_perform. rewrite t_getMode. cbn [bind].
  pose proof (complete_parts mode ps d Hm Hr Hc) as Hps. pose proof (complete_len mode ps d Hm Hr Hc) as (H1 & H3 & H4 & H5).
  pose proof t_num as Un. pose proof t_bytes as Ub. pose proof t_no as Uo. rewrite Hps in Un, Ub.
  revert Un Ub Uo H1 H3 H4 H5. pattern mode. apply modes5; [exact Hm|..]; intros Un Ub Uo H1 H3 H4 H5; cbn [layout cut] in Un, Ub, Uo;
    cbn [described timed_switch].
  - unfold timed_case1. rewrite t_getTime. cbn [bind call_bytes_timed]. change (N.to_nat 1) with 1%nat.
    destruct (chainhashTimed_b _ _ _ _ _); cbn [bind]; try reflexivity.
    unfold timed_case2. rewrite (Uo "S"%string) by notin. reflexivity.
  - unfold timed_case2. destruct (Ub 0%nat "S"%string None _ eq_refl eq_refl) as (b & -> & E). cbn [bind]. rewrite E, t_getTime.
    cbn [bind call_bytes_timed]. change (N.to_nat 2) with 2%nat.
    destruct (chainhashWithConstantSaltTimed_b _ _ _ _ _ _); cbn [bind]; try reflexivity.
    unfold timed_case3, tpartNum. rewrite (Uo "SN"%string) by notin. reflexivity.
  - unfold timed_case3. rewrite (Un 0%nat "SN"%string _ _ eq_refl eq_refl) by (rewrite lenN_takeN; lia). cbn [bind]. rewrite t_getTime.
    rewrite takeN_all by (rewrite H3; [lia|reflexivity]).
    cbn [bind call_bytes_timed]. change (N.to_nat 3) with 3%nat.
    destruct (chainhashWithCountSaltTimed_b _ _ _ _ _ _); cbn [bind]; try reflexivity.
    unfold timed_case4. rewrite (Un 0%nat "SN"%string _ _ eq_refl eq_refl) by (rewrite lenN_takeN; lia). cbn [bind].
    rewrite (Uo "S"%string) by notin. reflexivity.
  - unfold timed_case4. rewrite (Un 0%nat "SN"%string _ _ eq_refl eq_refl) by (rewrite lenN_takeN; lia). cbn [bind].
    destruct (Ub 1%nat "S"%string None _ eq_refl eq_refl) as (b & -> & E). cbn [bind]. rewrite E, t_getTime.
    cbn [bind call_bytes_timed]. change (N.to_nat 4) with 4%nat.
    destruct (chainhashWithCountAndConstantSaltTimed_b _ _ _ _ _ _ _); cbn [bind]; try reflexivity.
    unfold timed_case5. rewrite (Un 0%nat "SN"%string _ _ eq_refl eq_refl) by (rewrite lenN_takeN; lia). cbn [bind].
    unfold tpartNum. rewrite (Uo "A"%string) by notin. reflexivity.
  - unfold timed_case5. rewrite (Un 0%nat "SN"%string _ _ eq_refl eq_refl) by (rewrite lenN_takeN; lia). cbn [bind].
    rewrite (Un 1%nat "A"%string _ _ eq_refl eq_refl) by (rewrite lenN_takeN; lia). cbn [bind].
    rewrite (Un 2%nat "B"%string _ _ eq_refl eq_refl) by (rewrite lenN_takeN; lia). cbn [bind].
    rewrite (Un 3%nat "C"%string _ _ eq_refl eq_refl) by (rewrite lenN_takeN; lia). cbn [bind].
    rewrite t_getTime. cbn [bind call_bytes_timed]. rewrite !dropN_dropN. change (8 + 8) with 16. change (8 + 16) with 24.
    rewrite (takeN_all 8 (dropN 24 (concat ps))) by (rewrite lenN_dropN, H5; [lia|reflexivity]). change (N.to_nat 5) with 5%nat.
    destruct (chainhashWithQuadraticCountSaltTimed_b _ _ _ _ _ _ _ _ _); reflexivity.
Qed.
End TUsable.

Lemma timed_never_returns_gen c t1 t2 t3 t4 t5 : is_ret (timed_perform c t1 t2 t3 t4 t5) = false.
Proof.
  unfold timed_perform. destruct (ct_getMode c) as [mode| | |]; try reflexivity. cbn [bind].
  assert (H5 : forall tr, is_ret (timed_case5 c t5 tr) = false).
  { intros tr. unfold timed_case5. repeat (match goal with |- is_ret (bind ?o _) = false => destruct o; cbn [bind]; try reflexivity end). }
  assert (H4 : forall tr, is_ret (timed_case4 c t4 t5 tr) = false).
  { intros tr. unfold timed_case4. repeat (match goal with |- is_ret (bind ?o _) = false => destruct o; cbn [bind]; try reflexivity end). apply H5. }
  assert (H3 : forall tr, is_ret (timed_case3 c t3 t4 t5 tr) = false).
  { intros tr. unfold timed_case3. repeat (match goal with |- is_ret (bind ?o _) = false => destruct o; cbn [bind]; try reflexivity end). apply H4. }
  assert (H2 : forall tr, is_ret (timed_case2 c t2 t3 t4 t5 tr) = false).
  { intros tr. unfold timed_case2. repeat (match goal with |- is_ret (bind ?o _) = false => destruct o; cbn [bind]; try reflexivity end). apply H3. }
  assert (H1 : forall tr, is_ret (timed_case1 c t1 t2 t3 t4 t5 tr) = false).
  { intros tr. unfold timed_case1. repeat (match goal with |- is_ret (bind ?o _) = false => destruct o; cbn [bind]; try reflexivity end). apply H2. }
  assert (Hs : is_ret (timed_switch c t1 t2 t3 t4 t5 mode) = false).
  { unfold timed_switch. destruct mode as [|p]; [reflexivity|]. do 3 (try (destruct p as [p|p|]); try reflexivity); auto. }
  destruct (timed_switch c t1 t2 t3 t4 t5 mode); [discriminate|reflexivity|reflexivity|reflexivity].
Qed.
(** C14 *)
Lemma timed_never_returns h clks fuel c :
  (forall pw, is_ret (performTimed_s h clks fuel c pw) = false) /\ (forall data, is_ret (performTimed_b h clks fuel c data) = false).
Proof. split; intros; apply timed_never_returns_gen. Qed.
Lemma tusable_rep c : ct_inv c -> ct_val c = true -> exists mode t d ps, ct_mode c = Some mode /\ ct_data c = Some d /\
  ct_time c = Some t /\ 1 <= mode <= 5 /\ rep mode ps d /\ lenN ps = lenN (layout mode) /\ 1 <= t <= 86400000.
Proof.
  intros (_ & Hd & Hv) E. destruct (Hv E) as (mode & d & t & E1 & E2 & E3 & H1 & H2 & H3 & H4).
  destruct (Hd d E2) as (mode' & ps & Hmo & Hr). pose proof (rep_mode _ _ _ Hr). pose proof (rep_ind _ _ _ Hr).
  exists mode, t, d, ps. assert (mode' = mode) by congruence. subst mode'. spl; try tauto; congruence.
Qed.
Lemma timed_outcome bd h clks fuel c : tbuilt bd c -> ct_val c = true -> hash_ok h ->
  (forall pw, performTimed_s h clks fuel c pw = Throw InvalidArgument \/ performTimed_s h clks fuel c pw = OutOfFuel) /\
  (forall data, getLen data <= bmax data -> bmax data + 275 < 2 ^ 64 ->
     performTimed_b h clks fuel c data = Throw InvalidArgument \/ performTimed_b h clks fuel c data = OutOfFuel).
Proof.
  intros Hb Hv Hh. destruct (tusable_rep c (tbuilt_inv bd c Hb) Hv) as (mode & t & d & ps & E1 & E2 & E3 & H1 & Hr & Hc & _).
  destruct (described_fits h mode ps d Hh H1 Hr Hc) as (_ & Hw & Hs). destruct (described_wf mode ps d H1 Hr Hc) as [_ H275].
  split.
  - intros pw. rewrite (performTimed_s_eq c mode t d ps Hv E1 E2 E3 H1 Hr Hc).
    pose proof (string_timed_ends h _ Hh Hw Hs (clks (N.to_nat mode)) t fuel pw) as He.
    destruct (call_string_timed _ _ _ _ _ _); try contradiction; cbn [bind]; auto.
  - intros data Hd H64. rewrite (performTimed_b_eq c mode t d ps Hv E1 E2 E3 H1 Hr Hc).
    pose proof (bytes_timed_ends h _ Hh Hw Hs (clks (N.to_nat mode)) t fuel data Hd ltac:(lia)) as He.
    destruct (call_bytes_timed _ _ _ _ _ _); try contradiction; cbn [bind]; auto.
Qed.
Lemma timed_throws bd h clks fuel c k : tbuilt bd c -> ct_val c = true -> hash_ok h ->
  (forall j t, ct_time c = Some t -> t <= clks j k /\ forall q, (q < k)%nat -> clks j q < t) ->
  1000 * (N.of_nat k + 1) <= N.of_nat fuel -> 1000 * (N.of_nat k + 1) < 2 ^ 64 ->
  (forall pw, performTimed_s h clks fuel c pw = Throw InvalidArgument) /\
  (forall data, getLen data <= bmax data -> bmax data + 275 < 2 ^ 64 -> performTimed_b h clks fuel c data = Throw InvalidArgument).
Proof.
  intros Hb Hv Hh Hk Hf H64. destruct (tusable_rep c (tbuilt_inv bd c Hb) Hv) as (mode & t & d & ps & E1 & E2 & E3 & H1 & Hr & Hc & _).
  pose proof (described_fits h mode ps d Hh H1 Hr Hc) as Hfit. destruct (described_wf mode ps d H1 Hr Hc) as [_ H275].
  destruct (Hk (N.to_nat mode) t E3) as [Hk1 Hk2].
  split.
  - intros pw. rewrite (performTimed_s_eq c mode t d ps Hv E1 E2 E3 H1 Hr Hc).
    destruct (string_timed_returns fuel h (clks (N.to_nat mode)) _ pw t k Hfit H64 Hk1 Hk2 Hf) as (b & ->). reflexivity.
  - intros data Hd HH. rewrite (performTimed_b_eq c mode t d ps Hv E1 E2 E3 H1 Hr Hc).
    destruct (bytes_timed_returns fuel h (clks (N.to_nat mode)) _ data t k Hfit Hd ltac:(lia) H64 Hk1 Hk2 Hf) as (b & ->). reflexivity.
Qed.

(** ** statements about data blocks *)
Lemma cd_refines bd mode ops o : 1 <= mode <= 5 -> Forall cdop_ok ops -> cdop_ok o ->
  let d := cd_run bd (newChd mode) ops in let ps := spec_cd_run mode [] ops in
  bdata (cd_block d) = concat ps /\ lenN (concat ps) <= 255 /\
  (cd_complete d = true <-> lenN ps = lenN (layout mode)) /\
  match spec_cd mode ps o with
  | inl ps' => exists d', cd_step bd d o = Ret d' /\ bdata (cd_block d') = concat ps'
  | inr e => cd_step bd d o = Throw e
  end.
Proof.
  intros Hm Ho Hx d ps. assert (Hr : rep mode ps d) by (apply cd_run_rep; [exact Hm|exact Ho|apply rep_new; exact Hm]).
  destruct (rep_block _ _ _ Hr) as [Hb Hl]. split; [rewrite Hb; reflexivity|]. split; [exact Hl|].
  split; [apply rep_complete; assumption|].
  pose proof (cd_step_refines bd mode ps d o Hm Hr Hx) as Hs. destruct (spec_cd mode ps o) as [ps'|e]; [|exact Hs].
  destruct Hs as (d' & E & Hr'). exists d'. split; [exact E|]. destruct (rep_block _ _ _ Hr') as [-> _]. reflexivity.
Qed.
Lemma cd_parts bd mode ops j nm l : 1 <= mode <= 5 -> Forall cdop_ok ops -> nth_error (layout mode) j = Some (nm, l) ->
  match nth_error (spec_cd_run mode [] ops) j with
  | Some p => exists b, getPart (cd_run bd (newChd mode) ops) nm = Ret b /\ bdata b = p
  | None => getPart (cd_run bd (newChd mode) ops) nm = Throw InvalidArgument
  end.
Proof. intros Hm Ho. apply getPart_at; [exact Hm|]. apply cd_run_rep; [exact Hm|exact Ho|apply rep_new; exact Hm]. Qed.
Lemma cd_no_part bd mode ops nm : 1 <= mode <= 5 -> Forall cdop_ok ops -> ~ In nm (map fst (layout mode)) ->
  getPart (cd_run bd (newChd mode) ops) nm = Throw InvalidArgument.
Proof. intros Hm Ho. apply (getPart_unknown mode (spec_cd_run mode [] ops)); [exact Hm|]. apply cd_run_rep; [exact Hm|exact Ho|apply rep_new; exact Hm]. Qed.
(** C19 *)
Lemma gen_ext mode (f g : N -> bytes) : 1 <= mode <= 5 -> f (random_len mode) = g (random_len mode) ->
  cd_generate f (newChd mode) = cd_generate g (newChd mode).
Proof.
  intros Hm. pattern mode. apply modes5; [exact Hm|..]; intros E; vm_compute in E; vm_compute; rewrite E; reflexivity.
Qed.
Lemma generate_fresh mode rnd : 1 <= mode <= 5 -> (forall k, lenN (rnd k) = k) ->
  exists d, cd_generate rnd (newChd mode) = Ret d /\ cd_complete d = true /\ lenN (bdata (cd_block d)) = mode_size mode /\
    bdata (cd_block d) = rnd (mode_size mode) /\
    forall nm l, In (nm, l) (layout mode) -> exists b, getPart d nm = Ret b /\ fits_part l (bdata b) = true.
Proof.
  intros Hm Hrnd.
  set (r := rnd (mode_size mode) ++ repeat x00 255).
  assert (Ho : cdop_ok (Generate r)) by (cbn; unfold r; rewrite lenN_app, lenN_repeat; lia).
  assert (Hms : mode_size mode = random_len mode) by (pattern mode; apply modes5; [exact Hm|..]; reflexivity).
  pose proof (cd_step_refines Release mode [] (newChd mode) (Generate r) Hm (rep_new mode Hm) Ho) as Hs.
  cbn [spec_cd cd_step concat lenN length] in Hs. change (N.of_nat 0 =? 0) with true in Hs. cbv iota in Hs.
  destruct Hs as (d & E & Hr).
  assert (Et : takeN (random_len mode) r = rnd (mode_size mode)).
  { unfold r. rewrite <- Hms. rewrite takeN_app_le by (rewrite Hrnd; lia). apply takeN_all. rewrite Hrnd. lia. }
  rewrite Et in Hr.
  assert (Eg : cd_generate rnd (newChd mode) = Ret d).
  { rewrite <- E. apply gen_ext; [exact Hm|]. rewrite Et, Hms. reflexivity. }
  assert (Hlen : lenN (rnd (mode_size mode)) = random_len mode) by (rewrite Hrnd; exact Hms).
  destruct (cut_spec mode (rnd (mode_size mode)) Hm Hlen) as (C1 & C2 & C3).
  exists d. split; [exact Eg|]. split; [apply (rep_complete mode _ d Hm Hr); exact C3|].
  destruct (rep_block _ _ _ Hr) as [Hb _]. rewrite Hb. cbn [bdata]. rewrite C1. split; [apply Hrnd|]. split; [reflexivity|].
  intros nm l Hin. apply In_nth_error in Hin. destruct Hin as (j & Hj).
  pose proof (getPart_at mode _ d j nm l Hm Hr Hj) as Hp.
  destruct (nth_error (cut (layout mode) (rnd (mode_size mode))) j) as [p|] eqn:En.
  - destruct Hp as (b & Eb & <-). exists b. split; [exact Eb|].
    clear - C2 En Hj. revert j En Hj C2. generalize (layout mode). generalize (rnd (mode_size mode)).
    intros x ls. generalize (cut ls x). induction ls as [|[nm' l'] ls IH]; intros qs j En Hj C2; [destruct j; discriminate|].
    destruct qs as [|q qs]; [destruct j; discriminate|]. destruct C2 as [A B]. destruct j as [|j]; cbn in *.
    + injection En as <-. injection Hj as -> ->. exact A.
    + eapply IH; eassumption.
  - exfalso. apply nth_error_None in En. assert (j < length (layout mode))%nat by (apply nth_error_Some; congruence). unfold lenN in C3. lia.
Qed.
Lemma generate_used bd mode ops rnd : 1 <= mode <= 5 -> Forall cdop_ok ops ->
  bdata (cd_block (cd_run bd (newChd mode) ops)) <> [] ->
  cd_generate rnd (cd_run bd (newChd mode) ops) = Throw PointerThrown.
Proof.
  intros _ _ Hne. unfold cd_generate, isEmpty, getLen. destruct (bdata (cd_block _)) as [|x l]; [congruence|].
  rewrite lenN_cons. destruct (N.eqb_spec (1 + lenN l) 0); [lia|reflexivity].
Qed.

(** witnesses for C58 *)
Definition empty2 : chd := cd_run Release (newChd 2) [AddPart (mkBytes [] 1)].
Definition ch_empty2 : chainhash := match newChainHash 2 3 (Some empty2) with Ret c => c | _ => ch_default end.
Lemma empty_salt_changes : exists bd c o d d', built bd c /\ ch_val c = true /\ cdop_ok o /\
  ch_data c = Some d /\ bdata (cd_block d) = [] /\
  ch_data (shared_run bd c [o]) = Some d' /\ lenN (bdata (cd_block d')) = 255 /\ ch_val (shared_run bd c [o]) = true.
Proof.
  exists Release, ch_empty2, (Generate (repeat x01 255)), empty2.
  destruct (ch_data (shared_run Release ch_empty2 [Generate (repeat x01 255)])) as [d'|] eqn:E; [|vm_compute in E; discriminate].
  exists d'. split.
  { apply (built_ctor Release 2 3 (Some empty2)); [|vm_compute; reflexivity].
    intros x [= <-]. exists 2, [AddPart (mkBytes [] 1)]. split; [lia|]. split; [repeat constructor|reflexivity]. }
  split; [vm_compute; reflexivity|]. split; [vm_compute; discriminate|]. split; [vm_compute; reflexivity|]. split; [vm_compute; reflexivity|].
  vm_compute in E. injection E as <-. split; [vm_compute; reflexivity|]. split; vm_compute; reflexivity.
Qed.
Definition ch_open3 : chainhash := match newChainHash 3 3 (Some (newChd 3)) with Ret c => c | _ => ch_default end.
Lemma stale_invalid : exists bd c ops, built bd c /\ Forall cdop_ok ops /\
  ch_val (shared_run bd c ops) = false /\ usable (shared_run bd c ops).
Proof.
  exists Release, ch_open3, [Generate (repeat x01 255)]. split.
  { apply (built_ctor Release 3 3 (Some (newChd 3))); [|vm_compute; reflexivity].
    intros x [= <-]. exists 3, []. split; [lia|]. split; [constructor|reflexivity]. }
  split; [constructor; [vm_compute; discriminate|constructor]|]. split; [vm_compute; reflexivity|].
  exists 3. eexists. split; [vm_compute; reflexivity|]. split; [vm_compute; reflexivity|]. split; [lia|].
  split; [vm_compute; intuition discriminate|]. split; reflexivity.
Qed.
