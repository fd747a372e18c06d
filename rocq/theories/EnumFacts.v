(** Facts for C87: the decoders with checked conversions agree with the decoders, or are undefined. *)
From Coq Require Import ZArith Lia.
From Verif Require Import Base BaseFacts BytesModel MiscModel CipherModel CipherFacts PwModel ChModel HeaderModel HeaderSpec HeaderFacts HeaderFacts2 HeaderFacts3 HeaderFacts4
  HeaderFacts5 HeaderFacts8 EnumModel EnumSpec.
Open Scope N_scope.
Open Scope list_scope.

(** no block of the header object has a type outside of the values of DatablockType *)
Definition types_ok (d : dheader) : bool :=
  forallb (fun b => db_type b <? 8) (p_dec (d_parts d)) && forallb (fun e => db_type (eb_block e) <? 8) (p_enc (d_parts d)).

(** [ms] is [m] with checked conversions; after success, exactly the good results are defined *)
Definition sim {A} (good : A -> bool) (ms m : dres A) : Prop :=
  match m with
  | Ret (inr a) => ms = if good a then m else Crash Undefined
  | _ => ms = m \/ ms = Crash Undefined
  end.
Lemma sim_refl {A} (good : A -> bool) m : (forall a, m = Ret (inr a) -> good a = true) -> sim good m m.
Proof. intros H. unfold sim. destruct m as [[e | a] | | |]; auto. rewrite (H a eq_refl). reflexivity. Qed.
Lemma sim_undef {A} (good : A -> bool) m : (forall a, m = Ret (inr a) -> good a = false) -> sim good (Crash Undefined) m.
Proof. intros H. unfold sim. destruct m as [[e | a] | | |]; auto. rewrite (H a eq_refl). reflexivity. Qed.
Lemma sim_bind {A B} (g1 : A -> bool) (g2 : B -> bool) ms m ks k : sim g1 ms m ->
  (forall a, m = Ret (inr a) -> g1 a = true -> sim g2 (ks a) (k a)) ->
  (forall a b, m = Ret (inr a) -> g1 a = false -> k a = Ret (inr b) -> g2 b = false) ->
  sim g2 (dbind ms ks) (dbind m k).
Proof.
  intros H Hk Hb. unfold sim in H at 1. destruct m as [[e | a] | e | c |].
  - destruct H as [-> | ->]; cbn; auto.
  - destruct (g1 a) eqn:G; subst ms; cbn; [exact (Hk a eq_refl G) |]. apply sim_undef. intros b. exact (Hb a b eq_refl G).
  - destruct H as [-> | ->]; cbn; auto.
  - destruct H as [-> | ->]; cbn; auto.
  - destruct H as [-> | ->]; cbn; auto.
Qed.
(** a step without conversions *)
Lemma sim_step {A B} (g : B -> bool) (m : dres A) ks k : (forall a, m = Ret (inr a) -> sim g (ks a) (k a)) -> sim g (dbind m ks) (dbind m k).
Proof. intros H. destruct m as [[e | a] | e | c |]; cbn; auto. Qed.
Lemma sim_noexcept {A} (g : A -> bool) ms m : sim g ms m -> sim g (noexcept ms) (noexcept m).
Proof.
  unfold sim. destruct m as [[e | a] | e | c |]; cbn.
  - intros [-> | ->]; cbn; auto.
  - destruct (g a); intros ->; reflexivity.
  - intros [-> | ->]; cbn; auto.
  - intros [-> | ->]; cbn; auto.
  - intros [-> | ->]; cbn; auto.
Qed.

Lemma dbind_ret {A B} (m : dres A) (k : A -> dres B) b : dbind m k = Ret (inr b) -> exists a, m = Ret (inr a) /\ k a = Ret (inr b).
Proof. destruct m as [[e | a] | e | c |]; cbn; try discriminate. eauto. Qed.
Lemma bind_inv {A B} (m : outcome A) (k : A -> outcome B) b : bind m k = Ret b -> exists a, m = Ret a /\ k a = Ret b.
Proof. destruct m; cbn; try discriminate. eauto. Qed.
Lemma lift_ret {A} (m : outcome A) a : lift m = Ret (inr a) -> m = Ret a.
Proof. unfold lift, dret. destruct m; cbn; congruence. Qed.
Lemma try_ret {A} h (m : outcome A) a : try_ h m = Ret (inr a) -> m = Ret a.
Proof. unfold try_, dret, dfail. destruct m; try congruence. destruct (h e); congruence. Qed.

(** what each step does with the blocks *)
Lemma new_types rnd m d : newDataHeader rnd m = Ret d -> types_ok d = true.
Proof.
  unfold newDataHeader, p_setHashMode. destruct (hash_mode_valid m); [| discriminate]. intros H.
  apply bind_inv in H as (p & Hp & H). injection Hp as <-. apply bind_inv in H as (s & _ & H). apply bind_inv in H as (p' & Hp' & H).
  injection H as <-. unfold p_setSalt in Hp'. apply bind_inv in Hp' as (n & _ & Hp'). destruct (_ =? _); [| discriminate]. injection Hp' as <-. reflexivity.
Qed.
Lemma fmode_types m d d' : d_setFileDataMode m d = Ret d' -> types_ok d' = types_ok d.
Proof. unfold d_setFileDataMode, p_setFileDataMode. destruct (file_mode_valid m); cbn; [| discriminate]. intros [= <-]. reflexivity. Qed.
Lemma ch1_types c d d' : setChainHash1 c d = Ret d' -> types_ok d' = types_ok d.
Proof. unfold setChainHash1. destruct (ch_val c); cbn; [| discriminate]. intros H. apply bind_inv in H as (c' & _ & H). injection H as <-. reflexivity. Qed.
Lemma ch2_types c d d' : setChainHash2 c d = Ret d' -> types_ok d' = types_ok d.
Proof. unfold setChainHash2. destruct (ch_val c); cbn; [| discriminate]. intros H. apply bind_inv in H as (c' & _ & H). injection H as <-. reflexivity. Qed.
Lemma valid_types b d d' : setValidPasswordHashBytes b d = Ret d' -> types_ok d' = types_ok d.
Proof.
  unfold setValidPasswordHashBytes, p_setValid. intros H. apply bind_inv in H as (p & Hp & H). injection H as <-.
  apply bind_inv in Hp as (n & _ & Hp). destruct (_ =? _); [| discriminate]. injection Hp as <-. reflexivity.
Qed.
Lemma salt_types b d d' : d_setEncSalt b d = Ret d' -> types_ok d' = types_ok d.
Proof.
  unfold d_setEncSalt, p_setSalt. intros H. apply bind_inv in H as (p & Hp & H). injection H as <-.
  apply bind_inv in Hp as (n & _ & Hp). destruct (_ =? _); [| discriminate]. injection Hp as <-. reflexivity.
Qed.
Lemma size_types n d d' : setFileSize n d = Ret d' -> types_ok d' = types_ok d.
Proof.
  unfold setFileSize. destruct (negb _); [discriminate |]. intros H. apply bind_inv in H as (l & _ & H). destruct (_ <? _); [discriminate |].
  injection H as <-. reflexivity.
Qed.
Lemma calc_types d d' : calc_plain d = Ret d' -> types_ok d' = types_ok d.
Proof.
  unfold calc_plain. destruct (calcHeaderBytes _ _ _ d) as [d1 r] eqn:E. intros H. apply bind_inv in H as (u & -> & H). injection H as <-.
  unfold calcHeaderBytes in E. cbv zeta in E.
  destruct (if negb (d_isComplete d) then _ else _) as [n | | |]; try discriminate.
  destruct (getHeaderLength _) as [len | | |]; try discriminate.
  destruct (calcBody _ _ _) as [t | [] | |]; try discriminate.
  destruct (negb _); [discriminate |]. injection E as <- _. reflexivity.
Qed.
Lemma add_types b d d' : addDataBlock b d = Ret d' -> types_ok d' = types_ok d && (db_type b <? 8).
Proof.
  unfold addDataBlock. destruct (_ <=? _); [discriminate |]. intros [= <-]. unfold types_ok. cbn. rewrite forallb_app. cbn.
  rewrite andb_true_r. rewrite <- !andb_assoc. f_equal. apply andb_comm.
Qed.
Lemma addenc_types b d d' : addEncDataBlock b d = Ret d' -> types_ok d' = types_ok d && (db_type (eb_block b) <? 8).
Proof.
  unfold addEncDataBlock. destruct (_ <=? _); [discriminate |]. intros [= <-]. unfold types_ok. cbn. rewrite forallb_app. cbn.
  rewrite andb_true_r. rewrite andb_assoc. reflexivity.
Qed.
Lemma newblock_type ty data b : newDataBlock ty data = Ret b -> db_type b = ty.
Proof. unfold newDataBlock, db_setData. destruct (_ && _); [| discriminate]. intros [= <-]. reflexivity. Qed.
Lemma createenc_type ty data l b : createEncBlock ty data l = Ret b -> db_type (eb_block b) = ty.
Proof.
  unfold createEncBlock, db_setData. destruct (negb _); [discriminate |]. cbn. destruct (_ && _); cbn; [| discriminate]. intros [= <-]. reflexivity.
Qed.

Lemma cast_ok m v : v < values m -> cast m v = Ret v.
Proof. intros H. unfold cast. apply N.ltb_lt in H. rewrite H. reflexivity. Qed.
Lemma cast_bad m v : values m <= v -> cast m v = Crash Undefined.
Proof. intros H. unfold cast. apply N.ltb_ge in H. rewrite H. reflexivity. Qed.

(** adding a block *)
Lemma sim_add ty data d : types_ok d = true ->
  sim types_ok (lift (b <- newDataBlock_e ty data ;; addDataBlock b d)) (lift (b <- newDataBlock ty data ;; addDataBlock b d)).
Proof.
  intros Hd. unfold newDataBlock_e. destruct (N.lt_ge_cases ty 8) as [L | L].
  - rewrite cast_ok by exact L. cbn [bind]. apply sim_refl. intros d' H. apply lift_ret in H. apply bind_inv in H as (b & Hb & H).
    apply add_types in H. rewrite H, Hd, (newblock_type _ _ _ Hb). apply N.ltb_lt. exact L.
  - rewrite cast_bad by exact L. cbn [bind lift]. apply sim_undef. intros d' H. apply lift_ret in H. apply bind_inv in H as (b & Hb & H).
    apply add_types in H. rewrite H, Hd, (newblock_type _ _ _ Hb). apply N.ltb_ge. exact L.
Qed.
Lemma sim_addenc ty data l d : types_ok d = true ->
  sim types_ok (lift (b <- createEncBlock_e ty data l ;; addEncDataBlock b d)) (lift (b <- createEncBlock ty data l ;; addEncDataBlock b d)).
Proof.
  intros Hd. destruct (N.lt_ge_cases ty 8) as [L | L].
  - replace (createEncBlock_e ty data l) with (createEncBlock ty data l)
      by (unfold createEncBlock_e, createEncBlock; rewrite cast_ok by exact L; reflexivity).
    apply sim_refl. intros d' H. apply lift_ret in H. apply bind_inv in H as (b & Hb & H).
    apply addenc_types in H. rewrite H, Hd, (createenc_type _ _ _ _ Hb). apply N.ltb_lt. exact L.
  - destruct (negb (getLen data =? 255)) eqn:E.
    + unfold createEncBlock_e, createEncBlock. rewrite E. cbn. left. reflexivity.
    + unfold createEncBlock_e at 1. rewrite E, cast_bad by exact L. cbn [bind lift]. apply sim_undef. intros d' H. apply lift_ret in H.
      apply bind_inv in H as (b & Hb & H). apply addenc_types in H. rewrite H, Hd, (createenc_type _ _ _ _ Hb). apply N.ltb_ge. exact L.
Qed.
(** blocks are only added *)
Lemma blocks_types n : forall d s d' s', s_blocks n d s = Ret (inr (d', s')) -> types_ok d = false -> types_ok d' = false.
Proof.
  induction n as [| n IH]; cbn [s_blocks]; intros d s d' s' H Hd; [injection H as <- _; exact Hd |].
  apply dbind_ret in H as ((ty & s1) & _ & H). apply dbind_ret in H as ((len & s2) & _ & H). apply dbind_ret in H as ((data & s3) & _ & H).
  apply dbind_ret in H as (d1 & H1 & H). apply IH in H; [exact H |]. apply lift_ret in H1. apply bind_inv in H1 as (b & _ & H1).
  apply add_types in H1. rewrite H1, Hd. reflexivity.
Qed.
Lemma encs_types n : forall d s d' s', s_encs n d s = Ret (inr (d', s')) -> types_ok d = false -> types_ok d' = false.
Proof.
  induction n as [| n IH]; cbn [s_encs]; intros d s d' s' H Hd; [injection H as <- _; exact Hd |].
  apply dbind_ret in H as ((ty & s1) & _ & H). apply dbind_ret in H as ((len & s2) & _ & H). apply dbind_ret in H as ((data & s3) & _ & H).
  apply dbind_ret in H as (d1 & H1 & H). apply IH in H; [exact H |]. apply lift_ret in H1. apply bind_inv in H1 as (b & _ & H1).
  apply addenc_types in H1. rewrite H1, Hd. reflexivity.
Qed.
Definition good2 {A} (p : dheader * A) : bool := types_ok (fst p).
Lemma sim_blocks n : forall d s, types_ok d = true -> sim good2 (s_blocks_e n d s) (s_blocks n d s).
Proof.
  induction n as [| n IH]; cbn [s_blocks s_blocks_e]; intros d s Hd; [apply sim_refl; intros a [= <-]; exact Hd |].
  apply sim_step. intros (ty & s1) _. apply sim_step. intros (len & s2) _. apply sim_step. intros (data & s3) _.
  apply sim_bind with (g1 := types_ok); [exact (sim_add _ _ _ Hd) | |].
  - intros d1 _ H1. apply IH. exact H1.
  - intros d1 (d2 & s4) _ H1 H2. exact (blocks_types _ _ _ _ _ H2 H1).
Qed.
Lemma sim_encs n : forall d s, types_ok d = true -> sim good2 (s_encs_e n d s) (s_encs n d s).
Proof.
  induction n as [| n IH]; cbn [s_encs s_encs_e]; intros d s Hd; [apply sim_refl; intros a [= <-]; exact Hd |].
  apply sim_step. intros (ty & s1) _. apply sim_step. intros (len & s2) _. apply sim_step. intros (data & s3) _.
  apply sim_bind with (g1 := types_ok); [exact (sim_addenc _ _ _ _ Hd) | |].
  - intros d1 _ H1. apply IH. exact H1.
  - intros d1 (d2 & s4) _ H1 H2. exact (encs_types _ _ _ _ _ H2 H1).
Qed.

(** a mode that is accepted is a value of its enumeration *)
Lemma format_sim h mode : sim (fun _ => true) (try_ h (newFormat_e mode)) (try_ h (newFormat mode)).
Proof.
  unfold newFormat_e. destruct (N.lt_ge_cases mode 8) as [L | L].
  - rewrite cast_ok by exact L. apply sim_refl. reflexivity.
  - rewrite cast_bad by exact L. cbn [bind try_]. unfold newFormat, ch_mode_valid.
    replace (mode <=? 5) with false by (symmetry; apply N.leb_gt; lia). rewrite andb_false_r. cbn. destruct (h InvalidArgument); right; reflexivity.
Qed.
Lemma format_mode mode f : newFormat mode = Ret f -> f = mode /\ mode < 8.
Proof.
  unfold newFormat, ch_mode_valid. destruct (_ && _) eqn:E; [| discriminate]. intros [= <-]. apply andb_prop in E as (_ & E). apply N.leb_le in E. split; [reflexivity | lia].
Qed.
Lemma newheader_sim h rnd mode : sim types_ok (try_ h (newDataHeader_e rnd mode)) (try_ h (newDataHeader rnd mode)).
Proof.
  unfold newDataHeader_e. destruct (N.lt_ge_cases mode 4) as [L | L].
  - rewrite cast_ok by exact L. apply sim_refl. intros a H. apply try_ret in H. exact (new_types _ _ _ H).
  - rewrite cast_bad by exact L. cbn [bind try_]. unfold newDataHeader, p_setHashMode, hash_mode_valid.
    replace (mode <=? 3) with false by (symmetry; apply N.leb_gt; lia). rewrite andb_false_r. cbn. destruct (h InvalidArgument); right; reflexivity.
Qed.
Lemma fmode_sim h mode d : types_ok d = true -> sim types_ok (try_ h (setFileDataMode_e mode d)) (try_ h (d_setFileDataMode mode d)).
Proof.
  intros Hd. unfold setFileDataMode_e. destruct (N.lt_ge_cases mode 2) as [L | L].
  - rewrite cast_ok by exact L. apply sim_refl. intros a H. apply try_ret in H. rewrite (fmode_types _ _ _ H). exact Hd.
  - rewrite cast_bad by exact L. cbn [bind try_]. unfold d_setFileDataMode, p_setFileDataMode, file_mode_valid.
    replace (mode <=? 1) with false by (symmetry; apply N.leb_gt; lia). rewrite andb_false_r. cbn. destruct (h InvalidArgument); right; reflexivity.
Qed.
Definition keeps (set : chainhash -> dheader -> outcome dheader) : Prop := forall c d d', set c d = Ret d' -> types_ok d' = types_ok d.
Lemma chain_sim bd code set d s : keeps set -> types_ok d = true -> sim good2 (s_chain_e bd code set d s) (s_chain bd code set d s).
Proof.
  intros K Hd. unfold s_chain_e, s_chain. apply sim_step. intros (mode & s1) _.
  apply sim_bind with (g1 := fun _ => true); [apply format_sim | | discriminate].
  intros f Hf _. apply try_ret, format_mode in Hf as (-> & L).
  apply sim_step. intros (iters & s2) _. apply sim_step. intros (lb & s3) _. apply sim_step. intros ((dl & c) & s4) _.
  apply sim_step. intros _ _. apply sim_step. intros _ _. rewrite cast_ok by exact L. cbn [bind].
  apply sim_step. intros d1 H1. apply sim_refl. intros a [= <-]. apply try_ret in H1. apply bind_inv in H1 as (ch & _ & H1).
  unfold good2. cbn. rewrite (K _ _ _ H1). exact Hd.
Qed.
Lemma chain_types bd code set d s d' s' : keeps set -> s_chain bd code set d s = Ret (inr (d', s')) -> types_ok d' = types_ok d.
Proof.
  intros K H. unfold s_chain in H. apply dbind_ret in H as ((mode & s1) & _ & H). apply dbind_ret in H as (f & _ & H).
  apply dbind_ret in H as ((it & s2) & _ & H). apply dbind_ret in H as ((lb & s3) & _ & H). apply dbind_ret in H as (((dl & c) & s4) & _ & H).
  apply dbind_ret in H as (? & _ & H). apply dbind_ret in H as (? & _ & H). apply dbind_ret in H as (d1 & H1 & H). injection H as <- _.
  apply try_ret in H1. apply bind_inv in H1 as (ch & _ & H1). exact (K _ _ _ H1).
Qed.
Lemma keeps1 : keeps setChainHash1. Proof. exact ch1_types. Qed.
Lemma keeps2 : keeps setChainHash2. Proof. exact ch2_types. Qed.

(** the tail after the blocks only keeps or adds blocks *)
Ltac inv_bind H x Hx := apply dbind_ret in H as (x & Hx & H).
Lemma stream_sim bd rnd file : sim good2 (decode_stream_e bd rnd file) (decode_stream bd rnd file).
Proof.
  unfold decode_stream_e, decode_stream. apply sim_noexcept.
  apply sim_step. intros (fs & s1) _. apply sim_step. intros (hsz & s2) _.
  destruct (negb _); [left; reflexivity |]. destruct (fs <? hsz); [left; reflexivity |].
  apply sim_step. intros (fm & s3) _. apply sim_step. intros (hm & s4) _.
  apply sim_bind with (g1 := types_ok); [apply newheader_sim | |].
  2: { intros d b H H'. apply try_ret, new_types in H. congruence. }
  intros d0 _ H0. apply sim_bind with (g1 := types_ok); [exact (fmode_sim _ _ _ H0) | |].
  2: { intros d b H H'. apply try_ret, fmode_types in H. congruence. }
  intros d1 _ H1. apply sim_step. intros (n & s5) _.
  apply sim_bind with (g1 := good2); [exact (sim_blocks _ _ _ H1) | |].
  - intros (d2 & s6) _ H2. unfold good2 in H2; cbn in H2.
    apply sim_bind with (g1 := good2); [exact (chain_sim _ _ _ _ _ keeps1 H2) | |].
    2: { intros (d & s) b H H'. apply (chain_types _ _ _ _ _ _ _ keeps1) in H. unfold good2 in H'; cbn in H'. congruence. }
    intros (d3 & s7) _ H3. unfold good2 in H3; cbn in H3.
    apply sim_bind with (g1 := good2); [exact (chain_sim _ _ _ _ _ keeps2 H3) | |].
    2: { intros (d & s) b H H'. apply (chain_types _ _ _ _ _ _ _ keeps2) in H. unfold good2 in H'; cbn in H'. congruence. }
    intros (d4 & s8) _ H4. unfold good2 in H4; cbn in H4.
    apply sim_step. intros (v & s9) _. apply sim_step. intros d5 H5. apply sim_step. intros (sa & s10) _. apply sim_step. intros d6 H6.
    apply sim_step. intros d7 H7. apply sim_step. intros (n2 & s11) _.
    apply try_ret, valid_types in H5. apply try_ret, salt_types in H6. apply try_ret, size_types in H7.
    assert (H8 : types_ok d7 = true) by congruence.
    apply sim_bind with (g1 := good2); [exact (sim_encs _ _ _ H8) | |].
    + intros (d8 & s12) _ H9. unfold good2 in H9; cbn in H9.
      apply sim_step. intros d9 H10. apply sim_step. intros l _. apply sim_step. intros _ _. apply sim_step. intros _ _.
      apply sim_refl. intros a [= <-]. unfold good2; cbn. apply try_ret, calc_types in H10. congruence.
    + intros (d8 & s12) (d9 & s13) _ H9 H. unfold good2 in *; cbn in *. inv_bind H d10 H10. inv_bind H l Hl. inv_bind H x1 Hx1. inv_bind H x2 Hx2.
      injection H as <- _. apply try_ret, calc_types in H10. congruence.
  - intros (d2 & s6) (d9 & s13) _ H2 H. unfold good2 in *; cbn in *.
    apply dbind_ret in H as ((d3 & s7) & H3 & H). apply (chain_types _ _ _ _ _ _ _ keeps1) in H3.
    apply dbind_ret in H as ((d4 & s8) & H4 & H). apply (chain_types _ _ _ _ _ _ _ keeps2) in H4.
    apply dbind_ret in H as ((v & s9) & _ & H). inv_bind H d5 H5. apply dbind_ret in H as ((sa & s10) & _ & H). inv_bind H d6 H6. inv_bind H d7 H7.
    apply dbind_ret in H as ((n2 & s11) & _ & H). apply dbind_ret in H as ((d8 & s12) & H8 & H). inv_bind H d10 H10. inv_bind H l Hl. inv_bind H x1 Hx1. inv_bind H x2 Hx2.
    injection H as <- _. apply try_ret, valid_types in H5. apply try_ret, salt_types in H6. apply try_ret, size_types in H7. apply try_ret, calc_types in H10.
    assert (types_ok d7 = false) by congruence. rewrite H10. exact (encs_types _ _ _ _ _ H8 H).
Qed.

(** ** the in-memory decoder *)
Lemma m_blocks_types n : forall f d ix d' ix', m_blocks n f d ix = Ret (inr (d', ix')) -> types_ok d = false -> types_ok d' = false.
Proof.
  induction n as [| n IH]; cbn [m_blocks]; cbv zeta; intros f d ix d' ix' H Hd; [injection H as <- _; exact Hd |].
  inv_bind H ty Ht. inv_bind H len Hl. inv_bind H data Hda. inv_bind H d1 H1. apply IH in H; [exact H |].
  apply lift_ret in H1. apply bind_inv in H1 as (b & _ & H1). apply add_types in H1. rewrite H1, Hd. reflexivity.
Qed.
Lemma m_encs_types n : forall f d ix d' ix', m_encs n f d ix = Ret (inr (d', ix')) -> types_ok d = false -> types_ok d' = false.
Proof.
  induction n as [| n IH]; cbn [m_encs]; cbv zeta; intros f d ix d' ix' H Hd; [injection H as <- _; exact Hd |].
  inv_bind H ty Ht. inv_bind H len Hl. inv_bind H data Hda. inv_bind H d1 H1. apply IH in H; [exact H |].
  apply lift_ret in H1. apply bind_inv in H1 as (b & _ & H1). apply addenc_types in H1. rewrite H1, Hd. reflexivity.
Qed.
Lemma sim_m_blocks n : forall f d ix, types_ok d = true -> sim good2 (m_blocks_e n f d ix) (m_blocks n f d ix).
Proof.
  induction n as [| n IH]; cbn [m_blocks m_blocks_e]; cbv zeta; intros f d ix Hd; [apply sim_refl; intros a [= <-]; exact Hd |].
  apply sim_step. intros ty _. apply sim_step. intros len _. apply sim_step. intros data _.
  apply sim_bind with (g1 := types_ok); [exact (sim_add _ _ _ Hd) | |].
  - intros d1 _ H1. apply IH. exact H1.
  - intros d1 (d2 & i2) _ H1 H2. exact (m_blocks_types _ _ _ _ _ _ H2 H1).
Qed.
Lemma sim_m_encs n : forall f d ix, types_ok d = true -> sim good2 (m_encs_e n f d ix) (m_encs n f d ix).
Proof.
  induction n as [| n IH]; cbn [m_encs m_encs_e]; cbv zeta; intros f d ix Hd; [apply sim_refl; intros a [= <-]; exact Hd |].
  apply sim_step. intros ty _. apply sim_step. intros len _. apply sim_step. intros data _.
  apply sim_bind with (g1 := types_ok); [exact (sim_addenc _ _ _ _ Hd) | |].
  - intros d1 _ H1. apply IH. exact H1.
  - intros d1 (d2 & i2) _ H1 H2. exact (m_encs_types _ _ _ _ _ _ H2 H1).
Qed.
Lemma m_format_sim h f ix : sim (fun _ => true) (try_ h (m <- at1 f ix ;; newFormat_e m)) (try_ h (m <- at1 f ix ;; newFormat m)).
Proof. destruct (at1 f ix) as [m | e | c |]; cbn [bind]; [apply format_sim | | |]; apply sim_refl; reflexivity. Qed.
Lemma m_chain_sim bd code set f d ix : keeps set -> types_ok d = true -> sim good2 (m_chain_e bd code set f d ix) (m_chain bd code set f d ix).
Proof.
  intros K Hd. unfold m_chain_e, m_chain. cbv zeta.
  apply sim_bind with (g1 := fun _ => true); [apply m_format_sim | | discriminate].
  intros mode Hf _. apply try_ret, bind_inv in Hf as (m & _ & Hf). apply format_mode in Hf as (-> & L).
  apply sim_step. intros iters _. apply sim_step. intros lb _. apply sim_step. intros ((dl & c) & i2) _.
  apply sim_step. intros _ _. apply sim_step. intros _ _. rewrite cast_ok by exact L. cbn [bind].
  apply sim_step. intros d1 H1. apply sim_refl. intros a [= <-]. apply try_ret in H1. apply bind_inv in H1 as (ch & _ & H1).
  unfold good2. cbn. rewrite (K _ _ _ H1). exact Hd.
Qed.
Lemma m_chain_types bd code set f d ix d' ix' : keeps set -> m_chain bd code set f d ix = Ret (inr (d', ix')) -> types_ok d' = types_ok d.
Proof.
  intros K H. unfold m_chain in H. cbv zeta in H. inv_bind H mode Hm. inv_bind H it Hi. inv_bind H lb Hl.
  apply dbind_ret in H as (((dl & c) & i2) & _ & H). inv_bind H x1 Hx1. inv_bind H x2 Hx2. inv_bind H d1 H1. injection H as <- _.
  apply try_ret in H1. apply bind_inv in H1 as (ch & _ & H1). exact (K _ _ _ H1).
Qed.
Lemma m_valid_types h f a b d d' : try_ h (v <- copySubBytes a b f ;; setValidPasswordHashBytes v d) = Ret (inr d') -> types_ok d' = types_ok d.
Proof. intros H. apply try_ret, bind_inv in H as (v & _ & H). exact (valid_types _ _ _ H). Qed.
Lemma m_salt_types h f a b d d' : try_ h (v <- copySubBytes a b f ;; d_setEncSalt v d) = Ret (inr d') -> types_ok d' = types_ok d.
Proof. intros H. apply try_ret, bind_inv in H as (v & _ & H). exact (salt_types _ _ _ H). Qed.
Lemma mem_body_sim bd rnd f : sim types_ok (decode_mem_body_e bd rnd f) (decode_mem_body bd rnd f).
Proof.
  unfold decode_mem_body_e, decode_mem_body. cbv zeta.
  apply sim_step. intros fs _. apply sim_step. intros hsz _. destruct (_ <? _); [left; reflexivity |].
  apply sim_step. intros fm _. apply sim_step. intros hm _.
  apply sim_bind with (g1 := types_ok); [apply newheader_sim | |].
  2: { intros d b H H'. apply try_ret, new_types in H. congruence. }
  intros d0 _ H0. apply sim_bind with (g1 := types_ok); [exact (fmode_sim _ _ _ H0) | |].
  2: { intros d b H H'. apply try_ret, fmode_types in H. congruence. }
  intros d1 _ H1. apply sim_step. intros n _.
  apply sim_bind with (g1 := good2); [exact (sim_m_blocks _ _ _ _ H1) | |].
  - intros (d2 & i2) _ H2. unfold good2 in H2; cbn in H2.
    apply sim_bind with (g1 := good2); [exact (m_chain_sim _ _ _ _ _ _ keeps1 H2) | |].
    2: { intros (d & s) b H H'. apply (m_chain_types _ _ _ _ _ _ _ _ keeps1) in H. unfold good2 in H'; cbn in H'. congruence. }
    intros (d3 & i3) _ H3. unfold good2 in H3; cbn in H3.
    apply sim_bind with (g1 := good2); [exact (m_chain_sim _ _ _ _ _ _ keeps2 H3) | |].
    2: { intros (d & s) b H H'. apply (m_chain_types _ _ _ _ _ _ _ _ keeps2) in H. unfold good2 in H'; cbn in H'. congruence. }
    intros (d4 & i4) _ H4. unfold good2 in H4; cbn in H4.
    apply sim_step. intros d5 H5. apply sim_step. intros d6 H6. apply sim_step. intros n2 _.
    apply m_valid_types in H5. apply m_salt_types in H6. assert (H8 : types_ok d6 = true) by congruence.
    apply sim_bind with (g1 := good2); [exact (sim_m_encs _ _ _ _ H8) | |].
    + intros (d8 & i8) _ H9. unfold good2 in H9; cbn in H9.
      apply sim_step. intros d7 H7. apply try_ret, size_types in H7.
      apply sim_step. intros d9 H10. apply sim_step. intros l _. apply sim_step. intros _ _. apply sim_step. intros _ _.
      apply sim_refl. intros a [= <-]. apply try_ret, calc_types in H10. congruence.
    + intros (d8 & s12) d9 _ H9 H. unfold good2 in *; cbn in *. inv_bind H d7 H7. inv_bind H d10 H10. inv_bind H l Hl. inv_bind H x1 Hx1. inv_bind H x2 Hx2.
      injection H as <-. apply try_ret, size_types in H7. apply try_ret, calc_types in H10. congruence.
  - intros (d2 & i2) d9 _ H2 H. unfold good2 in *; cbn in *.
    apply dbind_ret in H as ((d3 & s7) & H3 & H). apply (m_chain_types _ _ _ _ _ _ _ _ keeps1) in H3.
    apply dbind_ret in H as ((d4 & s8) & H4 & H). apply (m_chain_types _ _ _ _ _ _ _ _ keeps2) in H4.
    inv_bind H d5 H5. inv_bind H d6 H6. inv_bind H n2 Hn. apply dbind_ret in H as ((d8 & s12) & H8 & H).
    inv_bind H d7 H7. inv_bind H d10 H10. inv_bind H l Hl. inv_bind H x1 Hx1. inv_bind H x2 Hx2.
    injection H as <-. apply m_valid_types in H5. apply m_salt_types in H6. apply try_ret, size_types in H7. apply try_ret, calc_types in H10.
    assert (types_ok d6 = false) by congruence. rewrite H10, H7. exact (m_encs_types _ _ _ _ _ _ H8 H).
Qed.
Lemma mem_sim bd rnd f : sim types_ok (decode_mem_e bd rnd f) (decode_mem bd rnd f).
Proof.
  unfold decode_mem_e, decode_mem. apply sim_noexcept. pose proof (mem_body_sim bd rnd f) as S. unfold sim in S.
  destruct (decode_mem_body bd rnd f) as [[e | a] | e | c |].
  - destruct S as [-> | ->]; cbn; auto.
  - destruct (types_ok a) eqn:E; rewrite S; cbn; rewrite E; reflexivity.
  - destruct S as [-> | ->]; destruct e; cbn; auto.
  - destruct S as [-> | ->]; cbn; auto.
  - destruct S as [-> | ->]; cbn; auto.
Qed.
Lemma sim_or {A} (g : A -> bool) ms m : sim g ms m -> ms = m \/ ms = Crash Undefined.
Proof. unfold sim. destruct m as [[e | a] | | |]; auto. destruct (g a); auto. Qed.
Lemma stream_or bd rnd file : decode_stream_e bd rnd file = decode_stream bd rnd file \/ decode_stream_e bd rnd file = Crash Undefined.
Proof. exact (sim_or _ _ _ (stream_sim bd rnd file)). Qed.
Lemma mem_or bd rnd f : decode_mem_e bd rnd f = decode_mem bd rnd f \/ decode_mem_e bd rnd f = Crash Undefined.
Proof. exact (sim_or _ _ _ (mem_sim bd rnd f)). Qed.

(** ** in terms of the contents *)
Lemma types_contents d h : contents d = Some h -> (types_ok d = true <-> types_small h).
Proof.
  unfold contents. repeat match goal with |- match ?x with Some _ => _ | None => _ end = Some _ -> _ => destruct x; try discriminate end.
  intros [= <-].
  unfold types_small. cbn [h_blocks h_encs]. unfold types_ok. rewrite andb_true_iff, !forallb_forall, !Forall_map, !Forall_forall. cbn [fst].
  split; intros (A & B); split; intros x Hx; apply N.ltb_lt; auto.
Qed.
Lemma stream_ok bd rnd file d h r : decode_stream bd rnd file = Ret (inr (d, r)) -> contents d = Some h ->
  (types_small h -> decode_stream_e bd rnd file = Ret (inr (d, r))) /\ (~ types_small h -> decode_stream_e bd rnd file = Crash Undefined).
Proof.
  intros E C. pose proof (stream_sim bd rnd file) as S. rewrite E in S. cbn in S. unfold good2 in S; cbn in S.
  pose proof (types_contents d h C) as T. destruct (types_ok d).
  - split; [auto |]. intros X. exfalso. apply X, T. reflexivity.
  - split; [intros X; apply T in X; discriminate | auto].
Qed.
Lemma mem_ok bd rnd f d h : decode_mem bd rnd f = Ret (inr d) -> contents d = Some h ->
  (types_small h -> decode_mem_e bd rnd f = Ret (inr d)) /\ (~ types_small h -> decode_mem_e bd rnd f = Crash Undefined).
Proof.
  intros E C. pose proof (mem_sim bd rnd f) as S. rewrite E in S. cbn in S.
  pose proof (types_contents d h C) as T. destruct (types_ok d).
  - split; [auto |]. intros X. exfalso. apply X, T. reflexivity.
  - split; [intros X; apply T in X; discriminate | auto].
Qed.
(** ** files with invalid modes *)
Ltac front_tac file hsz E Hf Hh :=
  rewrite E at 1; unfold front; rewrite read8_u64 by exact Hf; cbn [dbind dret]; rewrite read8_u64 by lia; cbn [dbind dret];
  rewrite N.eqb_refl; cbn [negb]; destruct (N.ltb_spec (lenN file) hsz); [lia |];
  rewrite read1_u8 by lia; cbn [need dbind dret]; rewrite read1_u8 by lia; cbn [need dbind dret].
Lemma hash_mode_bad bd rnd file hsz fm hm r : sized file hsz -> fm < 256 -> hm < 256 -> ~ 1 <= hm <= 3 -> file = front (lenN file) hsz fm hm r ->
  decode_stream bd rnd file = Ret (inl ERR_HASHMODE_INVALID) /\
  decode_stream_e bd rnd file = if hm =? 0 then Ret (inl ERR_HASHMODE_INVALID) else Crash Undefined.
Proof.
  intros (Hf & Hh) F M V E.
  assert (X : newDataHeader rnd hm = Throw InvalidArgument).
  { unfold newDataHeader, p_setHashMode, hash_mode_valid. destruct (N.leb_spec 1 hm); destruct (N.leb_spec hm 3); try reflexivity. lia. }
  split.
  - unfold decode_stream. front_tac file hsz E Hf Hh. rewrite X. reflexivity.
  - unfold decode_stream_e. front_tac file hsz E Hf Hh. unfold newDataHeader_e. destruct (N.eqb_spec hm 0) as [-> | Z].
    + rewrite cast_ok by reflexivity. cbn [bind]. rewrite X. reflexivity.
    + rewrite cast_bad; [reflexivity |]. change (values HM_MAX) with 4. lia.
Qed.
Lemma file_mode_bad bd rnd file hsz fm hm r : (forall k, lenN (rnd k) = k) -> sized file hsz -> fm < 256 -> 1 <= hm <= 3 -> fm <> 1 ->
  file = front (lenN file) hsz fm hm r ->
  decode_stream bd rnd file = Ret (inl ERR_FILEMODE_INVALID) /\
  decode_stream_e bd rnd file = if fm =? 0 then Ret (inl ERR_FILEMODE_INVALID) else Crash Undefined.
Proof.
  intros Hr (Hf & Hh) F V M E.
  assert (X : forall d, d_setFileDataMode fm d = Throw InvalidArgument).
  { intros d. unfold d_setFileDataMode, p_setFileDataMode, file_mode_valid. destruct (N.leb_spec 1 fm); destruct (N.leb_spec fm 1); try reflexivity. lia. }
  split.
  - unfold decode_stream. front_tac file hsz E Hf Hh. rewrite (new_start rnd hm Hr V). cbn [try_ dbind dret]. rewrite X. reflexivity.
  - unfold decode_stream_e. front_tac file hsz E Hf Hh. unfold newDataHeader_e. rewrite cast_ok by (change (values HM_MAX) with 4; lia).
    cbn [bind]. rewrite (new_start rnd hm Hr V). cbn [try_ dbind dret]. unfold setFileDataMode_e. destruct (N.eqb_spec fm 0) as [-> | Z].
    + rewrite cast_ok by reflexivity. cbn [bind]. rewrite X. reflexivity.
    + rewrite cast_bad; [reflexivity |]. change (values FM_MAX) with 2. lia.
Qed.
(** the first chain hash mode of a file *)
Lemma blocks_e_fwd n d s d' s' : types_ok d = true -> s_blocks n d s = Ret (inr (d', s')) ->
  s_blocks_e n d s = if types_ok d' then Ret (inr (d', s')) else Crash Undefined.
Proof. intros Hd E. pose proof (sim_blocks n d s Hd) as S. rewrite E in S. exact S. Qed.
Lemma start_types hm v sa bs c1 c2 fs : types_ok (D hm v sa bs [] c1 c2 fs) = forallb (fun b => fst b <? 8) bs.
Proof. unfold types_ok, D. cbn [d_parts p_dec p_enc forallb]. rewrite andb_true_r. induction bs as [| b bs IH]; [reflexivity |]. cbn. rewrite <- IH. reflexivity. Qed.
Lemma decode_e_blocks bd rnd file hsz hm bs r : (forall k, lenN (rnd k) = k) ->
  pre_ok file hsz hm bs -> Forall (fun b => fst b < 8) bs -> file = pre (lenN file) hsz hm (lenN bs) bs ++ r ->
  exists d k, types_ok d = true /\ decode_stream_e bd rnd file = noexcept (p <~ s_chain_e bd ERR_CHAINHASH1_INVALID setChainHash1 d r ;;
    let '(d, s) := p in q <~ s_chain_e bd ERR_CHAINHASH2_INVALID setChainHash2 d s ;; k q).
Proof.
  intros Hr (Hf & Hh & V & G & L) T E. unfold decode_stream_e.
  assert (R : read8 file = dret (lenN file, u64 hsz ++ u8 1 ++ u8 hm ++ u8 (lenN bs) ++ concat (map ser_block bs) ++ r)).
  { rewrite E at 1. unfold pre. rewrite <- !app_assoc. rewrite read8_u64 by exact Hf. reflexivity. }
  rewrite R. cbn [dbind dret]. rewrite read8_u64 by lia. cbn [dbind dret].
  rewrite N.eqb_refl. cbn [negb]. destruct (N.ltb_spec (lenN file) hsz); [lia |].
  rewrite read1_u8 by lia. cbn [need dbind dret]. rewrite read1_u8 by lia. cbn [need dbind dret].
  unfold newDataHeader_e. rewrite cast_ok by (change (values HM_MAX) with 4; lia). cbn [bind]. rewrite (new_start rnd hm Hr V). cbn [try_ dbind dret].
  unfold setFileDataMode_e. rewrite cast_ok by reflexivity. cbn [bind].
  change (d_setFileDataMode 1 (start rnd hm)) with (Ret (D hm None (salt0 rnd hm) [] [] ch_default ch_default None)). cbn [try_ dbind dret].
  rewrite read1_u8 by lia. cbn [need dbind dret].
  pose proof (blocks_fwd hm None (salt0 rnd hm) ch_default ch_default None bs [] r G L) as B.
  replace (length bs) with (N.to_nat (lenN bs)) in B by (unfold lenN; lia).
  apply blocks_e_fwd in B; [| reflexivity]. rewrite B. rewrite start_types. cbn [app].
  assert (forallb (fun b => fst b <? 8) bs = true) as X.
  { apply forallb_forall. intros x Hx. apply N.ltb_lt. rewrite Forall_forall in T. auto. }
  rewrite X. cbn [dbind]. eexists. eexists. split; [|reflexivity]. rewrite start_types. exact X.
Qed.
Lemma chain_mode_bad bd rnd file hsz hm bs mode r : (forall k, lenN (rnd k) = k) -> pre_ok file hsz hm bs -> Forall (fun b => fst b < 8) bs ->
  mode < 256 -> ~ 1 <= mode <= 5 -> file = pre (lenN file) hsz hm (lenN bs) bs ++ u8 mode ++ r ->
  decode_stream bd rnd file = Ret (inl ERR_CHAINHASHMODE_FORMAT_INVALID) /\
  decode_stream_e bd rnd file = if mode <? 8 then Ret (inl ERR_CHAINHASHMODE_FORMAT_INVALID) else Crash Undefined.
Proof.
  intros Hr P T M V E.
  assert (X : newFormat mode = Throw InvalidArgument).
  { unfold newFormat, ch_mode_valid. destruct (N.leb_spec 1 mode); destruct (N.leb_spec mode 5); try reflexivity. lia. }
  split.
  - rewrite (decode_blocks bd rnd file hsz hm bs _ Hr P E). unfold tail1, s_chain. rewrite read1_u8 by exact M. cbn [need dbind dret]. rewrite X. reflexivity.
  - destruct (decode_e_blocks bd rnd file hsz hm bs _ Hr P T E) as (d & k & _ & ->). unfold s_chain_e. rewrite read1_u8 by exact M. cbn [need dbind dret].
    unfold newFormat_e, cast. change (values CH_MAX) with 8. destruct (mode <? 8); cbn [bind]; [rewrite X |]; reflexivity.
Qed.
(** the second *)
Lemma chain_mode_bad2 bd rnd file hsz hm bs c1 mode r : (forall k, lenN (rnd k) = k) -> pre_ok file hsz hm bs -> Forall (fun b => fst b < 8) bs -> chain_ok c1 ->
  mode < 256 -> ~ 1 <= mode <= 5 -> file = pre (lenN file) hsz hm (lenN bs) bs ++ ser_chain (lenN (snd c1)) c1 ++ u8 mode ++ r ->
  decode_stream bd rnd file = Ret (inl ERR_CHAINHASHMODE_FORMAT_INVALID) /\
  decode_stream_e bd rnd file = if mode <? 8 then Ret (inl ERR_CHAINHASHMODE_FORMAT_INVALID) else Crash Undefined.
Proof.
  intros Hr P T C1 M V E.
  assert (X : newFormat mode = Throw InvalidArgument).
  { unfold newFormat, ch_mode_valid. destruct (N.leb_spec 1 mode); destruct (N.leb_spec mode 5); try reflexivity. lia. }
  split.
  - rewrite (decode_blocks bd rnd file hsz hm bs _ Hr P E). unfold tail1.
    rewrite (chain_fwd bd _ true _ c1 _ _ (shape_own c1 C1)), chain_res_ok by auto. cbn [dbind dret].
    unfold s_chain. rewrite read1_u8 by exact M. cbn [need dbind dret]. rewrite X. reflexivity.
  - destruct (decode_e_blocks bd rnd file hsz hm bs _ Hr P T E) as (d & k & Td & ->).
    pose proof (chain_sim bd ERR_CHAINHASH1_INVALID setChainHash1 d (ser_chain (lenN (snd c1)) c1 ++ u8 mode ++ r) keeps1 Td) as S.
    change setChainHash1 with (set_of true) in S at 2. rewrite (chain_fwd bd _ true _ c1 _ _ (shape_own c1 C1)), chain_res_ok in S by auto.
    unfold sim, dret in S. rewrite S. unfold good2. cbn [fst].
    replace (types_ok (with_chain true (to_ch c1) d)) with true by (symmetry; exact Td). cbn [dbind].
    unfold s_chain_e. rewrite read1_u8 by exact M. cbn [need dbind dret].
    unfold newFormat_e, cast. change (values CH_MAX) with 8. destruct (mode <? 8); cbn [bind]; [rewrite X |]; reflexivity.
Qed.
(** ** encrypted blocks *)
Lemma first_key h pw k ks : hash_ok h -> hfun h (bdata pw) = k :: ks ->
  do_hash h (bdata pw) 0 = Ret (mkBytes (k :: ks) (hsize h)) /\ keyByte 0 (mkBytes (k :: ks) (hsize h)) = Ret (b2n k).
Proof.
  intros Hh E. rewrite (hash_ret h _ Hh), E. split; [reflexivity |].
  destruct (key_byte 0 (mkBytes (k :: ks) (hsize h))) as (x & N0 & ->); [unfold getLen, lenN; cbn; lia |]. cbn in N0. injection N0 as <-. reflexivity.
Qed.
Lemma enc_new fuel rnd h b pw salt k ks : hash_ok h -> hfun h (bdata pw) = k :: ks ->
  newEncDataBlock_e fuel rnd h b pw salt = if (db_type b + b2n k) mod 256 <? 8 then newEncDataBlock fuel rnd h b pw salt else Crash Undefined.
Proof.
  intros Hh E. destruct (first_key h pw k ks Hh E) as (A & B). unfold newEncDataBlock_e, newEncDataBlock. rewrite A. cbn [bind]. rewrite B. cbn [bind].
  unfold cast. change (values DB_MAX) with 8. unfold w8. destruct (_ <? 8); reflexivity.
Qed.
Lemma enc_type h pw e k ks : hash_ok h -> hfun h (bdata pw) = k :: ks ->
  getDecType_e h pw e = if (db_type (eb_block e) + 256 - b2n k) mod 256 <? 8 then getDecType h pw e else Crash Undefined.
Proof.
  intros Hh E. destruct (first_key h pw k ks Hh E) as (A & B). unfold getDecType_e, getDecType. rewrite A. cbn [bind]. rewrite B. cbn [bind].
  unfold cast. change (values DB_MAX) with 8. unfold w8. destruct (_ <? 8); reflexivity.
Qed.
