(** Lemmas for C101: the digests of the loops over the data. *)
From Verif Require Import Base BaseFacts BytesModel BytesFacts CipherModel CipherSpec CipherFacts CipherFacts2 PwModel ChModel HeaderModel FileModel ApiModel ApiFacts
  WorkModel WorkSpec WorkFacts WorkFacts2 CworkModel CworkSpec CworkFacts1.
Open Scope N_scope.
Open Scope list_scope.
Ltac Zify.zify_post_hook ::= Z.div_mod_to_equations.

Lemma pair_eta {A B} (p : A * B) : (fst p, snd p) = p.
Proof. destruct p. reflexivity. Qed.
Lemma then_ret {A B} (m : logged A) (k : A -> logged B) x : snd m = Ret x -> then_ m k = (fst m ++ fst (k x), snd (k x)).
Proof. intros E. unfold then_. rewrite E. reflexivity. Qed.

Lemma drop_take {A} a b (l : list A) : a <= b -> dropN a (takeN b l) = takeN (b - a) (dropN a l).
Proof. intros L. unfold dropN, takeN. rewrite skipn_firstn_comm. f_equal. lia. Qed.

Set Default Proof Using "All".
Section Loops.
  Variable h : hashfn.
  Hypothesis hs_pos : 0 < hsize h.
  Hypothesis hs_le : hsize h <= 255.
  Hypothesis h_len : forall x, lenN (hfun h x) = hsize h.
  Local Notation bsz := (hsize h).
  Local Notation dig := (hfun h).
  Local Notation ev := (map EvHash).

  (** one round, with [m] bytes of data in the next piece *)
  Definition round_at (k : kind) (st0 : kstate) (fulls : list bytes) (M : N) (piece : bytes) (more : bool) (next : chain -> logged chain) (r : logged chain) : Prop :=
    if more then
      exists c2, Rep h k st0 (fulls ++ [piece]) [] M c2 /\
        r = (ev (plain h k (st_of h k st0 fulls) piece :: pad_texts dig (st_of h k st0 (fulls ++ [piece]))) ++ fst (next c2), snd (next c2))
    else exists c2, r = (if lenN piece =? bsz then ev [plain h k (st_of h k st0 fulls) piece] else [], Ret c2).

  Lemma round_common k st0 fulls M c (part : Bytes) (more : bool) next : keys_ok h st0 -> Rep h k st0 fulls [] M c ->
    getLen part <= bsz -> (more = true -> getLen part = bsz) -> lenN (concat fulls) + getLen part <= M -> forall b, c_cur c = Some b ->
    round_at k st0 fulls M (bdata part) more next
      (b' <=- blk_addData_w (c_kind c) part b ;; if more then x <=- addBlock_w (set_cur c b') ;; next (snd x) else quiet (Ret (set_cur c b'))).
  Proof.
    intros Hk0 HR Hle Hmore HM b Hb. pose proof HR as (_ & Hkd & (b0 & Hb0 & HB) & _). rewrite Hb in Hb0. injection Hb0 as <-. rewrite Hkd.
    destruct (blk_addData_ok h hs_pos hs_le h_len k _ [] b part HB) as (b' & Hb' & HB'); [rewrite lenN_nil; lia|]. cbn [app] in HB'.
    pose proof (blk_addData_events h hs_pos hs_le h_len k _ [] b part HB) as He. rewrite lenN_nil in He. specialize (He ltac:(lia) ltac:(lia)). cbn [app] in He. rewrite N.add_0_l in He.
    pose proof (Rep_set_cur h hs_pos hs_le h_len _ _ _ _ _ _ _ _ HR HB') as HR'.
    rewrite (then_ret _ _ b') by (rewrite blk_addData_res; exact Hb'). rewrite He. unfold round_at. change (getLen part) with (lenN (bdata part)) in *.
    destruct more.
    - specialize (Hmore eq_refl). rewrite Hmore, N.eqb_refl.
      destruct (addBlock_full h hs_pos hs_le h_len k st0 fulls (bdata part) M (set_cur c b') Hk0 HR' Hmore) as (c2 & Hc2 & HR2); [lia|].
      pose proof (addBlock_full_events h hs_pos hs_le h_len k st0 fulls (bdata part) M (set_cur c b') Hk0 HR' Hmore ltac:(lia)) as He2.
      exists c2. split; [exact HR2|]. rewrite (then_ret (addBlock_w _) _ (true, c2)) by (rewrite addBlock_res; exact Hc2). rewrite He2. cbn [fst snd].
      rewrite (st_of_app h hs_pos hs_le h_len). cbn [st_of map app]. reflexivity.
    - exists (set_cur c b'). unfold quiet. cbn [fst snd]. rewrite app_nil_r. reflexivity.
  Qed.
  Lemma data_round k st0 fulls M c f pre rest mx : keys_ok h st0 -> lenN (pre ++ rest) < 2147483648 -> Rep h k st0 fulls [] M c -> lenN (concat fulls) + lenN rest <= M ->
    round_at k st0 fulls M (takeN bsz rest) (bsz <? lenN rest) (addData_loop_w f (mkBytes (pre ++ rest) mx) (lenN (pre ++ takeN bsz rest)))
      (addData_loop_w (S f) (mkBytes (pre ++ rest) mx) (lenN pre) c).
  Proof.
    intros Hk0 Hlen HR HM. cbn [addData_loop_w]. cbv zeta. unfold piece. rewrite (c_free_Rep h hs_pos hs_le h_len _ _ _ _ _ _ HR).
    unfold getLen. cbn [bdata]. rewrite lenN_nil, N.sub_0_r. rewrite (lenN_app pre rest) in *.
    rewrite sub64_le by (unfold two64; lia). rewrite to_int32_small by lia.
    replace (lenN pre + lenN rest - lenN pre) with (lenN rest) by lia.
    set (m := N.min bsz (lenN rest)).
    replace (Z.to_N ((Z.of_N (lenN pre) + Z.min (Z.of_N bsz) (Z.of_N (lenN rest))) mod Z.of_N two64)%Z) with (lenN pre + m).
    2: { rewrite Z.mod_small; unfold two64; subst m; lia. }
    unfold copySubBytes. destruct (N.ltb_spec (lenN pre + m) (lenN pre)); [lia|].
    unfold getLen at 1. cbn [bdata]. rewrite (lenN_app pre rest).
    destruct (N.ltb_spec (lenN pre + lenN rest) (lenN pre + m)); [subst m; lia|]. rewrite quiet_then.
    assert (Hsl : sliceN (lenN pre) (lenN pre + m) (pre ++ rest) = takeN bsz rest).
    { unfold sliceN. rewrite dropN_app_exact. replace (lenN pre + m - lenN pre) with m by lia. subst m. destruct (N.min_spec bsz (lenN rest)) as [[_ ->]|[L ->]]; [reflexivity|].
      rewrite !takeN_all by lia. reflexivity. }
    rewrite Hsl. cbn [bdata].
    assert (Htl : lenN (takeN bsz rest) = m) by (rewrite lenN_takeN; reflexivity).
    rewrite Htl. unfold w64. rewrite N.mod_small by (unfold two64; subst m; lia).
    pose proof HR as (_ & _ & (b & Hb & _) & _). rewrite Hb.
    replace (lenN pre + m <? lenN pre + lenN rest) with (bsz <? lenN rest) by (destruct (N.ltb_spec bsz (lenN rest)), (N.ltb_spec (lenN pre + m) (lenN pre + lenN rest)); subst m; lia).
    rewrite (lenN_app pre (takeN bsz rest)), Htl.
    apply (round_common k st0 fulls M c (mkBytes (takeN bsz rest) (lenN pre + m - lenN pre)) (bsz <? lenN rest)); auto; unfold getLen; cbn [bdata]; rewrite Htl.
    - subst m; lia.
    - destruct (N.ltb_spec bsz (lenN rest)); subst m; [lia|discriminate].
    - subst m; lia.
  Qed.
  Lemma stream_round k st0 fulls M c f s total written : keys_ok h st0 -> total < 2147483648 -> written <= total -> Rep h k st0 fulls [] M c -> lenN (concat fulls) + (total - written) <= M ->
    let m := N.min bsz (total - written) in
    if lenN s <? m then addStream_loop_w (S f) s total written c = ([], Throw RuntimeError)
    else round_at k st0 fulls M (takeN m s) (bsz <? total - written) (addStream_loop_w f (dropN m s) total (written + m)) (addStream_loop_w (S f) s total written c).
  Proof.
    intros Hk0 Htot Hw HR HM m. cbn [addStream_loop_w]. unfold piece. rewrite (c_free_Rep h hs_pos hs_le h_len _ _ _ _ _ _ HR). rewrite lenN_nil, N.sub_0_r.
    rewrite sub64_le by (unfold two64; lia). rewrite to_int32_small by lia.
    unfold newBytes. replace (Z.min (Z.of_N bsz) (Z.of_N (total - written))) with (Z.of_N m) by (subst m; lia).
    destruct (Z.ltb_spec (Z.of_N m) 0); [lia|]. rewrite quiet_then. cbn [bmax]. rewrite N2Z.id.
    unfold readExact. destruct (N.ltb_spec (lenN s) m), (N.leb_spec m (lenN s)); try lia; [reflexivity|]. cbv zeta.
    assert (Htl : lenN (takeN m s) = m) by (rewrite lenN_takeN; lia).
    unfold getLen. cbn [bdata]. rewrite Htl. unfold w64. rewrite N.mod_small by (unfold two64; subst m; lia).
    pose proof HR as (_ & _ & (b & Hb & _) & _). rewrite Hb.
    replace (written + m <? total) with (bsz <? total - written) by (destruct (N.ltb_spec bsz (total - written)), (N.ltb_spec (written + m) total); subst m; lia).
    apply (round_common k st0 fulls M c (mkBytes (takeN m s) m) (bsz <? total - written)); auto; unfold getLen; cbn [bdata]; rewrite Htl.
    - subst m; lia.
    - destruct (N.ltb_spec bsz (total - written)); subst m; [lia|discriminate].
    - subst m; lia.
  Qed.

  (** the digests after those for the pad of the first block *)
  Fixpoint rem (k : kind) (st : kstate) (ps : list bytes) : list bytes :=
    match ps with
    | [] => []
    | p :: r => (if lenN p =? bsz then [plain h k st p] else []) ++ match r with [] => [] | _ => pad_texts dig (adv h k st p) ++ rem k (adv h k st p) r end
    end.
  Lemma rem_more k st d : bsz < lenN d ->
    rem k st (blocks bsz d) = plain h k st (takeN bsz d) :: pad_texts dig (adv h k st (takeN bsz d)) ++ rem k (adv h k st (takeN bsz d)) (blocks bsz (dropN bsz d)).
  Proof.
    intros L. rewrite (blocks_cons h hs_pos hs_le h_len) by (intros ->; rewrite lenN_nil in L; lia). cbn [rem].
    rewrite lenN_takeN, N.min_l, N.eqb_refl by lia. cbn [app]. f_equal.
    rewrite (blocks_cons h hs_pos hs_le h_len (dropN bsz d)); [reflexivity|]. intros E. apply (f_equal lenN) in E. rewrite lenN_dropN, lenN_nil in E. lia.
  Qed.
  Lemma rem_last k st d : lenN d <= bsz -> rem k st (blocks bsz d) = if lenN d =? bsz then [plain h k st d] else [].
  Proof.
    intros L. destruct d as [|x d].
    - rewrite blocks_nil by assumption. rewrite lenN_nil. destruct (N.eqb_spec 0 bsz); [lia|reflexivity].
    - rewrite (blocks_short h hs_pos hs_le h_len) by (congruence || exact L). cbn [rem]. apply app_nil_r.
  Qed.
  Lemma data_loop_events k st0 fuel : keys_ok h st0 -> forall pre rest mx fulls M c c',
    lenN (pre ++ rest) < 2147483648 -> Rep h k st0 fulls [] M c -> lenN (concat fulls) + lenN rest <= M ->
    snd (addData_loop_w fuel (mkBytes (pre ++ rest) mx) (lenN pre) c) = Ret c' ->
    fst (addData_loop_w fuel (mkBytes (pre ++ rest) mx) (lenN pre) c) = ev (rem k (st_of h k st0 fulls) (blocks bsz rest)).
  Proof.
    intros Hk0. induction fuel as [|f IH]; intros pre rest mx fulls M c c' Hlen HR HM E; [discriminate E|].
    pose proof (data_round k st0 fulls M c f pre rest mx Hk0 Hlen HR HM) as R. unfold round_at in R.
    destruct (N.ltb_spec bsz (lenN rest)) as [L|L].
    - destruct R as (c2 & HR2 & R). rewrite R in E |- *. cbn [fst snd] in *. rewrite rem_more by exact L. rewrite (st_of_app h hs_pos hs_le h_len) in *. cbn [st_of] in *.
      assert (Hpre : pre ++ rest = (pre ++ takeN bsz rest) ++ dropN bsz rest) by (rewrite <- app_assoc, takeN_dropN; reflexivity). rewrite Hpre in *.
      rewrite (IH _ _ _ _ M _ _ Hlen HR2 ltac:(rewrite concat_app, lenN_app; cbn [concat]; rewrite app_nil_r, lenN_takeN, lenN_dropN; lia) E).
      rewrite (st_of_app h hs_pos hs_le h_len). cbn [st_of map app]. rewrite map_app. reflexivity.
    - destruct R as (c2 & R). rewrite R. cbn [fst]. rewrite rem_last by exact L. rewrite takeN_all by exact L. destruct (lenN rest =? bsz); reflexivity.
  Qed.
  Lemma stream_loop_events k st0 fuel : keys_ok h st0 -> forall s total written fulls M c c',
    total < 2147483648 -> written <= total -> Rep h k st0 fulls [] M c -> lenN (concat fulls) + (total - written) <= M ->
    snd (addStream_loop_w fuel s total written c) = Ret c' ->
    fst (addStream_loop_w fuel s total written c) = ev (rem k (st_of h k st0 fulls) (blocks bsz (takeN (total - written) s))).
  Proof.
    intros Hk0. induction fuel as [|f IH]; intros s total written fulls M c c' Ht Hw HR HM E; [discriminate E|].
    pose proof (stream_round k st0 fulls M c f s total written Hk0 Ht Hw HR HM) as R. cbv zeta in R.
    set (m := N.min bsz (total - written)) in *. destruct (N.ltb_spec (lenN s) m) as [Ls|Ls]; [rewrite R in E; discriminate E|]. unfold round_at in R.
    destruct (N.ltb_spec bsz (total - written)) as [L|L].
    - assert (m = bsz) as Em by (subst m; lia). rewrite Em in *. destruct R as (c2 & HR2 & R). rewrite R in E |- *. cbn [fst snd] in *.
      destruct (N.ltb_spec bsz (lenN (takeN (total - written) s))) as [L2|L2].
      2: { (* the stream ends after this block *) exfalso. rewrite lenN_takeN in L2. assert (lenN s = bsz) as Es by lia.
           destruct f as [|f]; [discriminate E|].
           assert (HM2 : lenN (concat (fulls ++ [takeN bsz s])) + (total - (written + bsz)) <= M) by (rewrite concat_app, lenN_app; cbn [concat]; rewrite app_nil_r, lenN_takeN; lia).
           pose proof (stream_round k st0 _ M c2 f (dropN bsz s) total (written + bsz) Hk0 Ht ltac:(lia) HR2 HM2) as R2. cbv zeta in R2.
           rewrite lenN_dropN in R2. destruct (N.ltb_spec (lenN s - bsz) (N.min bsz (total - (written + bsz)))); [rewrite R2 in E; discriminate E|lia]. }
      rewrite rem_more by exact L2. rewrite takeN_takeN. replace (N.min bsz (total - written)) with bsz by lia.
      rewrite (IH (dropN bsz s) total (written + bsz) _ M _ _ Ht ltac:(lia) HR2 ltac:(rewrite concat_app, lenN_app; cbn [concat]; rewrite app_nil_r, lenN_takeN; lia) E).
      rewrite (st_of_app h hs_pos hs_le h_len). cbn [st_of map app]. rewrite map_app. rewrite (drop_take bsz (total - written)) by lia. replace (total - written - bsz) with (total - (written + bsz)) by lia. reflexivity.
    - assert (m = total - written) as Em by (subst m; lia). rewrite Em in *. destruct R as (c2 & R). rewrite R. cbn [fst].
      rewrite rem_last by (rewrite lenN_takeN; lia). match goal with |- context [N.eqb ?x ?y] => destruct (x =? y) end; reflexivity.
  Qed.
  (** how many *)
  Definition rem_cost (L : N) : N := L / bsz + 3 * ((L - 1) / bsz).
  Lemma digests_ev l : digests (ev l) = lenN l.
  Proof. induction l as [|x l IH]; [reflexivity|]. cbn [map]. rewrite digests_hash, IH, lenN_cons. lia. Qed.
  Lemma pad_three st : lenN (pad_texts dig st) = 3.
  Proof. destruct st as [[a b] c]. reflexivity. Qed.
  Lemma div_next L : bsz <= L -> L / bsz = 1 + (L - bsz) / bsz.
  Proof. intros G. replace L with (L - bsz + 1 * bsz) at 1 by lia. rewrite N.div_add by lia. lia. Qed.
  Lemma rem_cost_more L : bsz < L -> rem_cost L = 4 + rem_cost (L - bsz).
  Proof.
    intros G. unfold rem_cost. rewrite (div_next L) by lia. rewrite (div_next (L - 1)) by lia. replace (L - 1 - bsz) with (L - bsz - 1) by lia. lia.
  Qed.
  Lemma rem_cost_last L : L <= bsz -> rem_cost L = if L =? bsz then 1 else 0.
  Proof.
    intros G. unfold rem_cost. rewrite (N.div_small (L - 1)) by lia. destruct (N.eqb_spec L bsz) as [->|E]; [rewrite N.div_same by lia; reflexivity|]. rewrite N.div_small by lia. reflexivity.
  Qed.
  Lemma stream_loop_bound k st0 fuel : keys_ok h st0 -> forall s total written fulls M c,
    total < 2147483648 -> written <= total -> Rep h k st0 fulls [] M c -> lenN (concat fulls) + (total - written) <= M ->
    digests (fst (addStream_loop_w fuel s total written c)) <= rem_cost (total - written).
  Proof.
    intros Hk0. induction fuel as [|f IH]; intros s total written fulls M c Ht Hw HR HM; [apply N.le_0_l|].
    pose proof (stream_round k st0 fulls M c f s total written Hk0 Ht Hw HR HM) as R. cbv zeta in R.
    set (m := N.min bsz (total - written)) in *. destruct (N.ltb_spec (lenN s) m) as [Ls|Ls]; [rewrite R; apply N.le_0_l|]. unfold round_at in R.
    destruct (N.ltb_spec bsz (total - written)) as [L|L].
    - assert (m = bsz) as Em by (subst m; lia). rewrite Em in *. destruct R as (c2 & HR2 & R). rewrite R. cbn [fst]. rewrite digests_app, digests_ev, lenN_cons, pad_three.
      specialize (IH (dropN bsz s) total (written + bsz) _ M _ Ht ltac:(lia) HR2 ltac:(rewrite concat_app, lenN_app; cbn [concat]; rewrite app_nil_r, lenN_takeN; lia)).
      rewrite (rem_cost_more (total - written)) by exact L. replace (total - written - bsz) with (total - (written + bsz)) by lia. lia.
    - assert (m = total - written) as Em by (subst m; lia). rewrite Em in *. destruct R as (c2 & R). rewrite R. cbn [fst]. rewrite rem_cost_last by exact L.
      rewrite lenN_takeN, N.min_l by lia. destruct (total - written =? bsz); [rewrite digests_ev|]; reflexivity.
  Qed.
  Lemma stream_loop_short k st0 fuel : keys_ok h st0 -> forall s total written fulls M c,
    total < 2147483648 -> written <= total -> Rep h k st0 fulls [] M c -> lenN (concat fulls) + (total - written) <= M ->
    lenN s < total - written -> (N.to_nat (lenN s) + 1 <= fuel)%nat ->
    snd (addStream_loop_w fuel s total written c) = Throw RuntimeError /\ digests (fst (addStream_loop_w fuel s total written c)) = 4 * (lenN s / bsz).
  Proof.
    intros Hk0. induction fuel as [|f IH]; intros s total written fulls M c Ht Hw HR HM Ls Hf; [lia|].
    pose proof (stream_round k st0 fulls M c f s total written Hk0 Ht Hw HR HM) as R. cbv zeta in R.
    set (m := N.min bsz (total - written)) in *. destruct (N.ltb_spec (lenN s) m) as [Lm|Lm].
    - rewrite R. split; [reflexivity|]. rewrite N.div_small by (subst m; lia). reflexivity.
    - unfold round_at in R. destruct (N.ltb_spec bsz (total - written)) as [L|L]; [|subst m; lia].
      assert (m = bsz) as Em by (subst m; lia). rewrite Em in *. destruct R as (c2 & HR2 & R). rewrite R. cbn [fst snd]. rewrite digests_app, digests_ev, lenN_cons, pad_three.
      destruct (IH (dropN bsz s) total (written + bsz) _ M _ Ht ltac:(lia) HR2 ltac:(rewrite concat_app, lenN_app; cbn [concat]; rewrite app_nil_r, lenN_takeN; lia)
        ltac:(rewrite lenN_dropN; lia) ltac:(rewrite lenN_dropN; lia)) as [-> ->]. split; [reflexivity|]. rewrite lenN_dropN, (div_next (lenN s)) by lia. lia.
  Qed.
End Loops.
