(** Lemmas for C101: the digests of the calls. *)
From Verif Require Import Base BaseFacts BytesModel BytesFacts CipherModel CipherSpec CipherFacts CipherFacts2 PwModel PwSpec ChModel ChSpec HeaderModel HeaderSpec HeaderFacts HeaderFacts2 HeaderFacts3 HeaderFacts4 HeaderFacts5 HeaderFacts8 HeaderFacts9
  FileModel ApiModel ApiSpec FileFacts FileFacts2 ApiFacts ApiFacts2 ApiFacts3 ApiFacts4 ApiFacts5 ApiFacts6 ApiFacts7
  WorkModel WorkSpec WorkFacts WorkFacts2 CworkModel CworkSpec CworkFacts1 CworkFacts2.
Open Scope N_scope.
Open Scope list_scope.
Ltac Zify.zify_post_hook ::= Z.div_mod_to_equations.

Lemma then_pair {A B} l (x : A) (k : A -> logged B) : then_ (l, Ret x) k = (l ++ fst (k x), snd (k x)).
Proof. reflexivity. Qed.
Section Link.
  Variable h : hashfn.
  Hypothesis hs_pos : 0 < hsize h.
  Hypothesis hs_le : hsize h <= 255.
  Hypothesis h_len : forall x, lenN (hfun h x) = hsize h.
  Set Default Proof Using "All".
  Local Notation bsz := (hsize h).
  Local Notation dig := (hfun h).
  Local Notation ev := (map EvHash).

  Lemma texts_rem st ps : ps <> [] -> block_texts dig bsz st ps = pad_texts dig st ++ rem h Enc st ps.
  Proof.
    revert st; induction ps as [|p r IH]; intros st Hne; [congruence|]. cbn [block_texts rem plain]. f_equal. f_equal.
    destruct r as [|q r]; [reflexivity|]. unfold adv. cbn [plain]. apply IH. congruence.
  Qed.
  Lemma data_rem st d : data_texts dig bsz st d = pad_texts dig st ++ rem h Enc st (blocks bsz d).
  Proof.
    unfold data_texts. destruct d as [|x d]; [rewrite blocks_nil by assumption; rewrite app_nil_r; reflexivity|].
    apply texts_rem. rewrite (blocks_cons h hs_pos hs_le h_len) by congruence. congruence.
  Qed.
  Lemma rem_dec_aux m : forall st d, (length d <= m)%nat -> rem h Enc st (blocks bsz (crypt h Dec st d)) = rem h Dec st (blocks bsz d).
  Proof.
    induction m as [|m IH]; intros st d Hm.
    - destruct d; [reflexivity|]. cbn in Hm. lia.
    - destruct d as [|x d']; [reflexivity|]. set (d := x :: d') in *. assert (Hne : d <> []) by (subst d; congruence).
      assert (Hc : crypt h Dec st d = plain h Dec st (takeN bsz d) ++ crypt h Dec (adv h Dec st (takeN bsz d)) (dropN bsz d)) by (rewrite (crypt_cons h hs_pos hs_le h_len) by exact Hne; reflexivity).
      assert (Hl : lenN (plain h Dec st (takeN bsz d)) = N.min bsz (lenN d)).
      { cbn [plain]. rewrite lenN_bdiff, (kpad_len h hs_pos hs_le h_len), lenN_takeN. lia. }
      destruct (N.ltb_spec bsz (lenN d)) as [L|L].
      + rewrite (rem_more h hs_pos hs_le h_len Dec) by exact L.
        assert (Lc : bsz < lenN (crypt h Dec st d)) by (rewrite (crypt_len h hs_pos hs_le h_len); exact L).
        rewrite (rem_more h hs_pos hs_le h_len Enc) by exact Lc.
        assert (Ht : takeN bsz (crypt h Dec st d) = plain h Dec st (takeN bsz d)).
        { rewrite Hc. rewrite <- (N.min_l bsz (lenN d)) at 1 by lia. rewrite <- Hl. apply takeN_app_exact. }
        assert (Hd : dropN bsz (crypt h Dec st d) = crypt h Dec (adv h Dec st (takeN bsz d)) (dropN bsz d)).
        { rewrite Hc. rewrite <- (N.min_l bsz (lenN d)) at 1 by lia. rewrite <- Hl. apply dropN_app_exact. }
        rewrite Ht, Hd. cbn [plain]. f_equal.
        assert (Ha : adv h Enc st (bdiff (takeN bsz d) (kpad dig st)) = adv h Dec st (takeN bsz d)) by reflexivity. rewrite Ha. f_equal.
        apply IH. rewrite (length_lenN (dropN _ _)), lenN_dropN. subst d. cbn [length] in Hm. rewrite lenN_cons. unfold lenN. lia.
      + rewrite !(rem_last h hs_pos hs_le h_len) by (rewrite ?(crypt_len h hs_pos hs_le h_len); exact L). rewrite (crypt_len h hs_pos hs_le h_len).
        destruct (N.eqb_spec (lenN d) bsz) as [E|E]; [|reflexivity]. f_equal. cbn [plain]. rewrite Hc, takeN_all, dropN_all by exact L. unfold crypt. rewrite blocks_nil by assumption. cbn [out_of]. apply app_nil_r.
  Qed.
  Lemma rem_dec st d : rem h Enc st (blocks bsz (crypt h Dec st d)) = rem h Dec st (blocks bsz d).
  Proof. eapply rem_dec_aux. reflexivity. Qed.

  (** a chain made, fed once *)
  Lemma start_events k pw es c n : Fresh h k pw es c -> lenN pw = bsz -> lenN es = bsz -> c_res c = Some (mkBytes [] 0) ->
    exists c1, addData_start_w c n = (ev (pad_texts dig (kstart bsz pw es)), Ret c1) /\ Rep h k (kstart bsz pw es) [] [] n c1.
  Proof.
    intros HF Lp Le Hres. pose proof HF as (Hkd & Hcur & HM & Hsi & Hsf & Hhs & Hht). unfold addData_start_w. rewrite Hres. cbv zeta. cbn [c_cur]. rewrite Hcur.
    set (c0 := mkChain _ _ _ _ _ _). assert (HF0 : Fresh h k pw es c0).
    { unfold Fresh, c0. cbn. repeat split; try apply Hsi; auto. eexists; reflexivity. }
    destruct (addBlock_fresh h hs_pos hs_le h_len k pw es c0 n HF0 Lp Le) as (c' & Hc' & HR); [reflexivity|].
    exists c'. split; [|exact HR]. rewrite (then_ret _ _ (true, c')) by (rewrite addBlock_res; exact Hc').
    rewrite (addBlock_fresh_events h hs_pos hs_le h_len k pw es c0 HF0 Lp Le). cbn [quiet fst snd]. rewrite app_nil_r. reflexivity.
  Qed.
  Lemma data_events k key salt c fuel data c' : getLen key = bsz -> getLen salt = bsz -> new_chain k h key salt = Ret c -> getLen data < 2 ^ 31 ->
    snd (addData_w fuel data c) = Ret c' ->
    fst (addData_w fuel data c) = ev (pad_texts dig (kstart bsz (bdata key) (bdata salt)) ++ rem h k (kstart bsz (bdata key) (bdata salt)) (blocks bsz (bdata data))).
  Proof.
    intros Lk Ls Hc Ld E. change (2 ^ 31) with 2147483648 in Ld. destruct (new_chain_ok h hs_pos hs_le h_len k key salt Lk Ls) as (c0 & Hc0 & HF & Hres). rewrite Hc in Hc0. injection Hc0 as <-.
    destruct (start_events k _ _ c (getLen data) HF Lk Ls Hres) as (c1 & Hs & HR). unfold addData_w in *. rewrite Hs in *.
    rewrite then_pair in *. cbn [fst snd] in *. rewrite map_app. f_equal. destruct data as [d mx]. cbn [bdata] in *. unfold getLen in *. cbn [bdata] in *.
    exact (data_loop_events h hs_pos hs_le h_len k _ fuel (keys_start h hs_pos hs_le h_len _ _ Lk Ls) [] d mx [] (lenN d) c1 c' Ld HR ltac:(cbn [concat]; rewrite lenN_nil; lia) E).
  Qed.
  Lemma stream_events k key salt c fuel s total c' : getLen key = bsz -> getLen salt = bsz -> new_chain k h key salt = Ret c -> total < 2 ^ 31 ->
    snd (addStream_w fuel s total c) = Ret c' ->
    fst (addStream_w fuel s total c) = ev (pad_texts dig (kstart bsz (bdata key) (bdata salt)) ++ rem h k (kstart bsz (bdata key) (bdata salt)) (blocks bsz (takeN total s))).
  Proof.
    intros Lk Ls Hc Ld E. change (2 ^ 31) with 2147483648 in Ld. destruct (new_chain_ok h hs_pos hs_le h_len k key salt Lk Ls) as (c0 & Hc0 & HF & Hres). rewrite Hc in Hc0. injection Hc0 as <-.
    destruct (start_events k _ _ c total HF Lk Ls Hres) as (c1 & Hs & HR). unfold addStream_w in *. rewrite Hs in *.
    rewrite then_pair in *. cbn [fst snd] in *. rewrite map_app. f_equal.
    rewrite (stream_loop_events h hs_pos hs_le h_len k _ fuel (keys_start h hs_pos hs_le h_len _ _ Lk Ls) s total 0 [] total c1 c' Ld ltac:(lia) HR ltac:(cbn [concat]; rewrite lenN_nil; lia) E).
    rewrite N.sub_0_r. reflexivity.
  Qed.
  Lemma stream_bound k key salt c fuel s total : getLen key = bsz -> getLen salt = bsz -> new_chain k h key salt = Ret c -> total < 2 ^ 31 ->
    digests (fst (addStream_w fuel s total c)) <= 3 + rem_cost h total.
  Proof.
    intros Lk Ls Hc Ld. change (2 ^ 31) with 2147483648 in Ld. destruct (new_chain_ok h hs_pos hs_le h_len k key salt Lk Ls) as (c0 & Hc0 & HF & Hres). rewrite Hc in Hc0. injection Hc0 as <-.
    destruct (start_events k _ _ c total HF Lk Ls Hres) as (c1 & Hs & HR). unfold addStream_w in *. rewrite Hs in *.
    rewrite then_pair in *. cbn [fst snd] in *. rewrite digests_app, (digests_ev h hs_pos hs_le h_len), (pad_three h hs_pos hs_le h_len).
    pose proof (stream_loop_bound h hs_pos hs_le h_len k _ fuel (keys_start h hs_pos hs_le h_len _ _ Lk Ls) s total 0 [] total c1 Ld ltac:(lia) HR ltac:(cbn [concat]; rewrite lenN_nil; lia)) as B.
    rewrite N.sub_0_r in B. lia.
  Qed.
  Lemma stream_short k key salt c fuel s total : getLen key = bsz -> getLen salt = bsz -> new_chain k h key salt = Ret c -> total < 2 ^ 31 ->
    lenN s < total -> (N.to_nat (lenN s) + 1 <= fuel)%nat ->
    snd (addStream_w fuel s total c) = Throw RuntimeError /\ digests (fst (addStream_w fuel s total c)) = 3 + 4 * (lenN s / bsz).
  Proof.
    intros Lk Ls Hc Ld Lt Hf. change (2 ^ 31) with 2147483648 in Ld. destruct (new_chain_ok h hs_pos hs_le h_len k key salt Lk Ls) as (c0 & Hc0 & HF & Hres). rewrite Hc in Hc0. injection Hc0 as <-.
    destruct (start_events k _ _ c total HF Lk Ls Hres) as (c1 & Hs & HR). unfold addStream_w in *. rewrite Hs in *.
    rewrite then_pair in *. cbn [fst snd] in *. rewrite digests_app, (digests_ev h hs_pos hs_le h_len), (pad_three h hs_pos hs_le h_len).
    destruct (stream_loop_short h hs_pos hs_le h_len k _ fuel (keys_start h hs_pos hs_le h_len _ _ Lk Ls) s total 0 [] total c1 Ld ltac:(lia) HR ltac:(cbn [concat]; rewrite lenN_nil; lia) ltac:(lia) Hf) as [-> ->].
    auto.
  Qed.
  (** counts *)
  Lemma rem_count k st d : lenN (rem h k st (blocks bsz d)) = rem_cost h (lenN d).
  Proof.
    remember (length d) as m eqn:Em. assert (Hm : (length d <= m)%nat) by lia. clear Em. revert st d Hm. induction m as [|m IH]; intros st d Hm.
    - assert (d = []) as -> by (destruct d; [reflexivity|cbn in Hm; lia]). rewrite (rem_last h hs_pos hs_le h_len), (rem_cost_last h hs_pos hs_le h_len) by (rewrite lenN_nil; lia). destruct (_ =? _); reflexivity.
    - destruct (N.ltb_spec bsz (lenN d)) as [L|L].
      + rewrite (rem_more h hs_pos hs_le h_len) by exact L. rewrite lenN_cons, lenN_app, (pad_three h hs_pos hs_le h_len), (rem_cost_more h hs_pos hs_le h_len) by exact L.
        rewrite IH, lenN_dropN; [lia|]. rewrite (length_lenN (dropN _ _)), lenN_dropN. rewrite (length_lenN d) in Hm. lia.
      + rewrite (rem_last h hs_pos hs_le h_len), (rem_cost_last h hs_pos hs_le h_len) by exact L. destruct (_ =? _); reflexivity.
  Qed.
  Lemma cost_rem L : crypt_cost bsz L = 3 + rem_cost h L.
  Proof.
    unfold crypt_cost, rem_cost. destruct (N.eq_dec L 0) as [->|Hn].
    - rewrite (N.div_small (0 + bsz - 1)) by lia. change (0 - 1) with 0. rewrite N.div_small by lia. reflexivity.
    - replace (L + bsz - 1) with (L - 1 + 1 * bsz) by lia. rewrite N.div_add by lia. generalize ((L - 1) / bsz) (L / bsz). intros x y. rewrite N.max_r by lia. lia.
  Qed.
  Lemma data_count st d : lenN (data_texts dig bsz st d) = crypt_cost bsz (lenN d).
  Proof. rewrite data_rem, lenN_app, (pad_three h hs_pos hs_le h_len), rem_count, cost_rem. reflexivity. Qed.
  Lemma pad_lens st : keys_ok h st -> Forall (fun t => lenN t = bsz) (pad_texts dig st).
  Proof.
    destruct st as [[k s] l]. intros (Lk & Ls & Ll). cbn [pad_texts]. unfold knext_salt, knext_key. repeat constructor; rewrite ?lenN_bsum, ?h_len; lia.
  Qed.
  Lemma texts_lens ps : forall st, keys_ok h st -> Forall (fun t => lenN t = bsz) (block_texts dig bsz st ps).
  Proof.
    induction ps as [|p r IH]; intros st Hk; cbn [block_texts]; [constructor|]. apply Forall_app. split; [apply pad_lens; exact Hk|]. apply Forall_app. split.
    - destruct (N.eqb_spec (lenN p) bsz); repeat constructor; assumption.
    - apply IH. exact (keys_adv h hs_pos hs_le h_len Enc st p).
  Qed.
  Lemma data_lens st d : keys_ok h st -> Forall (fun t => lenN t = bsz) (data_texts dig bsz st d).
  Proof. intros Hk. unfold data_texts. destruct d; [apply pad_lens|apply texts_lens]; exact Hk. Qed.
End Link.
