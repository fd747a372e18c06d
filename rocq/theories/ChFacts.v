(** Lemmas about chain hash data and chain hash descriptions. *)
From Coq Require Import Strings.String.
From Verif Require Import Base BaseFacts BytesModel BytesSpec BytesFacts BytesFacts2 CipherModel CipherFacts
  PwModel PwSpec PwFacts ChModel ChSpec.

Lemma modes5 (P : N -> Prop) mode : 1 <= mode <= 5 -> P 1 -> P 2 -> P 3 -> P 4 -> P 5 -> P mode.
Proof.
  intros Hm H1 H2 H3 H4 H5.
  assert (mode = 1 \/ mode = 2 \/ mode = 3 \/ mode = 4 \/ mode = 5) as [->|[->|[->|[->| ->]]]] by lia; assumption.
Qed.
Lemma ch_mode_valid_spec mode : ch_mode_valid mode = true <-> 1 <= mode <= 5.
Proof. unfold ch_mode_valid. rewrite andb_true_iff, !N.leb_le. tauto. Qed.
Lemma format_eqb_spec a b : 1 <= a <= 5 -> 1 <= b <= 5 -> (format_eqb a b = true <-> a = b).
Proof.
  intros Ha Hb. pattern a. apply modes5; [exact Ha|..]; pattern b; (apply modes5; [exact Hb|..]);
    vm_compute; split; congruence.
Qed.

(** ** data blocks *)
Fixpoint prefix_ok (ls : list (bytes * option N)) (ps : list bytes) {struct ps} : Prop :=
  match ps, ls with
  | [], _ => True
  | p :: ps', (_, l) :: ls' => fits_part l p = true /\ prefix_ok ls' ps'
  | _ :: _, [] => False
  end.
Definition star_of (mode : N) : bool := (mode =? 2) || (mode =? 4).
Definition rep (mode : N) (ps : list bytes) (d : chd) : Prop :=
  d = mkChd mode (mkBytes (concat ps) 255) (datablockSize mode) (star_of mode) (lenN ps) /\
  prefix_ok (layout mode) ps /\ lenN (concat ps) <= 255.
Lemma rep_new mode : 1 <= mode <= 5 -> rep mode [] (newChd mode).
Proof.
  intros Hm. unfold rep. split; [|split].
  - pattern mode. apply modes5; [exact Hm|..]; reflexivity.
  - cbn. destruct (layout mode); exact I.
  - cbn. unfold lenN. cbn. lia.
Qed.

Lemma fits_some n p : fits_part (Some n) p = true <-> lenN p = n.
Proof. cbn. apply N.eqb_eq. Qed.
Ltac parts ps :=
  let p := fresh "p" in
  destruct ps as [|p ps]; [|let p := fresh "p" in destruct ps as [|p ps]; [|let p := fresh "p" in destruct ps as [|p ps]; [|let p := fresh "p" in destruct ps as [|p ps]; [|let p := fresh "p" in destruct ps as [|p ps]]]]].

Lemma cut_spec mode r : 1 <= mode <= 5 -> lenN r = random_len mode ->
  concat (cut (layout mode) r) = r /\ prefix_ok (layout mode) (cut (layout mode) r) /\
  lenN (cut (layout mode) r) = lenN (layout mode).
Proof.
  intros Hm. pattern mode. apply modes5; [exact Hm|..]; cbn [layout cut concat prefix_ok fits_part];
    intros Hr; (split; [|split; [|reflexivity]]).
  1: symmetry; apply lenN_0; exact Hr.
  all: try exact I; try (apply app_nil_r).
  all: repeat match goal with |- _ /\ _ => split end; try exact I; try reflexivity.
  all: rewrite ?N.eqb_eq, ?lenN_takeN, ?lenN_dropN, ?Hr; try reflexivity.
  all: rewrite ?app_nil_r, ?takeN_dropN; try reflexivity.
  - apply takeN_all. rewrite Hr. cbv; congruence.
  - rewrite (takeN_all 8 (dropN 8 (dropN 8 (dropN 8 r)))) by (rewrite !lenN_dropN, Hr; cbv; congruence).
    rewrite !takeN_dropN. reflexivity.
Qed.
Lemma cd_step_refines bd mode ps d o : 1 <= mode <= 5 -> rep mode ps d -> cdop_ok o ->
  match spec_cd mode ps o with
  | inl ps' => exists d', cd_step bd d o = Ret d' /\ rep mode ps' d'
  | inr e => cd_step bd d o = Throw e
  end.
Proof.
  intros Hm (-> & Hp & Hl) Ho. destruct o as [b|r]; cbn [spec_cd cd_step].
  - (* addBytes *)
    assert (Hn : forall j, nth_error (layout mode) j =
      option_map (fun nl => (fst nl, if snd nl =? 0 then None else Some (snd nl))) (nth_error (nameLens mode) j)).
    { clear - Hm. intros j. pattern mode. apply modes5; [exact Hm|..]; destruct j as [|[|[|[|[|j]]]]]; reflexivity. }
    assert (Hlen : length (layout mode) = length (nameLens mode)).
    { pattern mode. apply modes5; [exact Hm|..]; reflexivity. }
    assert (Hle : (length ps <= length (layout mode))%nat).
    { clear - Hp. revert Hp. generalize (layout mode). induction ps as [|p ps IH]; intros ls Hp; [cbn; lia|].
      destruct ls as [|[nm l] ls]; [destruct Hp|]. cbn. destruct Hp as [_ Hp]. apply IH in Hp. lia. }
    assert (H4 : (length (layout mode) <= 4)%nat).
    { pattern mode. apply modes5; [exact Hm|..]; cbn; lia. }
    unfold cd_addBytes, cd_complete. cbn [cd_mode cd_ind cd_block cd_size cd_star].
    rewrite Hn. replace (N.to_nat (lenN ps)) with (length ps) by (unfold lenN; rewrite Nnat.Nat2N.id; reflexivity).
    destruct (N.eqb_spec (lenN ps) (lenN (nameLens mode))) as [E|E].
    + assert (nth_error (nameLens mode) (length ps) = None) as -> by (apply nth_error_None; unfold lenN in E; lia).
      reflexivity.
    + destruct (nth_error (nameLens mode) (length ps)) as [[nm l]|] eqn:En.
      2:{ apply nth_error_None in En. unfold lenN in E. lia. }
      cbn [option_map fst snd]. unfold getLen.
      assert (Hneg : negb (l =? lenN (bdata b)) && negb (l =? 0) = negb (fits_part (if l =? 0 then None else Some l) (bdata b))).
      { destruct (N.eqb_spec l 0) as [->|H0]; cbn [fits_part]; [apply andb_false_r|]. rewrite andb_true_r, (N.eqb_sym l). reflexivity. }
      rewrite Hneg. destruct (fits_part (if l =? 0 then None else Some l) (bdata b)) eqn:Ef; cbn [negb]; [|reflexivity].
      unfold addcopyToBytes, getLen. cbn [bdata bmax].
      rewrite (N.add_comm (lenN (bdata b))).
      destruct (N.ltb_spec 255 (lenN (concat ps) + lenN (bdata b))) as [Hb|Hb].
      * assert (Hc : cd_len (mkChd mode (mkBytes (concat ps) 255) (datablockSize mode) (star_of mode) (lenN ps)) = lenN (concat ps)).
        { unfold cd_len, w8, getLen. cbn [cd_block bdata]. apply N.mod_small. lia. }
        rewrite Hc. assert (255 <? lenN (concat ps) + lenN (bdata b) = true) as -> by lia. destruct bd; reflexivity.
      * eexists. split.
        -- assert (forall x, (cd_len x <=? 255) = true) as -> by (intros x; unfold cd_len, w8; pose proof (N.mod_upper_bound (getLen (cd_block x)) 256); lia).
           destruct bd; reflexivity.
        -- unfold rep. split; [|split].
           ++ f_equal.
              ** rewrite concat_app. cbn [concat]. rewrite app_nil_r. reflexivity.
              ** unfold w8. rewrite lenN_app. cbn. rewrite N.mod_small; unfold lenN in *; cbn in *; lia.
           ++ clear - Hp Hn En Ef. specialize (Hn (length ps)). rewrite En in Hn. clear En. cbn [option_map fst snd] in Hn.
              revert Hn Hp. generalize (layout mode). induction ps as [|p ps IH]; intros ls Hn Hp; cbn in Hn |- *.
              ** destruct ls as [|[nm' l'] ls]; [discriminate|]. injection Hn as -> ->. split; [exact Ef|exact I].
              ** destruct ls as [|[nm' l'] ls]; [destruct Hp|]. destruct Hp as [H1 H2]. split; [exact H1|]. apply IH; assumption.
           ++ rewrite concat_app, lenN_app. cbn [concat]. rewrite app_nil_r. lia.
  - (* generateRandomData *)
    cbn [cdop_ok] in Ho. unfold cd_generate, isEmpty, getLen. cbn [cd_block bdata cd_star cd_mode cd_size].
    destruct (N.eqb_spec (lenN (concat ps)) 0) as [E|E]; cbn [negb]; [|reflexivity].
    apply lenN_0 in E. rewrite E.
    assert (Ht : lenN (takeN (random_len mode) r) = random_len mode) by (rewrite lenN_takeN; unfold random_len; lia).
    destruct (cut_spec mode _ Hm Ht) as (H1 & H2 & H3).
    assert (HL : lenN (takeN (random_len mode) r) <= 255) by (rewrite Ht; unfold random_len; lia).
    assert (Hi : w8 (lenN (nameLens mode)) = lenN (layout mode)) by (pattern mode; apply modes5; [exact Hm|..]; reflexivity).
    rewrite Hi. destruct (star_of mode) eqn:Es.
    + assert (Hr : random_len mode = 255) by (revert Es; pattern mode; apply modes5; [exact Hm|..]; vm_compute; congruence).
      assert (lenN (takeN (255 - getLen (mkBytes [] 255)) r) = 255 - getLen (mkBytes [] 255)) as Hq.
      { change (255 - getLen (mkBytes [] 255)) with 255. now rewrite <- Hr. }
      unfold fillrandom. cbn [bmax]. rewrite random_bytes_ok by (auto; reflexivity). cbn [bind noexcept].
      eexists. split; [reflexivity|]. unfold rep. rewrite H1, H3, Es. split; [|split; assumption].
      unfold getLen. cbn [bdata bmax app]. rewrite Hr. reflexivity.
    + assert (Hr : random_len mode = datablockSize mode) by (revert Es; pattern mode; apply modes5; [exact Hm|..]; vm_compute; congruence).
      rewrite <- Hr. unfold addrandom, getLen. cbn [bdata bmax].
      destruct (N.ltb_spec 255 (lenN (@nil byte) + random_len mode)) as [Hx|_].
      { change (lenN (@nil byte)) with 0 in Hx. rewrite Ht in HL. lia. }
      rewrite random_bytes_ok by (auto; rewrite Ht in HL; lia).
      cbn [bind app]. eexists. split; [reflexivity|]. unfold rep. rewrite H1, H3, Es, Hr. split; [reflexivity|].
      rewrite <- Hr. split; assumption.
Qed.

Lemma cd_run_rep bd mode ops : 1 <= mode <= 5 -> Forall cdop_ok ops -> forall ps d, rep mode ps d ->
  rep mode (spec_cd_run mode ps ops) (cd_run bd d ops).
Proof.
  intros Hm Ho. induction Ho as [|o ops Ho _ IH]; intros ps d Hr; [exact Hr|].
  cbn [spec_cd_run cd_run]. apply IH. pose proof (cd_step_refines bd mode ps d o Hm Hr Ho) as Hs.
  destruct (spec_cd mode ps o) as [ps'|e].
  - destruct Hs as (d' & -> & Hr'). exact Hr'.
  - rewrite Hs. exact Hr.
Qed.

(** getPart *)
Lemma sliceN_parts (a b c : bytes) i j : i = lenN a -> j = lenN a + lenN b -> sliceN i j (a ++ b ++ c) = b.
Proof. intros -> ->. apply sliceN_app_mid. Qed.
Lemma copySub_mid a b c i j : i = lenN a -> j = lenN a + lenN b ->
  copySubBytes i j (mkBytes (a ++ b ++ c) 255) = Ret (mkBytes b (j - i)).
Proof.
  intros Hi Hj. unfold copySubBytes, getLen. cbn [bdata]. rewrite !lenN_app, (sliceN_parts a b c i j Hi Hj).
  destruct (N.ltb_spec j i); [lia|]. destruct (N.ltb_spec (lenN a + (lenN b + lenN c)) j); [lia|reflexivity].
Qed.
Lemma copySub_ex a b c x i j : x = a ++ b ++ c -> i = lenN a -> j = lenN a + lenN b ->
  exists y, copySubBytes i j (mkBytes x 255) = Ret y /\ bdata y = b.
Proof. intros -> Hi Hj. rewrite (copySub_mid a b c i j Hi Hj). eexists. split; reflexivity. Qed.
Lemma getPart_at mode ps d j nm l : 1 <= mode <= 5 -> rep mode ps d -> nth_error (layout mode) j = Some (nm, l) ->
  match nth_error ps j with
  | Some p => exists b, getPart d nm = Ret b /\ bdata b = p
  | None => getPart d nm = Throw InvalidArgument
  end.
Proof.
  intros Hm (-> & Hp & Hl). revert Hp. pattern mode. apply modes5; [exact Hm|..]; intros Hp Hn.
  all: destruct j as [|[|[|[|[|j]]]]]; try discriminate Hn; cbn in Hn; injection Hn as <- <-.
  all: parts ps; cbn [layout prefix_ok fits_part] in Hp; try tauto.
  all: rewrite ?N.eqb_eq in Hp; repeat match goal with H : _ /\ _ |- _ => destruct H end; try contradiction.
  all: try (destruct ps; contradiction).
  all: cbn [nth_error].
  all: match goal with |- context [mkBytes ?c 255] => set (blk := mkBytes c 255) end.
  all: try reflexivity.
  all: match goal with |- exists b, ?g = Ret b /\ bdata b = ?p =>
         let g' := eval cbv -[copySubBytes getLen blk] in g in
         change (exists b, g' = Ret b /\ bdata b = p) end.
  all: subst blk; unfold getLen; cbn [bdata concat].
  all: first [ eapply (copySub_ex []); [rewrite <- ?app_assoc; reflexivity|rewrite ?lenN_app; change (lenN (@nil byte)) with 0; lia|rewrite ?lenN_app; change (lenN (@nil byte)) with 0; lia]
             | eapply (copySub_ex p); [rewrite <- ?app_assoc; reflexivity|rewrite ?lenN_app; change (lenN (@nil byte)) with 0; lia|rewrite ?lenN_app; change (lenN (@nil byte)) with 0; lia]
             | eapply (copySub_ex (p ++ p0)); [rewrite <- ?app_assoc; reflexivity|rewrite ?lenN_app; change (lenN (@nil byte)) with 0; lia|rewrite ?lenN_app; change (lenN (@nil byte)) with 0; lia]
             | eapply (copySub_ex (p ++ p0 ++ p1)); [rewrite <- ?app_assoc; reflexivity|rewrite ?lenN_app; change (lenN (@nil byte)) with 0; lia|rewrite ?lenN_app; change (lenN (@nil byte)) with 0; lia] ].
Qed.
Lemma getPart_unknown mode ps d nm : 1 <= mode <= 5 -> rep mode ps d -> ~ In nm (map fst (layout mode)) ->
  getPart d nm = Throw InvalidArgument.
Proof.
  intros Hm (-> & _ & _). unfold getPart. cbn [cd_mode].
  pattern mode. apply modes5; [exact Hm|..]; cbn [layout map fst nameLens getPart_loop]; intros Hn;
    repeat match goal with |- context [eqb_bytes ?a nm] =>
      let E := fresh "E" in destruct (eqb_bytes a nm) eqn:E;
        [exfalso; apply eqb_bytes_spec in E; apply Hn; rewrite <- E; cbn; tauto|] end; reflexivity.
Qed.
Lemma rep_complete mode ps d : 1 <= mode <= 5 -> rep mode ps d -> (cd_complete d = true <-> lenN ps = lenN (layout mode)).
Proof.
  intros Hm (-> & _ & _). unfold cd_complete. cbn [cd_ind cd_mode]. rewrite N.eqb_eq.
  replace (lenN (nameLens mode)) with (lenN (layout mode)); [tauto|].
  pattern mode. apply modes5; [exact Hm|..]; reflexivity.
Qed.
Lemma made_rep bd d : made bd d -> exists mode ps, 1 <= mode <= 5 /\ rep mode ps d.
Proof.
  intros (mode & ops & Hm & Ho & ->). exists mode, (spec_cd_run mode [] ops). split; [exact Hm|].
  apply cd_run_rep; [exact Hm|exact Ho|apply rep_new; exact Hm].
Qed.
Lemma rep_mode mode ps d : rep mode ps d -> cd_mode d = mode.
Proof. intros (-> & _ & _). reflexivity. Qed.
Lemma rep_ind mode ps d : rep mode ps d -> cd_ind d = lenN ps.
Proof. intros (-> & _ & _). reflexivity. Qed.
Lemma rep_fun mode ps d d' : rep mode ps d -> rep mode ps d' -> d = d'.
Proof. intros (-> & _ & _) (-> & _ & _). reflexivity. Qed.
Lemma rep_block mode ps d : rep mode ps d -> cd_block d = mkBytes (concat ps) 255 /\ lenN (concat ps) <= 255.
Proof. intros (-> & _ & H). split; [reflexivity|exact H]. Qed.

(** a complete block stays complete, and changes only if it is an empty constant salt *)
Lemma complete_step bd mode ps d o d' : 1 <= mode <= 5 -> rep mode ps d -> cdop_ok o ->
  lenN ps = lenN (layout mode) -> cd_step bd d o = Ret d' ->
  exists ps', rep mode ps' d' /\ lenN ps' = lenN (layout mode) /\ (d' = d \/ (mode = 2 /\ concat ps = [])).
Proof.
  intros Hm Hr Ho Hc E. pose proof (cd_step_refines bd mode ps d o Hm Hr Ho) as Hs.
  destruct o as [b|r]; cbn [spec_cd] in Hs.
  - assert (nth_error (layout mode) (length ps) = None) as Hn by (apply nth_error_None; unfold lenN in Hc; lia).
    rewrite Hn in Hs. congruence.
  - destruct (N.eqb_spec (lenN (concat ps)) 0) as [E0|E0]; [|congruence].
    destruct Hs as (d2 & E2 & Hr2). assert (d2 = d') by congruence. subst d2.
    cbn [cdop_ok] in Ho.
    assert (Ht : lenN (takeN (random_len mode) r) = random_len mode) by (rewrite lenN_takeN; unfold random_len; lia).
    destruct (cut_spec mode _ Hm Ht) as (_ & _ & H3).
    exists (cut (layout mode) (takeN (random_len mode) r)). split; [exact Hr2|]. split; [exact H3|].
    apply lenN_0 in E0.
    destruct Hr as (Hd & Hp & Hl). clear Hl.
    revert Hp Hc Hr2 Hd Ht. pattern mode. apply modes5; [exact Hm|..]; intros Hp Hc Hr2 Hd Ht.
    1: left; destruct ps as [|p ps]; [|destruct Hp]; destruct Hr2 as (-> & _ & _); rewrite Hd; reflexivity.
    1: right; split; [reflexivity|exact E0].
    all: exfalso; destruct ps as [|p ps]; [discriminate Hc|]; destruct Hp as [Hp _]; apply fits_some in Hp;
      cbn [concat] in E0; apply app_eq_nil in E0; destruct E0 as [-> _]; discriminate Hp.
Qed.

(** ** chain hash descriptions *)
Definition good_data (o : option chd) : Prop := forall d, o = Some d -> exists mode ps, 1 <= mode <= 5 /\ rep mode ps d.
Definition good_mode (o : option N) : Prop := forall m, o = Some m -> 1 <= m <= 5.
Lemma check_usable c : good_mode (ch_mode c) -> good_data (ch_data c) ->
  (ch_check (ch_mode c) (ch_data c) (ch_iters c) = true <-> usable c).
Proof.
  intros Hm Hd. unfold usable, ch_check. destruct (ch_mode c) as [mo|]; [|split; [discriminate|intros (? & ? & ? & _); discriminate]].
  destruct (ch_data c) as [d|]; [|split; [discriminate|intros (? & ? & _ & ? & _); discriminate]].
  specialize (Hm mo eq_refl). destruct (Hd d eq_refl) as (mode & ps & Hmo & Hr).
  pose proof (rep_complete mode ps d Hmo Hr) as Hcp. pose proof (rep_mode _ _ _ Hr) as Hmd. pose proof (rep_ind _ _ _ Hr) as Hi.
  pose proof (format_eqb_spec mo mode Hm Hmo) as Hf.
  unfold MAX_ITERATIONS, cd_completedFormat. rewrite Hmd.
  assert (Hl : (255 <? cd_len d) = false).
  { unfold cd_len, w8. pose proof (N.mod_upper_bound (getLen (cd_block d)) 256). lia. }
  rewrite Hl. split.
  - intros E. destruct (N.ltb_spec 0 (ch_iters c)); [|discriminate]. destruct (N.leb_spec (ch_iters c) 1000000000); [|discriminate].
    cbn [negb andb] in E. destruct (format_eqb mo mode && cd_complete d) eqn:E2; [|discriminate].
    apply andb_true_iff in E2. destruct E2 as [E2 E3]. apply Hf in E2. subst mo. apply Hcp in E3.
    exists mode, d. repeat split; try assumption; try lia.
  - intros (mo' & d' & [= <-] & [= <-] & _ & Hit & Hmm & Hii).
    destruct (N.ltb_spec 0 (ch_iters c)); [|lia]. destruct (N.leb_spec (ch_iters c) 1000000000); [|lia].
    cbn [negb andb]. assert (Hmm' : mo = mode) by congruence.
    assert (format_eqb mo mode = true) as -> by (apply Hf; exact Hmm').
    assert (cd_complete d = true) as -> by (apply Hcp; congruence). reflexivity.
Qed.

Definition ch_inv (c : chainhash) : Prop :=
  good_mode (ch_mode c) /\ good_data (ch_data c) /\ (ch_val c = true -> usable c).
Lemma revalidate_inv c : good_mode (ch_mode c) -> good_data (ch_data c) -> ch_inv (ch_revalidate c) /\
  (ch_val (ch_revalidate c) = true <-> usable (ch_revalidate c)).
Proof.
  intros Hm Hd. pose proof (check_usable (ch_revalidate c) Hm Hd) as H. cbn [ch_revalidate ch_mode ch_data ch_iters ch_val] in *.
  split; [|exact H]. split; [exact Hm|]. split; [exact Hd|]. apply H.
Qed.

Scheme built_mut := Minimality for built Sort Prop with op_built_mut := Minimality for op_built Sort Prop.
Definition op_inv (bd : build) (o : chop) : Prop :=
  match o with
  | CData d => good_data d | CAssign src => ch_inv src | CShared o => cdop_ok o | _ => True
  end.
Lemma made_good bd d : (forall x, d = Some x -> made bd x) -> good_data d.
Proof. intros H x Hx. apply (made_rep bd). apply H. exact Hx. Qed.
Lemma good_some m : 1 <= m <= 5 -> good_mode (Some m).
Proof. intros H x [= <-]. exact H. Qed.
Lemma getMode_ret c m : ch_getMode c = Ret m -> ch_val c = true /\ ch_mode c = Some m.
Proof. unfold ch_getMode. destruct (ch_val c); [|discriminate]. destruct (ch_mode c); [|discriminate]. intros [= ->]. auto. Qed.
Definition is_setter (o : chop) : bool := match o with CShared _ => false | _ => true end.

Lemma usable_step bd c o : ch_inv c -> cdop_ok o -> usable c ->
  usable (ch_mutate (fun d => cd_step bd d o) c).
Proof.
  intros (Hm & Hd & _) Ho (mode & d & E1 & E2 & H1 & H2 & H3 & H4).
  unfold ch_mutate. rewrite E2. destruct (cd_step bd d o) as [d'| | |] eqn:Es; try (exists mode, d; tauto).
  destruct (Hd d E2) as (mode' & ps & Hmo & Hr). assert (mode' = mode) by (pose proof (rep_mode _ _ _ Hr); congruence). subst mode'.
  pose proof (rep_ind _ _ _ Hr) as Hi.
  destruct (complete_step bd mode ps d o d' Hmo Hr Ho ltac:(congruence) Es) as (ps' & Hr' & Hl' & _).
  exists mode, d'. cbn [ch_mode ch_data ch_iters]. pose proof (rep_mode _ _ _ Hr'). pose proof (rep_ind _ _ _ Hr').
  repeat split; try assumption; try tauto; congruence.
Qed.
Lemma mutate_val f c : ch_val (ch_mutate f c) = ch_val c.
Proof. unfold ch_mutate. destruct (ch_data c); [|reflexivity]. destruct (f c0); reflexivity. Qed.
Lemma mutate_inv bd c o : ch_inv c -> cdop_ok o -> ch_inv (ch_mutate (fun d => cd_step bd d o) c).
Proof.
  intros Hc Ho. pose proof Hc as (Hm & Hd & Hv). split; [|split].
  - unfold ch_mutate. destruct (ch_data c); [|exact Hm]. destruct (cd_step bd c0 o); exact Hm.
  - unfold ch_mutate. destruct (ch_data c) as [d|] eqn:E; [|rewrite E; exact Hd].
    destruct (cd_step bd d o) as [d'| | |] eqn:Es; try (rewrite E; exact Hd).
    intros x [= <-]. destruct (Hd d eq_refl) as (mode & ps & Hmo & Hr).
    pose proof (cd_step_refines bd mode ps d o Hmo Hr Ho) as Hs. destruct (spec_cd mode ps o).
    + destruct Hs as (d2 & E2 & Hr2). exists mode, l. split; [exact Hmo|]. congruence.
    + congruence.
  - rewrite mutate_val. intros Hx. apply usable_step; auto.
Qed.
Lemma step_inv bd c o c' : ch_inv c -> op_inv bd o -> ch_step bd c o = Ret c' ->
  ch_inv c' /\ (is_setter o = true -> (ch_val c' = true <-> usable c')).
Proof.
  intros Hc Ho E. pose proof Hc as (Hm & Hd & Hv). destruct o as [n|m|d|src|o]; cbn [ch_step op_inv is_setter] in *.
  - injection E as <-. pose proof (revalidate_inv (mkCH (ch_mode c) (ch_data c) n (ch_val c)) Hm Hd) as [A B]. split; [exact A|intros _; exact B].
  - unfold ch_setMode in E. destruct (ch_mode_valid m) eqn:Em; [|discriminate]. injection E as <-.
    apply ch_mode_valid_spec in Em.
    pose proof (revalidate_inv (mkCH (Some m) (ch_data c) (ch_iters c) (ch_val c)) (good_some m Em) Hd) as [A B]. split; [exact A|intros _; exact B].
  - injection E as <-. pose proof (revalidate_inv (mkCH (ch_mode c) d (ch_iters c) (ch_val c)) Hm Ho) as [A B]. split; [exact A|intros _; exact B].
  - unfold ch_assign in E. destruct (ch_getMode src) as [m| | |] eqn:Eg; try discriminate. cbn [bind] in E.
    destruct (ch_mode_valid m) eqn:Em; [|discriminate]. cbn [bind] in E. destruct (ch_getIters src) as [it| | |]; try discriminate.
    cbn [bind ch_mode ch_val] in E. injection E as <-. apply ch_mode_valid_spec in Em. destruct Ho as (_ & Ho & _).
    pose proof (revalidate_inv (mkCH (Some m) (ch_data src) it (ch_val c)) (good_some m Em) Ho) as [A B]. split; [exact A|intros _; exact B].
  - injection E as <-. split; [apply mutate_inv; assumption|discriminate].
Qed.
Lemma ctor_inv bd mode iters d c : (forall x, d = Some x -> made bd x) -> newChainHash mode iters d = Ret c ->
  ch_inv c /\ (ch_val c = true <-> usable c).
Proof.
  intros Hd E. unfold newChainHash in E. destruct (ch_mode_valid mode) eqn:Em; [|discriminate]. injection E as <-.
  apply ch_mode_valid_spec in Em. apply revalidate_inv; [apply good_some; exact Em|apply (made_good bd); exact Hd].
Qed.
Lemma built_inv bd c : built bd c -> ch_inv c.
Proof.
  intros H. apply (built_mut bd ch_inv (op_inv bd)); try exact H; cbn [op_inv]; auto.
  - split; [intros x; discriminate|]. split; [intros x; discriminate|]. discriminate.
  - intros mode iters d c0 Hd E. apply (ctor_inv bd mode iters d c0 Hd E).
  - intros c0 o c' _ Hc _ Ho E. apply (step_inv bd c0 o c' Hc Ho E).
  - intros d Hd. apply (made_good bd). exact Hd.
Qed.
Lemma op_built_inv bd o : op_built bd o -> op_inv bd o.
Proof. intros []; cbn [op_inv]; auto; [apply (made_good bd); assumption|apply (built_inv bd); assumption]. Qed.
