(** Lemmas for C122: where a header is cut. *)
From Coq Require Import Strings.String.
From Verif Require Import Base BaseFacts BytesModel BytesSpec BytesFacts BytesFacts2 PwModel HeaderModel HeaderSpec HeaderFacts HeaderFacts3 HeaderFacts5 HeaderFacts6 FileModel FileFacts RefSpec RefFacts ApiModel ApiSpec MsgModel MsgSpec LackSpec LackFacts.
Open Scope N_scope.
Open Scope list_scope.

Lemma takeN_past {A} n (x r : list A) : lenN x <= n -> takeN n (x ++ r) = x ++ takeN (n - lenN x) r.
Proof. intros L. unfold takeN, lenN in *. rewrite firstn_app. rewrite firstn_all2 by lia. f_equal. f_equal. lia. Qed.
Lemma takeN_in {A} n (x r : list A) : n <= lenN x -> takeN n (x ++ r) = takeN n x.
Proof. intros L. unfold takeN, lenN in *. rewrite firstn_app. replace (N.to_nat n - length x)%nat with 0%nat by lia. cbn. apply app_nil_r. Qed.
Lemma len_take {A} n (x : list A) : n <= lenN x -> lenN (takeN n x) = n.
Proof. intros L. rewrite lenN_takeN. lia. Qed.
Definition span (l : list (bytes * N)) : N := sum (map snd l).
Lemma at_past l r j : span l <= j -> field_at (l ++ r) j = field_at r (j - span l).
Proof.
  revert j. induction l as [|[i n] l IH]; intros j L; [cbn; f_equal; unfold span; cbn; lia|]. unfold span in *. cbn [map snd sum fold_right] in *. cbn [app field_at].
  change (fold_right N.add 0 (map snd l)) with (sum (map snd l)) in *. destruct (N.ltb_spec j n); [lia|]. rewrite IH by lia. f_equal. lia.
Qed.
Lemma at_in l r j : j < span l -> field_at (l ++ r) j = field_at l j.
Proof.
  revert j. induction l as [|[i n] l IH]; intros j L; [unfold span in L; cbn in L; lia|]. unfold span in *. cbn [map snd sum fold_right] in *. cbn [app field_at].
  change (fold_right N.add 0 (map snd l)) with (sum (map snd l)) in *. destruct (N.ltb_spec j n); [reflexivity|]. apply IH. lia.
Qed.
Lemma at_some l j : j < span l -> exists i, field_at l j = Some i.
Proof.
  revert j. induction l as [|[i n] l IH]; intros j L; [unfold span in L; cbn in L; lia|]. unfold span in *. cbn [map snd sum fold_right field_at] in *.
  change (fold_right N.add 0 (map snd l)) with (sum (map snd l)) in *. destruct (N.ltb_spec j n); [eauto|]. apply IH. lia.
Qed.
(** ** Rows of blocks *)
Section Rows.
  Context {A : Type} (ser : A -> bytes) (flds : A -> list (bytes * N)) (P : A -> Prop).
  Hypothesis same : forall b, P b -> span (flds b) = lenN (ser b).
  Lemma row_span bs : Forall P bs -> span (concat (map flds bs)) = lenN (concat (map ser bs)).
  Proof using same.
    induction 1 as [|b bs Pb F IH]; [reflexivity|]. cbn [map concat]. rewrite lenN_app, <- IH, <- (same b Pb). unfold span. generalize (flds b) (concat (map flds bs)). intros x y.
    induction x as [|[i n] x IHx]; [reflexivity|]. cbn in *. unfold sum in *. lia.
  Qed.
  Context (lacks : bytes -> bytes -> Prop).
  Hypothesis inside : forall b j i, P b -> j < lenN (ser b) -> field_at (flds b) j = Some i -> lacks (takeN j (ser b)) i.
  Lemma row_cut bs : Forall P bs -> forall j i, j < lenN (concat (map ser bs)) -> field_at (concat (map flds bs)) j = Some i ->
    exists bs1 r, takeN j (concat (map ser bs)) = concat (map ser bs1) ++ r /\ Forall P bs1 /\ lenN bs1 < lenN bs /\ lacks r i.
  Proof using same inside.
    induction 1 as [|b bs Pb F IH]; intros j i L E; [cbn in L; unfold lenN in L; cbn in L; lia|]. cbn [map concat] in *. rewrite lenN_app in L.
    destruct (N.ltb_spec j (lenN (ser b))) as [G|G].
    - exists [], (takeN j (ser b)). rewrite at_in in E by (rewrite same by exact Pb; exact G). split; [apply takeN_in; lia|]. split; [constructor|]. split; [unfold lenN; cbn [length]; lia|]. apply inside; assumption.
    - rewrite at_past in E by (rewrite same by exact Pb; exact G). rewrite (same b Pb) in E. destruct (IH (j - lenN (ser b)) i ltac:(lia) E) as (bs1 & r & E1 & F1 & L1 & K).
      exists (b :: bs1), r. split; [rewrite takeN_past by exact G; rewrite E1; cbn [map concat]; apply app_assoc|]. split; [constructor; assumption|]. split; [unfold lenN in *; cbn [length]; lia|exact K].
  Qed.
End Rows.
Lemma u8_len v : lenN (u8 v) = 1. Proof. reflexivity. Qed.
Lemma block_same b : good b -> span (block_fields b) = lenN (ser_block b).
Proof. intros _. unfold span, block_fields, ser_block. rewrite !lenN_app, !u8_len. cbn [map snd sum fold_right]. lia. Qed.
Lemma block_inside b j i : good b -> j < lenN (ser_block b) -> field_at (block_fields b) j = Some i -> block_lacks (takeN j (ser_block b)) i.
Proof.
  intros [[B1 B2] _] L E. unfold ser_block in *. rewrite !lenN_app, !u8_len in L. unfold block_fields in E. cbn [field_at] in E.
  destruct (N.ltb_spec j 1) as [G1|G1]; [injection E as <-; left; replace j with 0 by lia; auto|]. destruct (N.ltb_spec (j - 1) 1) as [G2|G2].
  { injection E as <-. right. left. replace j with 1 by lia. auto. }
  destruct (N.ltb_spec (j - 1 - 1) (lenN (snd b))) as [G3|G3]; [|discriminate E]. injection E as <-. right. right. exists (fst b), (lenN (snd b)), (takeN (j - 2) (snd b)).
  split; [rewrite takeN_past by (rewrite u8_len; lia); rewrite takeN_past by (rewrite !u8_len; lia); rewrite !u8_len; do 3 f_equal; lia|]. split; [exact B1|]. split; [lia|]. split; [rewrite len_take by lia; lia|reflexivity].
Qed.
Lemma enc_same b : enc_ok b -> span (enc_fields b) = lenN (ser_enc b).
Proof. intros (_ & _ & L). unfold ser_enc. rewrite !lenN_app, !u8_len, L. reflexivity. Qed.
Lemma enc_inside b j i : enc_ok b -> j < lenN (ser_enc b) -> field_at (enc_fields b) j = Some i -> enc_lacks (takeN j (ser_enc b)) i.
Proof.
  intros (B1 & B2 & B3) L E. assert (lenN (ser_enc b) = 257) as Le by (unfold ser_enc; rewrite !lenN_app, !u8_len, B3; reflexivity). unfold enc_fields in E. cbn [field_at] in E.
  destruct (N.ltb_spec j 1) as [G1|G1]; [injection E as <-; left; replace j with 0 by lia; auto|]. destruct (N.ltb_spec (j - 1) 1) as [G2|G2].
  { injection E as <-. right. left. replace j with 1 by lia. split; [apply len_take; lia|reflexivity]. }
  destruct (N.ltb_spec (j - 1 - 1) 255) as [G3|G3]; [|discriminate E]. injection E as <-. right. right. split; [rewrite len_take by lia; lia|reflexivity].
Qed.
Definition chain_own (c : N * N * bytes) : bytes := ser_chain (lenN (snd c)) c.
Lemma chain_own_len c : lenN (chain_own c) = 10 + lenN (snd c).
Proof. unfold chain_own, ser_chain. rewrite !lenN_app, !u8_len, u64_len. lia. Qed.
Lemma chain_same k c : span (chain_fields k c) = lenN (chain_own c).
Proof. rewrite chain_own_len. unfold span, chain_fields. cbn [map snd sum fold_right]. lia. Qed.
Lemma chain_inside k c j i : chain_ok c -> j < lenN (chain_own c) -> field_at (chain_fields k c) j = Some i -> chain_lacks k (takeN j (chain_own c)) i.
Proof.
  intros Ok L E. rewrite chain_own_len in L. destruct (shape_own c Ok) as (Hm & Hi & F & Lb & Ll). destruct (fits_length _ _ _ Hm F Lb) as [Dl _]. unfold chain_fields in E. cbn [field_at] in E. unfold chain_own, ser_chain.
  destruct (N.ltb_spec j 1) as [G1|G1]; [injection E as <-; left; replace j with 0 by lia; auto|]. rewrite takeN_past by (rewrite u8_len; lia). rewrite u8_len.
  destruct (N.ltb_spec (j - 1) 8) as [G2|G2].
  { injection E as <-. right. left. eexists (fst (fst c)), _. split; [reflexivity|]. split; [exact Hm|]. split; [|reflexivity]. rewrite takeN_in by (rewrite u64_len; lia). rewrite len_take by (rewrite u64_len; lia). exact G2. }
  rewrite takeN_past by (rewrite u64_len; lia). rewrite u64_len. destruct (N.ltb_spec (j - 1 - 8) 1) as [G3|G3].
  { injection E as <-. right. right. left. eexists (fst (fst c)), _. split; [reflexivity|]. split; [exact Hm|]. split; [|reflexivity]. replace (j - 1 - 8) with 0 by lia. rewrite lenN_app, u64_len. reflexivity. }
  rewrite takeN_past by (rewrite u8_len; lia). rewrite u8_len. destruct (N.ltb_spec (j - 1 - 8 - 1) (lenN (snd c))) as [G4|G4]; [|discriminate E]. injection E as <-.
  right. right. right. exists (fst (fst c)), (snd (fst c)), (lenN (snd c)), (takeN (j - 1 - 8 - 1) (snd c)). split; [reflexivity|]. split; [exact Hm|]. split; [exact Hi|]. split; [exact Ll|].
  split; [left; rewrite Dl, len_take by lia; exact G4|reflexivity].
Qed.

Lemma tail_cut n v t es j i : lenN v = n -> lenN t = n -> Forall enc_ok es -> lenN es < 256 -> j < span (tail_fields n es) -> field_at (tail_fields n es) j = Some i -> i <> str "Encrypted block count" ->
  tail_lacks n (takeN j (v ++ t ++ u8 (lenN es) ++ concat (map ser_enc es))) i.
Proof.
  intros Lv Lt Fe Le L E Ne. unfold tail_fields in E, L. cbn [field_at] in E. unfold span in L. cbn [map snd sum fold_right] in L. change (fold_right N.add 0 (map snd (concat (map enc_fields es)))) with (span (concat (map enc_fields es))) in L.
  destruct (N.ltb_spec j n) as [G1|G1]; [injection E as <-; left; split; [rewrite takeN_in by lia; rewrite len_take by lia; exact G1|reflexivity]|].
  rewrite takeN_past by lia. rewrite Lv. destruct (N.ltb_spec (j - n) n) as [G2|G2].
  { injection E as <-. right. left. split; [rewrite lenN_app, Lv, takeN_in by lia; rewrite len_take by lia; lia|reflexivity]. }
  rewrite takeN_past by lia. rewrite Lt. destruct (N.ltb_spec (j - n - n) 1) as [G3|G3]; [injection E as <-; congruence|].
  rewrite takeN_past by (rewrite u8_len; lia). rewrite u8_len. rewrite (row_span ser_enc enc_fields enc_ok enc_same es Fe) in L.
  destruct (row_cut ser_enc enc_fields enc_ok enc_same enc_lacks enc_inside es Fe (j - n - n - 1) i ltac:(lia) E) as (es1 & r & E1 & F1 & L1 & K).
  right. right. exists (v ++ t), (lenN es), es1, r. split; [rewrite lenN_app; lia|]. split; [rewrite E1, <- !app_assoc; reflexivity|]. auto.
Qed.
Lemma span_app x y : span (x ++ y) = span x + span y.
Proof. unfold span, sum. induction x as [|[i n] x IH]; [reflexivity|]. cbn in *. lia. Qed.
Lemma good_blocks h : header_ok h -> no_empty_block h -> Forall good (h_blocks h).
Proof. intros (_ & _ & _ & F & _) G. unfold no_empty_block in G. rewrite Forall_forall in *. intros b I. split; auto. Qed.
Lemma blocks_len bs : lenN (concat (map ser_block bs)) = 2 * lenN bs + sum (map (fun b => lenN (snd b)) bs).
Proof.
  induction bs as [|b bs IH]; [reflexivity|]. cbn [map concat]. rewrite lenN_app, IH. unfold ser_block. rewrite !lenN_app, !u8_len. cbn [sum fold_right].
  change (fold_right N.add 0 (map (fun b0 => lenN (snd b0)) bs)) with (sum (map (fun b0 => lenN (snd b0)) bs)). rewrite (lenN_cons b bs). lia.
Qed.
Lemma encs_len es : Forall enc_ok es -> lenN (concat (map ser_enc es)) = 257 * lenN es.
Proof. induction 1 as [|b bs (B1 & B2 & B3) F IH]; [reflexivity|]. cbn [map concat]. rewrite lenN_app, IH. unfold ser_enc. rewrite !lenN_app, !u8_len, B3, (lenN_cons b bs). lia. Qed.
Lemma fields_span h : header_ok h -> no_empty_block h -> 19 + span (fields h) = hdr_len h.
Proof.
  intros Ok Ne. pose proof (good_blocks h Ok Ne) as G. destruct Ok as (_ & _ & _ & _ & _ & _ & _ & _ & _ & Fe). unfold fields. rewrite !span_app, (row_span ser_block block_fields good block_same _ G), !chain_same, !chain_own_len, blocks_len.
  unfold tail_fields. unfold span at 1. cbn [map snd sum fold_right]. change (fold_right N.add 0 (map snd (concat (map enc_fields (h_encs h))))) with (span (concat (map enc_fields (h_encs h)))).
  rewrite (row_span ser_enc enc_fields enc_ok enc_same _ Fe), (encs_len _ Fe). unfold hdr_len. lia.
Qed.
Definition rest_of (h : header) : bytes :=
  concat (map ser_block (h_blocks h)) ++ chain_own (h_ch1 h) ++ chain_own (h_ch2 h) ++ h_valid h ++ h_salt h ++ u8 (lenN (h_encs h)) ++ concat (map ser_enc (h_encs h)).
Lemma cut_eq j hsz h : 19 <= j -> cut_header j hsz h = u64 j ++ u64 hsz ++ u8 (h_fmode h) ++ u8 (h_hmode h) ++ u8 (lenN (h_blocks h)) ++ takeN (j - 19) (rest_of h).
Proof.
  intros L. unfold cut_header, ser, layout_with. do 2 f_equal. rewrite app_assoc. rewrite dropN_app_ge by (rewrite lenN_app, !u64_len; lia). rewrite lenN_app, !u64_len. change (16 - (8 + 8)) with 0. assert (forall x : bytes, dropN 0 x = x) as D0 by reflexivity. rewrite D0.
  do 3 (rewrite takeN_past by (rewrite u8_len; lia); rewrite u8_len). replace (j - 16 - 1 - 1 - 1) with (j - 19) by lia. reflexivity.
Qed.
Lemma rest_len h : header_ok h -> no_empty_block h -> lenN (rest_of h) = span (fields h).
Proof.
  intros Ok Ne. pose proof (fields_span h Ok Ne) as S1. destruct Ok as (_ & _ & _ & _ & _ & _ & Lv & Ls & _ & Fe). unfold rest_of. rewrite !lenN_app, !chain_own_len, u8_len, blocks_len, (encs_len _ Fe), Lv, Ls.
  unfold hdr_len in S1. lia.
Qed.
Lemma cut_len j hsz h : header_ok h -> no_empty_block h -> 19 <= j <= hdr_len h -> lenN (cut_header j hsz h) = j.
Proof.
  intros Ok Ne L. rewrite cut_eq by lia. rewrite !lenN_app, !u64_len, !u8_len. pose proof (fields_span h Ok Ne). pose proof (rest_len h Ok Ne). rewrite len_take by lia. lia.
Qed.
Lemma cut_only j hsz h i : header_ok h -> no_empty_block h -> 19 <= j < hdr_len h -> hsz <= j -> field_at (fields h) (j - 19) = Some i -> i <> str "Encrypted block count" ->
  only_ends_in (cut_header j hsz h) i.
Proof.
  intros Ok Ne L Hs E Ni. pose proof (fields_span h Ok Ne) as Sp. pose proof (good_blocks h Ok Ne) as G. pose proof (cut_len j hsz h Ok Ne ltac:(lia)) as Lc.
  unfold only_ends_in, ends_with. rewrite Lc. rewrite cut_eq by lia. destruct Ok as (Hf & Hh & Lb & _ & C1 & C2 & Lv & Ls & Le & Fe). rewrite Hf.
  remember (j - 19) as k eqn:Ek. unfold fields in E, Sp. rewrite !span_app, !chain_same in Sp. rewrite (row_span ser_block block_fields good block_same _ G) in Sp. unfold rest_of.
  destruct (N.ltb_spec k (lenN (concat (map ser_block (h_blocks h))))) as [G1|G1].
  { rewrite at_in in E by (rewrite (row_span ser_block block_fields good block_same _ G); exact G1).
    destruct (row_cut ser_block block_fields good block_same block_lacks block_inside _ G k i G1 E) as (bs1 & r & E1 & F1 & L1 & K).
    exists hsz, (h_hmode h), (lenN (h_blocks h)), bs1, r. unfold pre. rewrite takeN_in by lia. rewrite E1. rewrite <- !app_assoc. repeat (split; [first [reflexivity|assumption|lia]|]). left. auto. }
  rewrite at_past in E by (rewrite (row_span ser_block block_fields good block_same _ G); exact G1). rewrite (row_span ser_block block_fields good block_same _ G) in E. rewrite takeN_past by exact G1.
  exists hsz, (h_hmode h), (lenN (h_blocks h)), (h_blocks h). eexists. unfold pre. rewrite <- !app_assoc. split; [reflexivity|]. repeat (split; [first [assumption|lia]|]). right. split; [reflexivity|].
  remember (k - lenN (concat (map ser_block (h_blocks h)))) as k1 eqn:Ek1. destruct (N.ltb_spec k1 (lenN (chain_own (h_ch1 h)))) as [G2|G2].
  { left. rewrite at_in in E by (rewrite chain_same; exact G2). rewrite takeN_in by lia. apply chain_inside; assumption. }
  right. rewrite at_past in E by (rewrite chain_same; exact G2). rewrite chain_same in E. rewrite takeN_past by exact G2. exists (h_ch1 h), (lenN (snd (h_ch1 h))). eexists. split; [reflexivity|]. split; [auto|].
  remember (k1 - lenN (chain_own (h_ch1 h))) as k2 eqn:Ek2. destruct (N.ltb_spec k2 (lenN (chain_own (h_ch2 h)))) as [G3|G3].
  { left. rewrite at_in in E by (rewrite chain_same; exact G3). rewrite takeN_in by lia. apply chain_inside; assumption. }
  right. rewrite at_past in E by (rewrite chain_same; exact G3). rewrite chain_same in E. rewrite takeN_past by exact G3. exists (h_ch2 h), (lenN (snd (h_ch2 h))). eexists. split; [reflexivity|]. split; [auto|].
  apply tail_cut; try assumption; lia.
Qed.

Lemma select_cut bd H w a f p h j hsz : world_ok bd H w -> fs_ok f -> a_state a = INIT -> enc_path p -> w_stat w p = true -> w_read w p = true ->
  header_ok h -> no_empty_block h -> 104 <= hsz <= j -> j < hdr_len h -> f (w_loc w p) = Some (cut_header j hsz h) ->
  exists i, field_at (fields h) (j - 19) = Some i /\
    (i <> str "Encrypted block count" -> exists x, told w a f (OSelect p) = Some x /\ x_code x = ERR_NOT_ENOUGH_DATA /\ x_info x = i).
Proof.
  intros Wo Fo Hs Ep St Rd Ok Ne L1 L2 Ef. destruct (at_some (fields h) (j - 19)) as [i E]; [pose proof (fields_span h Ok Ne); lia|]. exists i. split; [exact E|]. intros Ni.
  apply (select_short bd H w a f p (cut_header j hsz h) i); try assumption; [|apply cut_only; try assumption; lia].
  pose proof (Fo _ _ Ef) as Lf. rewrite cut_len in Lf by (try assumption; lia). unfold cut_header. rewrite dropN_app_ge by (rewrite u64_len; lia). rewrite u64_len. change (8 - 8) with 0.
  assert (forall x : bytes, dropN 0 x = x) as D0 by reflexivity. rewrite D0. rewrite takeN_in by (rewrite u64_len; lia).
  assert (takeN 8 (u64 hsz) = u64 hsz) as -> by (unfold takeN; apply firstn_all2; pose proof (u64_len hsz) as U; unfold lenN in U; lia).
  rewrite u64_val by (unfold two64; lia). lia.
Qed.
