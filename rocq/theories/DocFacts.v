(** Facts for [Properties_Doc]. *)
From Coq Require Import Strings.Byte Lia.
From Verif Require Import Base BaseFacts BytesModel BytesSpec MiscModel CipherModel CipherSpec CipherFacts PwModel PwSpec ChModel ChSpec HeaderModel HeaderSpec HeaderFacts FileModel ApiModel ApiSpec ApiSpec2
  ApiFacts4 ApiFacts7 SysSpec SysFacts StolenSpec StolenFacts DocSpec.
Open Scope N_scope.
Open Scope list_scope.

Ltac spl := repeat match goal with |- _ /\ _ => split end.

(** ** Where the salt stands *)
Lemma salt_layout fsz hsz l1 l2 h : header_ok h -> exists x, layout_with fsz hsz l1 l2 h = x ++ h_salt h ++ u8 (lenN (h_encs h)) ++ concat (map ser_enc (h_encs h)) /\
  lenN x = salt_at h /\ forall s, layout_with fsz hsz l1 l2 (with_salt s h) = x ++ s ++ u8 (lenN (h_encs h)) ++ concat (map ser_enc (h_encs h)).
Proof.
  intros Ho. pose proof (layout_len fsz hsz l1 l2 h Ho) as L. destruct Ho as (_ & _ & _ & _ & _ & _ & _ & Ls & _ & Fe).
  exists (u64 fsz ++ u64 hsz ++ u8 (h_fmode h) ++ u8 (h_hmode h) ++ u8 (lenN (h_blocks h)) ++ concat (map ser_block (h_blocks h)) ++ ser_chain l1 (h_ch1 h) ++ ser_chain l2 (h_ch2 h) ++ h_valid h).
  spl.
  - unfold layout_with. rewrite <- !app_assoc. reflexivity.
  - unfold salt_at. rewrite <- L. unfold layout_with. rewrite !lenN_app, !u64_len, !u8_len, (ser_encs_len _ Fe), Ls. lia.
  - intros s. unfold layout_with, with_salt. cbn [h_fmode h_hmode h_blocks h_ch1 h_ch2 h_valid h_salt h_encs]. rewrite <- !app_assoc. reflexivity.
Qed.
Lemma salt_there c hsz l1 l2 h rest : written_as c hsz l1 l2 h rest -> takeN (digest_len (h_hmode h)) (dropN (salt_at h) c) = h_salt h.
Proof.
  intros (Ho & _ & _ & _ & _ & _ & _ & Ec). destruct (salt_layout (lenN c) hsz l1 l2 h Ho) as (x & Ex & Lx & _). rewrite Ec, Ex, <- Lx, <- !app_assoc, dropN_app_exact.
  destruct Ho as (_ & _ & _ & _ & _ & _ & _ & Ls & _). rewrite <- Ls. apply takeN_app_exact.
Qed.
Lemma salt_only H h s pw pw' d d' c c' : sealed H h pw d c -> sealed H (with_salt s h) pw' d' c' -> lenN d = lenN d' ->
  takeN (salt_at h) c = takeN (salt_at h) c' /\
  takeN (1 + 257 * lenN (h_encs h)) (dropN (salt_at h + digest_len (h_hmode h)) c) = takeN (1 + 257 * lenN (h_encs h)) (dropN (salt_at h + digest_len (h_hmode h)) c').
Proof.
  intros (Ho & _ & Ec) (Ho' & _ & Ec') L. change (hdr_len (with_salt s h)) with (hdr_len h) in Ec'. rewrite <- L in Ec'.
  destruct (salt_layout (hdr_len h + lenN d) (hdr_len h) (lenN (snd (h_ch1 h))) (lenN (snd (h_ch2 h))) h Ho) as (x & Ex & Lx & Es).
  unfold ser in Ec, Ec'. change (hdr_len (with_salt s h)) with (hdr_len h) in Ec'. change (h_ch1 (with_salt s h)) with (h_ch1 h) in Ec'. change (h_ch2 (with_salt s h)) with (h_ch2 h) in Ec'.
  rewrite Ex in Ec. rewrite Es in Ec'. destruct Ho as (_ & _ & _ & _ & _ & _ & _ & Ls & _ & Fe). destruct Ho' as (_ & _ & _ & _ & _ & _ & _ & Ls' & _).
  cbn [with_salt h_salt h_hmode] in Ls'. rewrite Ec, Ec', <- Lx, <- !app_assoc. split; [rewrite !takeN_app_exact; reflexivity|].
  pose proof (ser_encs_len _ Fe) as Le. set (e := concat (map ser_enc (h_encs h))) in *.
  assert (forall y z, lenN y = digest_len (h_hmode h) -> takeN (1 + 257 * lenN (h_encs h)) (dropN (lenN x + digest_len (h_hmode h)) (x ++ y ++ u8 (lenN (h_encs h)) ++ e ++ z)) = u8 (lenN (h_encs h)) ++ e) as T.
  { intros y z Ly. rewrite <- Ly. rewrite (app_assoc x y), <- lenN_app, dropN_app_exact. rewrite app_assoc. rewrite <- Le, <- (u8_len (lenN (h_encs h))) at 1. rewrite <- lenN_app. apply takeN_app_exact. }
  rewrite !T by assumption. reflexivity.
Qed.

(** ** The documented cipher *)
Ltac Zify.zify_post_hook ::= Z.div_mod_to_equations.
Lemma doc_reveals key e p : lenN key = lenN e -> lenN p = lenN e -> bdiff (doc_block key (bdiff e key) p) e = p.
Proof.
  unfold doc_block, bdiff, bsum. revert key p. induction e as [|b e IH]; intros [|k key] [|a p] L1 L2; try reflexivity; rewrite ?lenN_nil, ?lenN_cons in *; try lia.
  cbn [combine map fst snd]. f_equal; [|apply IH; lia]. apply b2n_inj. rewrite !b2n_n2b. pose proof (b2n_lt a). pose proof (b2n_lt b). pose proof (b2n_lt k).
  generalize dependent (b2n a). generalize dependent (b2n b). generalize dependent (b2n k). intros x Hx y Hy z Hz. lia.
Qed.
Lemma doc_parity key e p : lenN key = lenN e -> lenN p = lenN e ->
  map (fun b => b2n b mod 2) (bdiff (doc_block key (bxor e key) p) e) = map (fun b => b2n b mod 2) p.
Proof.
  unfold doc_block, bdiff, bsum, bxor. revert key p. induction e as [|b e IH]; intros [|k key] [|a p] L1 L2; try reflexivity; rewrite ?lenN_nil, ?lenN_cons in *; try lia.
  cbn [combine map fst snd]. f_equal; [|apply IH; lia]. rewrite !b2n_n2b. pose proof (b2n_lt a). pose proof (b2n_lt b). pose proof (b2n_lt k).
  assert (N.lxor (b2n b) (b2n k) mod 2 = (b2n b + b2n k) mod 2) as X.
  { rewrite <- !N.bit0_mod, N.lxor_spec. rewrite N.bit0_eqb, N.bit0_eqb. rewrite N.bit0_mod.
    assert (b2n b mod 2 = 0 \/ b2n b mod 2 = 1) as [Eb|Eb] by lia; assert (b2n k mod 2 = 0 \/ b2n k mod 2 = 1) as [Ek|Ek] by lia; rewrite Eb, Ek; cbn; lia. }
  generalize dependent (N.lxor (b2n b) (b2n k)). generalize dependent (b2n a). generalize dependent (b2n b). generalize dependent (b2n k). intros x Hx y Hy z Hz u Hu. lia.
Qed.

(** ** Where the salt comes from *)
Section Sys.
  Variable H : hashes.
  Hypothesis HH : hashes_ok H.
  Variable bd : build.
  Variable loc : path -> N.
  Variable f0 : fs.
  Definition comes (tr : list event) (h : header) : Prop :=
    (exists l c hsz l1 l2 h0 rest, f0 l = Some c /\ written_as c hsz l1 l2 h0 rest /\ h_salt h0 = h_salt h) \/ drawn tr (digest_len (h_hmode h)) (h_salt h).
  Lemma comes_more v tr h : comes tr h -> comes (v :: tr) h.
  Proof. intros [X|(u & I & X)]; [left; exact X|right]. exists u. split; [right; exact I|exact X]. Qed.
  Definition readable (f : fs) (tr : list event) : Prop := forall l c hsz l1 l2 h rest, f l = Some c -> written_as c hsz l1 l2 h rest -> comes tr h.
  Definition in_use (tr : list event) : Prop := forall k h, current H (own k tr) h -> comes tr h.
  Lemma written_comes v tr x l (f : fs) : written H v tr x -> in_use tr -> f l = x -> forall c hsz l1 l2 h rest, f l = Some c -> written_as c hsz l1 l2 h rest -> comes tr h.
  Proof using HH loc.
    intros Wr U E c hsz l1 l2 h rest Ec W. rewrite Ec in E. subst x. unfold written in Wr.
    assert (exists h pw data c', password (own (v_obj v) tr) = Some pw /\ encrypted (own (v_obj v) tr) = Some data /\
        current H (own (v_obj v) tr) h /\ lenN data < 2 ^ 31 /\ sealed H h pw data c' /\ Some c = Some (takeN (w_room (v_world v)) c')) as (h' & pw & data & c' & _ & _ & C & L & S & E').
    { destruct (v_op v); try contradiction; try discriminate Wr; try exact Wr. injection Wr as ->. destruct (written_size _ _ _ _ _ _ W) as (y & Ey).
      apply (f_equal (@lenN byte)) in Ey. rewrite !lenN_app, !u64_len in Ey. change (lenN (@nil byte)) with 0 in Ey. lia. }
    injection E' as ->. rewrite (left_header H HH loc _ _ _ _ _ _ _ _ _ _ S L W). exact (U _ _ C).
  Qed.
  Lemma readable_step tr os f k w o f' r v f2 : system bd H loc f0 tr os f -> world_ok bd H w -> (forall p, w_loc w p = loc p) -> op_ok o -> step w (os k) f o = (f', r) ->
    readable f tr -> in_use tr -> f2 = f \/ f2 = f' -> readable f2 (v :: tr).
  Proof using HH loc.
    intros S W L Ho E R U X l c hsz l1 l2 h rest Ec Wr. apply comes_more. destruct X as [-> | ->]; [exact (R _ _ _ _ _ _ _ Ec Wr)|].
    destruct (changed H HH bd loc f0 _ _ _ _ _ _ _ _ l S W L Ho E) as [Y|(_ & _ & Y)]; [rewrite Y in Ec; exact (R _ _ _ _ _ _ _ Ec Wr)|].
    exact (written_comes _ _ _ l f' (Y None f') U eq_refl _ _ _ _ _ _ Ec Wr).
  Qed.
  Lemma comes_all tr os f : system bd H loc f0 tr os f -> readable f tr /\ in_use tr.
  Proof using HH loc.
    induction 1 as [os Hf Hn|tr os f k w o f' a' r S [R U] W L Ho E|tr os f k w o f' x f2 a S [R U] W L Ho E X Hn].
    - split; [|intros k h []]. intros l c hsz l1 l2 h rest Ec Wr. left. exists l, c, hsz, l1, l2, h, rest. auto.
    - split; [exact (readable_step _ _ _ _ _ _ _ _ _ f' S W L Ho E R U (or_intror eq_refl))|].
      intros j h C. cbn [own v_obj v_reply v_world v_before v_op v_after] in C. destruct (Nat.eqb_spec k j) as [-> | Nj]; [|apply comes_more; exact (U _ _ C)].
      cbn [current e_op e_reply e_world e_before] in C. unfold closes in C. cbn [e_op e_reply] in C.
      set (v := mkEvent j w f o (Some r) f').
      assert (current H (own j tr) h -> comes (v :: tr) h) as Same by (intros C'; apply comes_more; exact (U _ _ C')).
      destruct o; try contradiction; destruct r; try contradiction; try (exact (Same C)).
      + destruct C as (hsz & l1 & l2 & rest & Wr). apply comes_more. exact (R _ _ _ _ _ _ _ (content_written loc _ _ _ _ _ _ _ Wr) Wr).
      + right. exists v. split; [left; reflexivity|]. cbn [v v_op v_reply v_world]. split; [reflexivity|]. right. eexists _, _, _. split; [reflexivity|]. apply C.
      + destruct C as (h0 & C & ->). right. exists v. split; [left; reflexivity|]. cbn [v v_op v_reply v_world]. split; [reflexivity|]. left. split; reflexivity.
    - split; [exact (readable_step _ _ _ _ _ _ _ _ _ f2 S W L Ho E R U X)|].
      intros j h C. cbn [own v_obj v_reply] in C. destruct (Nat.eqb_spec k j) as [-> | Nj]; [destruct C|apply comes_more; exact (U _ _ C)].
  Qed.
  Lemma salt_clear tr os f l c hsz l1 l2 h rest : system bd H loc f0 tr os f -> f l = Some c -> written_as c hsz l1 l2 h rest ->
    let stored := takeN (digest_len (h_hmode h)) (dropN (salt_at h) c) in
    (exists l0 c0 hsz0 a b h0 rest0, f0 l0 = Some c0 /\ written_as c0 hsz0 a b h0 rest0 /\ h_salt h0 = stored) \/ drawn tr (digest_len (h_hmode h)) stored.
  Proof using HH loc. intros S Ec W. cbv zeta. rewrite (salt_there _ _ _ _ _ _ W). exact (proj1 (comes_all _ _ _ S) _ _ _ _ _ _ _ Ec W). Qed.
End Sys.
