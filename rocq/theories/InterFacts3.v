(** Proofs for C88, continued: saving while others write to the same file. *)
From Coq Require Import Strings.Byte.
From Verif Require Import Base BaseFacts BytesModel BytesFacts MiscModel MiscFacts CipherModel CipherSpec CipherFacts CipherFacts2 PwModel PwSpec PwFacts ChModel ChSpec ChFacts ChFacts2
  HeaderModel HeaderSpec HeaderFacts HeaderFacts2 HeaderFacts3 HeaderFacts4 HeaderFacts5 HeaderFacts8 HeaderFacts9 FileModel ApiModel ApiSpec ApiSpec2 FileFacts FileFacts2 ApiFacts ApiFacts2 ApiFacts3 ApiFacts4 ApiFacts5 ApiFacts6 ApiFacts7 ApiFacts8 ApiFacts9 ApiFacts11
  SecSpec SecFacts InterModel InterSpec StreamFacts InterFacts InterFacts2.
Import ListNotations.
Open Scope N_scope.
Open Scope list_scope.

Section S.
Variable H : hashes. Hypothesis HH : hashes_ok H. Variable bd : build.

Notation to_save := (to_save H).
Lemma ready_to_save mode tr a : history bd H mode tr a -> a_state a = ENCRYPTED ->
  exists p x fh t, selected tr = Some (p, x) /\ a_file a = Some fh /\ fh_path fh = p /\ fullData a = Ret t /\ to_save tr (bdata t).
Proof.
  intros Hh Es. pose proof (history_inv _ HH _ _ _ _ Hh) as [Em I]. rewrite Es in I.
  destruct I as (p & x & h & pw & k & d & fh & data & e & Q1 & Q2 & Q3 & Q4 & [K1 K2] & Rd & L & Q5 & Q6 & Ea).
  assert (header_ok h) as Hok by apply (holds_ok d), Rd.
  assert (getLen e = lenN data) as Le by (unfold getLen; rewrite Q6; apply (cipher_len H HH); exact Hok).
  destruct (full_data a d e h (lenN data)) as (t & F & B); try (rewrite Ea; reflexivity); try assumption.
  exists p, x, fh, t. split; [exact Q1|]. split; [rewrite Ea; reflexivity|]. split; [exact Q5|]. split; [exact F|]. exists h, pw, data. repeat (split; [assumption|]).
  rewrite B, Q6. reflexivity.
Qed.
Lemma finish_ok w env cuts a p s s' a' r : finishWrite_i w env cuts a p s = (s', Ret (a', r)) -> exists t, fullData a = Ret t /\ s' = write_pieces w env cuts p 0 (takeN (w_room w) (bdata t)) s.
Proof.
  unfold finishWrite_i. destruct (fullData a) as [t|e|c|]; cbn; try discriminate. intros E. injection E as <- _ _. exists t. auto.
Qed.
Lemma save_pieces mode tr a w env cuts o q f s' a' : history bd H mode tr a -> a_state a = ENCRYPTED -> saves_to tr o q -> step_i w env cuts a o (O, f) = (s', Ret (a', ROk)) ->
  exists t s, fullData a = Ret t /\ s' = write_pieces w env cuts q 0 (takeN (w_room w) (bdata t)) s.
Proof.
  intros Hh Es So E. destruct (ready_to_save _ _ _ Hh Es) as (p & x & fh & t & Q1 & Q2 & Q3 & F & _).
  destruct So as [->|[-> [x' Sel]]]; unfold step_i in E; rewrite Es in E.
  - unfold writeToPath_i in E. destruct (getFileHandler_i w env q (0%nat, f)) as [s1 [[e|h]|e|c|]]; try discriminate.
    destruct (getWriteStreamIfEmpty_i w env h s1) as [[h' s2] [[e|u]|e|c|]]; try discriminate. apply finish_ok in E. destruct E as (t' & E1 & E2). eauto.
  - assert (q = p) as -> by congruence. unfold writeToFile_i in E. rewrite Q2, Q3 in E. destruct (getWriteStream_i w env fh (0%nat, f)) as [[h' s2] [[e|u]|e|c|]]; try discriminate.
    apply finish_ok in E. destruct E as (t' & E1 & E2). exists t', s2. auto.
Qed.
Lemma overwrite_0 x c : overwrite 0 x c = x ++ dropN (lenN x) c.
Proof. unfold overwrite. rewrite takeN_0. replace (0 - lenN c) with 0 by lia. reflexivity. Qed.
Lemma one_piece mode tr a w env o q f s' a' : history bd H mode tr a -> a_state a = ENCRYPTED -> saves_to tr o q -> step_i w env [] a o (O, f) = (s', Ret (a', ROk)) ->
  exists c, to_save tr c /\ forall y, snd s' (w_loc w q) = Some y -> exists z, y = takeN (w_room w) c ++ dropN (lenN (takeN (w_room w) c)) z.
Proof.
  intros Hh Es So E. destruct (ready_to_save _ _ _ Hh Es) as (p & x & fh & t & Q1 & Q2 & Q3 & F & T). exists (bdata t). split; [exact T|].
  destruct (save_pieces _ _ _ _ _ _ _ _ _ _ _ Hh Es So E) as (t' & s & F' & ->). assert (t' = t) as -> by congruence.
  intros y Y. cbn [write_pieces change snd] in Y. unfold change, write_at, at_ in Y. cbn in Y. destruct (env (fst s) (snd s) (w_loc w q)) as [z|] eqn:Z; [|congruence].
  rewrite InterFacts.upd_same, overwrite_0 in Y. exists z. congruence.
Qed.
Lemma appended_unfit h pw data c z : sealed H h pw data c -> lenN data < 2 ^ 31 -> z <> [] -> lenN (c ++ z) < 2 ^ 63 -> forall hsz, ~ sizes_fit (c ++ z) hsz.
Proof.
  intros (Hok & _ & ->) L Z Ls hsz (r & E & B). pose proof (hdr_len_small h Hok) as Lh. change (2 ^ 31) with 2147483648 in L. change (2 ^ 63) with 9223372036854775808 in Ls.
  set (full := ser (hdr_len h + lenN data) h ++ cipher_of H h pw data) in *.
  assert (lenN full = hdr_len h + lenN data) as Lc by (unfold full; rewrite lenN_app, ser_len, (cipher_len H HH) by exact Hok; reflexivity).
  assert (exists r', full = u64 (hdr_len h + lenN data) ++ r') as (r' & Er) by (unfold full, ser, layout_with; rewrite <- !app_assoc; eexists; reflexivity).
  rewrite Er in E at 1. rewrite <- app_assoc in E. apply u64_inj in E; [|unfold two64; lia|unfold two64; lia]. destruct E as [E _]. rewrite lenN_app, Lc in E.
  apply Z, lenN_0. lia.
Qed.
Lemma unfit_select w f p y : at_hand bd H w p (w_loc w p) -> enc_path p -> f (w_loc w p) = Some y -> lenN y < 2 ^ 63 -> y <> [] -> (forall hsz, ~ sizes_fit y hsz) ->
  step w (fresh 1) f (OSelect p) = (f, Ret (fresh 1, RErr FAIL ERR_FILEHANDLER_CREATION)).
Proof.
  intros (W & (S1 & S2 & _) & _) Ep Fl L NE U. assert (openable w f p y) as O by (unfold openable; auto). cbn [step a_state fresh]. unfold selectFile.
  rewrite (handler_unfit w f p y O (lt63_64 _ L) NE); [reflexivity|]. intros hsz _. apply U.
Qed.
Lemma one_piece_safe mode tr a w env o q f s' a' y : history bd H mode tr a -> a_state a = ENCRYPTED -> saves_to tr o q -> step_i w env [] a o (O, f) = (s', Ret (a', ROk)) ->
  snd s' (w_loc w q) = Some y -> lenN y < 2 ^ 63 ->
  exists c, to_save tr c /\ (lenN c <= w_room w -> y = c \/
    forall w2, at_hand bd H w2 q (w_loc w q) -> enc_path q -> step w2 (fresh 1) (snd s') (OSelect q) = (snd s', Ret (fresh 1, RErr FAIL ERR_FILEHANDLER_CREATION))).
Proof.
  intros Hh Es So E Y L. destruct (one_piece _ _ _ _ _ _ _ _ _ _ Hh Es So E) as (c & T & K). destruct (K y Y) as (z & Ey). exists c. split; [exact T|]. intros R.
  rewrite (takeN_all _ _ R) in Ey. destruct (dropN (lenN c) z) as [|b z'] eqn:D; [left; rewrite app_nil_r in Ey; exact Ey|]. right. intros w2 A Ep.
  destruct T as (h & pw & data & _ & _ & _ & Ld & Sc). pose proof A as (_ & _ & El). apply (unfit_select w2 (snd s') q y).
  - rewrite El. exact A.
  - exact Ep.
  - rewrite El. exact Y.
  - exact L.
  - rewrite Ey. destruct c; discriminate.
  - rewrite Ey. apply (appended_unfit h pw data c (b :: z') Sc Ld); [discriminate|]. rewrite <- Ey. exact L.
Qed.

(** in two pieces, with another complete save in between *)
Lemma mixture mode tr a w p x : history bd H mode tr a -> a_state a = ENCRYPTED -> selected tr = Some (p, x) -> usable_file w p ->
  exists c, to_save tr c /\ forall h2 pw2 data2 other k f, sealed H h2 pw2 data2 other -> lenN data2 < 2 ^ 31 -> lenN other = lenN c -> lenN c <= w_room w ->
    hdr_len h2 <= k <= lenN c -> f (w_loc w p) <> None ->
    exists s' a' data', step_i w (storing 4 (w_loc w p) other) [k] a OWrite (O, f) = (s', Ret (a', ROk)) /\ a_state a' = FINISHED /\
      snd s' (w_loc w p) = Some (takeN k other ++ dropN k c) /\ sealed H h2 pw2 data' (takeN k other ++ dropN k c) /\ lenN data' = lenN data2 /\
      (data' = data2 -> dropN k c = dropN k other).
Proof.
  intros Hh Es Sel (U1 & U2 & U3). destruct (ready_to_save _ _ _ Hh Es) as (p0 & x0 & fh & t & Q1 & Q2 & Q3 & F & T). assert (p0 = p) as -> by congruence.
  exists (bdata t). split; [exact T|]. set (c := bdata t) in *. intros h2 pw2 data2 other k f S2 L2 Lo R K Fp.
  pose proof (selected_enc _ _ _ _ _ _ _ Hh Sel) as Ep. destruct (f (w_loc w p)) as [c0|] eqn:Fc; [|contradiction].
  assert (step_i w (storing 4 (w_loc w p) other) [k] a OWrite (0%nat, f) =
    (write_pieces w (storing 4 (w_loc w p) other) [k] p 0 c (3%nat, upd f (w_loc w p) (Some [])),
     Ret (mkApi FINISHED (a_mode a) (a_fdata a) (a_key a) None (a_dh a) (Some (mkFH p 0 0 (fh_empty fh))), ROk))) as E.
  { unfold step_i. rewrite Es. unfold writeToFile_i. rewrite Q2. unfold getWriteStream_i. rewrite Q3. unfold isValidPath_i.
    rewrite (enc_path_nonempty p Ep), (ext_true p Ep). cbn [negb look storing fst snd Nat.eqb at_]. unfold look, storing, at_. cbn [fst snd Nat.eqb]. rewrite U1, Fc. cbn [negb].
    unfold open_read, look, at_. cbn [fst snd Nat.eqb]. rewrite Fc, U2. cbn [dret]. unfold dret. unfold open_write, at_. cbn [fst snd Nat.eqb]. rewrite Fc, U3.
    unfold finishWrite_i. match goal with |- context [fullData ?x] => assert (fullData x = Ret t) as F' by exact F end.
    rewrite F'. cbn [noexcept]. rewrite (takeN_all _ (bdata t) R). reflexivity. }
  assert (snd (write_pieces w (storing 4 (w_loc w p) other) [k] p 0 c (3%nat, upd f (w_loc w p) (Some []))) (w_loc w p) = Some (takeN k other ++ dropN k c)) as Y.
  { cbn [write_pieces]. set (s1 := change _ _ (3%nat, _)). change (fst s1) with 4%nat in *.
    change (write_at w p (0 + lenN (takeN k c)) (dropN k c) (upd (snd s1) (w_loc w p) (Some other)) (w_loc w p) = Some (takeN k other ++ dropN k c)).
    unfold write_at, at_. rewrite InterFacts.upd_same, InterFacts.upd_same. f_equal. unfold overwrite.
    assert (lenN (takeN k c) = k) as Lk by (rewrite lenN_takeN; lia). rewrite Lk, N.add_0_l. replace (k - lenN other) with 0 by lia. cbn [N.to_nat repeat app]. f_equal.
    assert (dropN (k + lenN (dropN k c)) other = []) as -> by (apply dropN_all; rewrite lenN_dropN; lia). apply app_nil_r. }
  destruct S2 as (Hok & O2 & Eo). pose proof (ser_len (hdr_len h2 + lenN data2) h2 Hok) as Ls. pose proof (cipher_len H HH h2 pw2 data2 Hok) as Lci.
  assert (lenN other = hdr_len h2 + lenN data2) as Lt by (rewrite Eo, lenN_app, Ls, Lci; reflexivity).
  set (body := takeN (k - hdr_len h2) (cipher_of H h2 pw2 data2) ++ dropN k c).
  assert (lenN body = lenN data2) as Lb by (unfold body; rewrite lenN_app, lenN_takeN, lenN_dropN, Lci; lia).
  assert (takeN k other ++ dropN k c = ser (hdr_len h2 + lenN body) h2 ++ body) as Em.
  { rewrite Lb. unfold body. rewrite Eo, takeN_app_ge by lia. rewrite Ls, <- app_assoc. reflexivity. }
  destruct (any_body H HH h2 pw2 body Hok O2) as [Sb Lp].
  eexists _, _, (plain_of H h2 pw2 body). split; [exact E|]. split; [reflexivity|]. split; [exact Y|]. split; [rewrite Em; exact Sb|]. split; [rewrite Lp; exact Lb|].
  intros Ed. destruct Sb as (_ & _ & Eb). rewrite Ed in Eb. rewrite Lb in Em. rewrite Lb in Eb. rewrite Eb, <- Eo in Em.
  assert (dropN k (takeN k other ++ dropN k c) = dropN k other) as X by (rewrite Em; reflexivity). rewrite dropN_app_ge in X by (rewrite lenN_takeN; lia).
  rewrite lenN_takeN in X. replace (k - N.min k (lenN other)) with 0 in X by lia. exact X.
Qed.
End S.
