(** Lemmas for C100: what is told about damaged files. *)
From Coq Require Import Strings.String.
From Verif Require Import Base BaseFacts BytesModel BytesSpec BytesFacts BytesFacts2 MiscModel CipherModel PwModel ChModel HeaderModel HeaderSpec HeaderFacts HeaderFacts2 HeaderFacts3 HeaderFacts5 FileModel ApiModel ApiSpec TextModel
  RefSpec RefFacts RefFacts2 MsgModel MsgSpec MsgFacts1 MsgFacts2.
Open Scope N_scope.
Open Scope list_scope.

(** ** The codes of the decoder *)
Definition content_code (e : errcode) : bool :=
  match e with
  | ERR_NOT_ENOUGH_DATA | ERR_FILESIZE_INVALID | ERR_HEADERSIZE_FILESIZE_MISMATCH | ERR_HASHMODE_INVALID | ERR_FILEMODE_INVALID
  | ERR_CHAINHASHMODE_FORMAT_INVALID | ERR_CHAINHASH1_INVALID | ERR_CHAINHASH2_INVALID => true
  | _ => false
  end.
Definition coded {A} (v : verdict A) : Prop := match v with Rejects e => content_code e = true | _ => True end.
Lemma coded_also {A B} (v : verdict A) (k : A -> verdict B) : coded v -> (forall x, coded (k x)) -> coded (also v k).
Proof. destruct v; cbn; auto. Qed.
Lemma coded_take_n n s : coded (take_n n s).
Proof. unfold take_n. destruct (n <=? lenN s); cbn; auto. Qed.
Lemma coded_take_num n s : coded (take_num n s).
Proof. apply coded_also; [apply coded_take_n|]. intros [x r]. exact Logic.I. Qed.
Lemma coded_check b e : content_code e = true -> coded (check b e).
Proof. destruct b; cbn; auto. Qed.
Lemma coded_insist bd b : coded (insist bd b).
Proof. destruct bd, b; exact Logic.I. Qed.
Ltac cds := repeat (cbv beta iota; match goal with
  | |- coded (also _ _) => apply coded_also; [|intro]
  | |- coded (take_n _ _) => apply coded_take_n
  | |- coded (take_num _ _) => apply coded_take_num
  | |- coded (check _ _) => apply coded_check; first [reflexivity | assumption]
  | |- coded (insist _ _) => apply coded_insist
  | |- coded (Gives _) => exact Logic.I
  | |- coded (Dies _) => exact Logic.I
  | |- coded (let '(_, _) := ?x in _) => destruct x as [? ?]
  | |- coded (if ?b then _ else _) => destruct b
  end).
Lemma coded_blocks n : forall s, coded (take_blocks n s).
Proof. induction n as [|n IH]; intros s; cbn [take_blocks]; cds. apply IH. Qed.
Lemma coded_encs n : forall s, coded (take_encs n s).
Proof. induction n as [|n IH]; intros s; cbn [take_encs]; cds. apply IH. Qed.
Lemma coded_chain bd code s : content_code code = true -> coded (take_chain bd code s).
Proof. intros K. unfold take_chain. cds. Qed.
Lemma coded_file bd file : coded (read_file bd file).
Proof.
  unfold read_file. cds; match goal with
  | |- coded (take_blocks _ _) => apply coded_blocks
  | |- coded (take_encs _ _) => apply coded_encs
  | |- coded (take_chain _ _ _) => apply coded_chain; reflexivity
  end.
Qed.
Lemma decode_codes bd rnd file x : (forall k, lenN (rnd k) = k) -> lenN file < two64 -> f_decode bd rnd file = Ret (inl x) -> content_code (x_code x) = true.
Proof.
  intros Hr L E. pose proof (decode_strip bd rnd file) as K. rewrite E in K. cbn in K. rewrite (reader_refines bd rnd file Hr L) in K.
  pose proof (coded_file bd file) as C. destruct (read_file bd file) as [[h r]|e|c]; cbn in K, C; try discriminate K. injection K as ->. exact C.
Qed.

(** ** What the file handler has checked *)
Lemma f_read8_u64 n v s : v < two64 -> f_read8 n (u64 v ++ s) = fret (v, s).
Proof.
  intros Hv. unfold f_read8, f_readBytes. change 8%Z with (Z.of_N 8). rewrite (readBytes_N 8 8 _ eq_refl). pose proof (read_n_app 8 (u64 v) s) as R. rewrite u64_len in R. rewrite R by lia.
  cbn [fneed fbind fret flift bind]. rewrite toLong_val; [|unfold getLen; cbn [bdata]; rewrite u64_len; lia]. cbn [bdata bind fbind fret flift]. rewrite u64_val by exact Hv. reflexivity.
Qed.
Lemma update_shape p file h : fh_update p file = Ret h -> fh_empty h = false -> lenN file < two64 ->
  exists hs fm hm n rest, file = u64 (lenN file) ++ u64 hs ++ fm :: hm :: n :: rest /\ hs < two64 /\ hs <= lenN file.
Proof.
  intros E Em L. unfold fh_update in E.
  destruct (read8_cases file) as [(fs & s1 & Hfs & E1)|[E1 L1]].
  2:{ assert (readBytes 8 8 file = None) as R. { unfold readBytes. change (Z.to_N (8 mod 4294967296)) with 8. cbn [N.ltb N.compare Pos.compare Pos.compare_cont]. destruct (N.ltb_spec (lenN file) 8); [reflexivity | lia]. }
      rewrite R in E. destruct (N.eqb_spec (lenN file) 0) as [Z|Z]; cbn [bind] in E; [|discriminate E].
      rewrite Z in E. cbn in E. injection E as <-. discriminate Em. }
  assert (forall v s, v < two64 -> readBytes 8 8 (u64 v ++ s) = Some (u64 v, s)) as RB.
  { intros v s Hv. change 8%Z with (Z.of_N 8). rewrite (readBytes_N 8 8 _ eq_refl). pose proof (read_n_app 8 (u64 v) s) as R. rewrite u64_len in R. apply R. lia. }
  assert (forall v, v < two64 -> toLong (mkBytes (u64 v) 8) = Ret v) as TL.
  { intros v Hv. rewrite toLong_val; [|unfold getLen; cbn [bdata]; rewrite u64_len; lia]. cbn [bdata]. now rewrite u64_val by exact Hv. }
  assert (readBytes 8 8 file = Some (u64 fs, s1)) as RF by (rewrite E1; apply RB; exact Hfs). rewrite RF, TL in E by exact Hfs. cbn [bind] in E.
  destruct (N.eqb_spec fs (lenN file)) as [Ef|Ef]; cbn [negb] in E; [|discriminate E].
  destruct (read8_cases s1) as [(hs & s2 & Hhs & E2)|[E2 L2]].
  2:{ assert (readBytes 8 8 s1 = None) as R. { unfold readBytes. change (Z.to_N (8 mod 4294967296)) with 8. cbn [N.ltb N.compare Pos.compare Pos.compare_cont]. destruct (N.ltb_spec (lenN s1) 8); [reflexivity | lia]. }
      rewrite R in E. discriminate E. }
  rewrite E2, RB, TL in E by exact Hhs. cbn [bind] in E. destruct (N.ltb_spec (lenN file) hs) as [G|G]; [discriminate E|].
  destruct (N.ltb_spec hs MIN_DATAHEADER_LEN) as [M|M]; cbn [andb] in E.
  - destruct (N.eqb_spec hs 0), (N.eqb_spec (lenN file) 0); cbn in E; try discriminate E. exfalso. assert (lenN file = 8 + lenN s1) as Ls by (rewrite E1, lenN_app, u64_len; lia). lia.
  - unfold MIN_DATAHEADER_LEN in M. assert (lenN file = 16 + lenN s2) as Ls. { rewrite E1, E2, !lenN_app, !u64_len. lia. }
    destruct s2 as [|fm [|hm [|n rest]]]; rewrite ?lenN_cons in Ls; try (change (lenN (@nil byte)) with 0 in Ls; lia).
    exists hs, fm, hm, n, rest. split; [|split; assumption]. rewrite <- Ef at 1. rewrite E1 at 1. rewrite E2. reflexivity.
Qed.

(** ** The decoder *)
Section Damage.
Variable file : bytes.
Notation later := (dropN 19 file).
Definition dam (x : failure) : Prop := content_code (x_code x) = true -> damage file x.
Lemma dam_other x : content_code (x_code x) = false -> dam x.
Proof. intros H K. congruence. Qed.
Lemma dam_place i : In i places -> i <> str "Chainhash data block 2" -> dam (mkF ERR_NOT_ENOUGH_DATA i reading).
Proof. intros A B _. right. cbn. auto. Qed.
Ltac place := apply dam_place; [unfold places; repeat first [left; reflexivity | right] | discriminate].
Lemma need_dam {A} i (o : option A) : In i places -> i <> str "Chainhash data block 2" -> ok (fneed ERR_NOT_ENOUGH_DATA i reading o) dam (fun a => o = Some a).
Proof. intros P B. apply ok_need. intros _. now apply dam_place. Qed.
Definition inside (s : bytes) : Prop := incl s later.
Lemma read1_inside s n s' : read1 s = Some (n, s') -> inside s -> inside s' /\ exists b, In b later /\ n = b2n b.
Proof. destruct s as [|b r]; cbn; [discriminate|]. intros E I. injection E as <- <-. split; [intros x H; apply I; right; exact H|]. exists b. split; [apply I; left; reflexivity | reflexivity]. Qed.
Lemma readBytes_inside cap size s b s' : readBytes cap size s = Some (b, s') -> inside s -> inside s'.
Proof.
  unfold readBytes. destruct (cap <? _); [discriminate|]. destruct (lenN s <? _); [discriminate|]. intros E I. injection E as _ <-.
  intros x H. apply I. rewrite <- (takeN_dropN (Z.to_N (size mod 4294967296)) s). apply in_or_app. right. exact H.
Qed.
Definition inside2 {A} (x : A * bytes) : Prop := inside (snd x).
Lemma r1_dam i s : In i places -> i <> str "Chainhash data block 2" -> inside s -> ok (f_read1 i s) dam (fun x => inside (snd x) /\ exists b, In b later /\ fst x = b2n b).
Proof. intros A B I. apply (ok_weak _ _ _ _ _ (need_dam i (read1 s) A B)); auto. intros [n s'] E. exact (read1_inside _ _ _ E I). Qed.
Lemma rb_dam i cap size s : In i places -> i <> str "Chainhash data block 2" -> inside s -> ok (f_readBytes i cap size s) dam inside2.
Proof. intros A B I. apply (ok_weak _ _ _ _ _ (need_dam i (readBytes cap size s) A B)); auto. intros [n s'] E. exact (readBytes_inside _ _ _ _ _ E I). Qed.
Lemma r8_dam i s : In i places -> i <> str "Chainhash data block 2" -> inside s -> ok (f_read8 i s) dam inside2.
Proof.
  intros A B I. unfold f_read8. eapply ok_bind; [apply (rb_dam i 8 8 s A B I)|]. intros [b s'] J. eapply ok_bind; [apply ok_lift|]. intros n _. exact J.
Qed.
Ltac pl := first [assumption | discriminate | solve [unfold places; cbn [t_mode t_iters t_blocklen t_short texts1 texts2]; repeat first [left; reflexivity | right]]].
Lemma blocks_dam n : forall d s, inside s -> ok (f_blocks n d s) dam inside2.
Proof.
  induction n as [|n IH]; intros d s I; cbn [f_blocks]; [exact I|].
  eapply ok_bind; [apply r1_dam; pl|]. intros [ty s1] [I1 _]. eapply ok_bind; [apply r1_dam; pl|]. intros [len s2] [I2 _]. eapply ok_bind; [apply rb_dam; pl|]. intros [x s3] I3.
  eapply ok_bind; [apply ok_lift|]. intros d' _. apply IH. exact I3.
Qed.
Lemma encs_dam n : forall d s, inside s -> ok (f_encs n d s) dam inside2.
Proof.
  induction n as [|n IH]; intros d s I; cbn [f_encs]; [exact I|].
  eapply ok_bind; [apply r1_dam; pl|]. intros [ty s1] [I1 _]. eapply ok_bind; [apply r1_dam; pl|]. intros [len s2] [I2 _]. eapply ok_bind; [apply rb_dam; pl|]. intros [x s3] I3.
  eapply ok_bind; [apply ok_lift|]. intros d' _. apply IH. exact I3.
Qed.
Definition short (tx : chain_texts) : Prop := dam (mkF ERR_NOT_ENOUGH_DATA (t_short tx) (t_short_what tx)).
Lemma short1 : short texts1.
Proof. unfold short. cbn [t_short t_short_what texts1]. place. Qed.
Lemma short2 : short texts2.
Proof. intros _. left. split; reflexivity. Qed.
Lemma part_dam {A} tx b (m : outcome A) : short tx -> ok (f_part tx b m) dam any.
Proof.
  intros S. apply (ok_weak _ dam (fun a => m = Ret a)); [|auto|intros; exact Logic.I]. apply ok_part; [intros _; exact S|].
  intros x C _. apply dam_other. destruct C as [-> | [-> | ->]]; reflexivity.
Qed.
Lemma parts_dam bd tx nls : short tx -> forall lb dl c s, inside s -> ok (f_parts bd tx nls lb dl c s) dam inside2.
Proof.
  intros S. induction nls as [|[nm len] r IH]; intros lb dl c s I; cbn [f_parts]; [exact I|].
  destruct (negb (len =? 0)); (eapply ok_bind; [apply ok_need; intros _; exact S|]); intros [b s'] E; pose proof (readBytes_inside _ _ _ _ _ E I) as J;
    (eapply ok_bind; [apply part_dam, S|]); intros c' _; [apply IH; exact J | exact J].
Qed.
Lemma chain_dam bd tx code set d s : tx = texts1 /\ code = ERR_CHAINHASH1_INVALID \/ tx = texts2 /\ code = ERR_CHAINHASH2_INVALID -> inside s -> ok (f_chain bd tx code set d s) dam inside2.
Proof.
  intros C I. assert (short tx) as S by (destruct C as [[-> _] | [-> _]]; [exact short1 | exact short2]).
  assert (In (t_mode tx) places /\ t_mode tx <> str "Chainhash data block 2") as [M M'] by (destruct C as [[-> _] | [-> _]]; split; pl).
  assert (In (t_iters tx) places /\ t_iters tx <> str "Chainhash data block 2") as [T T'] by (destruct C as [[-> _] | [-> _]]; split; pl).
  assert (In (t_blocklen tx) places /\ t_blocklen tx <> str "Chainhash data block 2") as [B B'] by (destruct C as [[-> _] | [-> _]]; split; pl).
  unfold f_chain. eapply ok_bind; [apply (r1_dam _ _ M M' I)|]. intros [mode s1] [I1 (b & Hb & Em)]. cbn [fst snd] in *.
  eapply ok_bind; [apply ok_try; intros e c i E H|].
  { unfold newFormat in E. destruct (ch_mode_valid mode) eqn:V; [discriminate E|]. injection E as <-. cbn in H. injection H as <- <-. intros _. cbn.
    exists b. split; [exact Hb|]. split; [|split; [|reflexivity]].
    - intros K. rewrite <- Em in K. unfold ch_mode_valid in V. rewrite andb_false_iff, !N.leb_gt in V. lia.
    - unfold one_char. rewrite Em, n2b_b2n. reflexivity. }
  intros fm _. eapply ok_bind; [apply (r8_dam _ _ T T' I1)|]. intros [it s2] I2. eapply ok_bind; [apply (r1_dam _ _ B B' I2)|]. intros [lb s3] [I3 _]. cbn [fst snd] in *.
  eapply ok_bind; [apply (parts_dam bd tx _ S); exact I3|]. intros [[dl c] s4] I4. eapply ok_bind; [apply ok_assert|]. intros _ _. eapply ok_bind; [apply ok_assert|]. intros _ _.
  eapply ok_bind; [apply ok_try; intros e cc i E H|].
  { destruct e; cbn in H; try discriminate H; injection H as <- <-; try (apply dam_other; reflexivity).
    destruct C as [[_ ->] | [_ ->]]; intros _; reflexivity. }
  intros d' _. exact I4.
Qed.
Lemma decode_dam bd rnd hs fm hm n rest : (forall k, lenN (rnd k) = k) -> lenN file < two64 ->
  file = u64 (lenN file) ++ u64 hs ++ fm :: hm :: n :: rest -> hs < two64 -> hs <= lenN file -> ok (f_decode bd rnd file) dam any.
Proof.
  intros Hr L E Hh Hl. unfold f_decode. apply ok_noexcept.
  assert (later = rest) as El.
  { rewrite E. rewrite app_assoc. change (fm :: hm :: n :: rest) with ([fm; hm; n] ++ rest). rewrite app_assoc. replace 19 with (lenN ((u64 (lenN file) ++ u64 hs) ++ [fm; hm; n])) by (rewrite !lenN_app, !u64_len; reflexivity). apply dropN_app_exact. }
  assert (nth_error file 16 = Some fm /\ nth_error file 17 = Some hm) as [N16 N17].
  { assert (length (u64 (lenN file)) = 8%nat) as A1 by (apply Nat2N.inj; apply u64_len). assert (length (u64 hs) = 8%nat) as A2 by (apply Nat2N.inj; apply u64_len).
    rewrite E. split; (rewrite nth_error_app2 by lia; rewrite A1; rewrite nth_error_app2 by lia; rewrite A2; reflexivity). }
  rewrite E at 1. rewrite f_read8_u64 by exact L. cbn [fbind fret]. rewrite f_read8_u64 by exact Hh. cbn [fbind fret].
  rewrite N.eqb_refl. cbn [negb]. destruct (N.ltb_spec (lenN file) hs) as [G|G]; [lia|].
  unfold f_read1. cbn [read1 fneed fbind fret].
  eapply ok_bind; [apply ok_try; intros e c i T H|].
  { destruct e; cbn in H; try discriminate H. injection H as <- <-. intros _. cbn. exists hm. split; [exact N17|]. split; [|split; [|reflexivity]].
    - intros V. destruct (new_ret rnd (b2n hm) Hr V) as (d & K). congruence.
    - unfold one_char. now rewrite n2b_b2n. }
  intros d1 _. eapply ok_bind; [apply ok_try; intros e c i T H|].
  { destruct e; cbn in H; try discriminate H. injection H as <- <-. intros _. cbn. exists fm. split; [exact N16|]. split; [|split; [|reflexivity]].
    - intros V. unfold d_setFileDataMode, p_setFileDataMode in T. assert (b2n fm = 1) as Q by lia. rewrite Q in T. discriminate T.
    - unfold one_char. now rewrite n2b_b2n. }
  intros d2 _. cbn [read1 fneed fbind fret].
  assert (inside rest) as I by (unfold inside; rewrite El; apply incl_refl).
  eapply ok_bind; [apply (blocks_dam _ _ _ I)|]. intros [d3 s3] I3. eapply ok_bind; [apply chain_dam; [left; auto | exact I3]|]. intros [d4 s4] I4.
  eapply ok_bind; [apply chain_dam; [right; auto | exact I4]|]. intros [d5 s5] I5.
  eapply ok_bind; [apply rb_dam; pl|]. intros [v s6] I6. eapply ok_bind; [apply ok_try; intros e c i _ H; apply dam_other; destruct e; cbn in H; try discriminate H; injection H as <- <-; reflexivity|].
  intros d6 _. eapply ok_bind; [apply rb_dam; pl|]. intros [sa s7] I7. eapply ok_bind; [apply ok_try; intros e c i _ H; apply dam_other; destruct e; cbn in H; try discriminate H; injection H as <- <-; reflexivity|].
  intros d7 _. eapply ok_bind; [apply ok_try; intros e c i _ H|].
  { destruct e; cbn in H; try discriminate H. injection H as <- <-. intros _. cbn. split; reflexivity. }
  intros d8 _. eapply ok_bind; [apply r1_dam; pl|]. intros [cnt s8] [I8 _]. eapply ok_bind; [apply encs_dam; exact I8|]. intros [d9 s9] I9.
  eapply ok_bind; [apply ok_try; intros e c i _ H; apply dam_other; destruct e; cbn in H; try discriminate H; injection H as <- <-; reflexivity|].
  intros d10 _. eapply ok_bind; [apply ok_lift|]. intros l _. eapply ok_bind; [apply ok_assert|]. intros _ _. eapply ok_bind; [apply ok_assert|]. intros _ _. exact Logic.I.
Qed.
End Damage.

Lemma select_damage w a f p x : (forall i k, lenN (w_rnd w i k) = k) -> lenN (stream_of w f p) < two64 -> a_state a = INIT ->
  told w a f (OSelect p) = Some x -> from_content (OSelect p) (x_code x) = true -> damage (stream_of w f p) x.
Proof.
  intros Hr L S T F. unfold told in T. rewrite S in T. unfold f_selectFile in T.
  pose proof (handler_fine w f p a (OSelect p) eq_refl (fun x A B C => proj1 (creation_fine a p x A B C))) as K.
  assert (forall h, f_getFileHandler w f p = fret h -> fh_update p (stream_of w f p) = Ret h) as U.
  { intros h E. unfold f_getFileHandler in E. destruct (f_isValidPath w f p true) as [[y|y]|e|c|]; cbn in E; try discriminate E.
    unfold newFileHandler in E. destruct (isValidPath w f p true) as [[z|z]|e|c|]; cbn in E; try discriminate E; try (destruct e; discriminate E).
    destruct (fh_update p (stream_of w f p)) as [h'|e|c|]; cbn in E; try discriminate E.
    - injection E as ->. reflexivity.
    - destruct e; discriminate E. }
  assert (forall y, f_getFileHandler w f p = Ret (inl y) -> about_path (x_code y) = true \/ x_code y = ERR_FILEHANDLER_CREATION) as X.
  { intros y E. unfold f_getFileHandler in E. unfold f_isValidPath in E. destruct (isValidPath w f p true) as [[c|z]|e|c|] eqn:V; cbn in E; try discriminate E.
    - injection E as <-. left. exact (valid_codes _ _ _ _ _ V).
    - destruct (newFileHandler w f p) as [h'|e|c|]; cbn in E; try discriminate E. destruct e; cbn in E; try discriminate E; injection E as <-; right; reflexivity. }
  destruct (f_getFileHandler w f p) as [[y|h]|e|c|]; cbn in T; try discriminate T.
  - injection T as ->. destruct (X x eq_refl) as [Y|Y]; exfalso; unfold from_content in F; destruct (x_code x); discriminate.
  - cbn in K. specialize (U h eq_refl). destruct (fh_empty h) eqn:Em; [discriminate T|]. unfold f_getDataHeader in T. rewrite K in T.
    destruct (update_shape _ _ _ U Em L) as (hs & fm & hm & n & rest & E & Hh & Hl).
    pose proof (decode_dam (stream_of w f p) (w_build w) (w_rnd w 0) hs fm hm n rest (Hr 0%nat) L E Hh Hl) as D.
    destruct (f_decode (w_build w) (w_rnd w 0) (stream_of w f p)) as [[y|[d s]]|e|c|] eqn:Ed; cbn in T; try discriminate T.
    injection T as ->. cbn in D. apply D. exact (decode_codes _ _ _ _ (Hr 0%nat) L Ed).
Qed.
(** the path does not matter for what is told about the content *)
Lemma same_content w a a' f p p' x : a_state a = INIT -> a_state a' = INIT -> stream_of w f p = stream_of w f p' -> isValidPath w f p' true = dret tt ->
  told w a f (OSelect p) = Some x -> about_path (x_code x) = false -> told w a' f (OSelect p') = Some x.
Proof.
  intros S S' E V T A. unfold told in *. rewrite S in T. rewrite S'. unfold f_selectFile, f_getFileHandler, f_isValidPath in *.
  destruct (isValidPath w f p true) as [[c|z]|e|c|] eqn:V1; cbn in T; try discriminate T.
  { injection T as <-. cbn in A. rewrite (valid_codes _ _ _ _ _ V1) in A. discriminate A. }
  rewrite V. cbn [with_path bind fbind noexcept dret fret]. unfold newFileHandler in *. rewrite V. rewrite V1 in T. cbn [bind dret] in *. rewrite <- E.
  assert (forall q, fh_update q (stream_of w f p) = h <- fh_update p (stream_of w f p) ;; Ret (mkFH q (fh_hsize h) (fh_fsize h) (fh_empty h))) as Q.
  { intros q. unfold fh_update. destruct (match readBytes 8 8 (stream_of w f p) with Some _ => _ | None => _ end) as [n|e|c|]; try reflexivity. cbn [bind].
    destruct (lenN (stream_of w f p) <? n); [reflexivity|]. destruct (_ && _); reflexivity. }
  rewrite (Q p'). destruct (fh_update p (stream_of w f p)) as [h|e|c|] eqn:U; cbn in T |- *; try discriminate T.
  - destruct (fh_empty h); [discriminate T|]. unfold f_getDataHeader in *. cbn [fh_path]. rewrite (update_path _ _ _ U) in T. rewrite <- E. exact T.
  - exact T.
Qed.
