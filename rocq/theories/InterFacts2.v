(** Proofs for C88, continued: whole calls, what is selected, what is saved. *)
From Coq Require Import List Lia ZArith NArith Bool.
From Verif Require Import Base BaseFacts BytesModel BytesFacts MiscModel CipherModel CipherSpec CipherFacts PwModel PwSpec ChModel ChSpec HeaderModel HeaderSpec HeaderFacts HeaderFacts8 HeaderFacts9
  FileModel ApiModel ApiSpec FileFacts ApiFacts ApiFacts4 ApiFacts5 ApiFacts7 ApiFacts9 InterModel InterSpec StreamFacts InterFacts.
Import ListNotations.
Open Scope N_scope.
Open Scope list_scope.

Section Facts.
Variable w : world.
Variable env : nat -> fs -> fs.
Notation loc := (w_loc w).

Ltac plain E := cbn [step]; repeat match goal with |- context [if ?b then _ else _] => destruct b end; split; [reflexivity|intros l []].
Lemma undisturbed cuts a o f n : (forall l, about w a o l -> left_alone env l) ->
  snd (step_i w env cuts a o (n, f)) = snd (step w a f o) /\
  forall l, about w a o l -> snd (fst (step_i w env cuts a o (n, f))) l = fst (step w a f o) l.
Proof.
  intros Q. unfold step_i, about in *. set (s := (n, f) : st). assert (forall l, snd s l = f l) as E0 by reflexivity.
  destruct o; destruct (a_state a) eqn:Es; try (split; [reflexivity|intros l []]); cbn [step]; rewrite Es.
  - assert (forall names n0, getAllEncFileNames w dir = Ret (inr names) -> In n0 names -> left_alone env (loc (join dir n0)) /\ snd s (loc (join dir n0)) = f (loc (join dir n0))) as K.
    { intros names n0 G M. split; [apply Q; eauto|reflexivity]. }
    pose proof (list_eq w env (a_mode a) dir s f K) as V. pose proof (list_looks w env (a_mode a) dir s) as L.
    destruct (getRelevantFileNames_i w env (a_mode a) dir s) as [s1 r]. cbn in V, L. subst r. split; [reflexivity|]. intros l A. cbn. apply (L l), Q, A.
  - destruct (create_eq w env p s f (Q _ eq_refl) eq_refl) as [V1 V2]. destruct (createFile_i w env p s) as [s1 r]. destruct (fh_createFile w f p) as [f1 r1]. cbn [fst snd] in *. subst r1.
    split; [reflexivity|]. intros l ->. exact V2.
  - split; [apply select_eq; [apply Q; reflexivity|reflexivity]|]. intros l ->. cbn [fst]. rewrite select_looks; [reflexivity|apply Q; reflexivity].
  - destruct (a_file a) as [h|] eqn:Ef.
    + destruct (delete_eq w env a h s f Ef (Q _ (ex_intro _ h (conj eq_refl eq_refl))) eq_refl) as [V1 V2]. split; [exact V1|]. intros l (h' & [= <-] & ->). exact V2.
    + unfold deleteFile_i, deleteFile. rewrite Ef. split; [reflexivity|]. intros l (h' & [=] & _).
  - destruct (a_file a) as [h|] eqn:Ef.
    + destruct (delete_eq w env a h s f Ef (Q _ (ex_intro _ h (conj eq_refl eq_refl))) eq_refl) as [V1 V2]. split; [exact V1|]. intros l (h' & [= <-] & ->). exact V2.
    + unfold deleteFile_i, deleteFile. rewrite Ef. split; [reflexivity|]. intros l (h' & [=] & _).
  - unfold getFileContent_i, getFileContent. destruct (a_file a) as [h|] eqn:Ef; [|split; [reflexivity|]; intros l (h' & [=] & _)].
    pose proof (Q _ (ex_intro _ h (conj eq_refl eq_refl))) as Qh. pose proof (allBytes_eq w env h s f Qh eq_refl) as V. pose proof (allBytes_looks w env h s) as L.
    destruct (getAllBytes_i w env h s) as [s1 r]. cbn in V, L. subst r. split; [reflexivity|]. intros l (h' & [= <-] & ->). cbn. apply (L _ Qh).
  - unfold getDecryptedData_i. cbn. destruct (a_file a) as [h|] eqn:Ef.
    + pose proof (Q _ (ex_intro _ h (conj eq_refl eq_refl))) as Qh. split; [|intros l (h' & [= <-] & ->); apply Qh].
      unfold getDecryptedData, decryptBody. rewrite Ef. cbn [ptr bind]. unfold fh_dataStream, stream_of. rewrite Qh. reflexivity.
    + split; [|intros l (h' & [=] & _)]. unfold getDecryptedData, decryptBody. rewrite Ef. reflexivity.
  - destruct (a_file a) as [h|] eqn:Ef.
    + destruct (write_eq w env cuts a h s f Ef (Q _ (ex_intro _ h (conj eq_refl eq_refl))) eq_refl) as [V1 V2]. split; [exact V1|]. intros l (h' & [= <-] & ->). exact V2.
    + unfold writeToFile_i, writeToFile. rewrite Ef. split; [reflexivity|]. intros l (h' & [=] & _).
  - destruct (writeTo_eq w env cuts a p s f (Q _ eq_refl) eq_refl) as [V1 V2]. split; [exact V1|]. intros l ->. exact V2.
Qed.
Lemma others_kept cuts a o (s : st) l : ~ changed_by w a o l -> left_alone env l -> snd (fst (step_i w env cuts a o s)) l = snd s l.
Proof.
  intros C Q. unfold step_i, changed_by in *. destruct o; destruct (a_state a) eqn:Es; try reflexivity.
  - pose proof (list_looks w env (a_mode a) dir s l Q) as L. destruct (getRelevantFileNames_i w env (a_mode a) dir s). exact L.
  - pose proof (create_touches w env p s l C Q) as L. destruct (createFile_i w env p s). exact L.
  - apply select_looks, Q.
  - destruct (a_file a) as [h|] eqn:Ef; [apply (delete_touches w env a h Ef); [intros ->; apply C; eauto|exact Q]|]. unfold deleteFile_i. rewrite Ef. reflexivity.
  - destruct (a_file a) as [h|] eqn:Ef; [apply (delete_touches w env a h Ef); [intros ->; apply C; eauto|exact Q]|]. unfold deleteFile_i. rewrite Ef. reflexivity.
  - unfold getFileContent_i. destruct (a_file a) as [h|]; [|reflexivity]. pose proof (allBytes_looks w env h s l Q) as L. destruct (getAllBytes_i w env h s). exact L.
  - unfold getDecryptedData_i. apply Q.
  - destruct (a_file a) as [h|] eqn:Ef; [apply (write_touches w env cuts a h Ef); [intros ->; apply C; eauto|exact Q]|]. unfold writeToFile_i. rewrite Ef. reflexivity.
  - apply (writeTo_touches w env cuts a p); assumption.
Qed.

(** ** what is selected *)
Definition seen (f : fs) (s : st) : Prop := match fst s with O => snd s = f | S k => snd s = moment env f k end.
Lemma look_seen f s : seen f s -> seen f (fst (look env s)) /\ snd (look env s) = moment env f (fst s) /\ fst (fst (look env s)) = S (fst s).
Proof. destruct s as [[|n] g]; unfold seen, look; cbn; intros ->; auto. Qed.
Notation content_at := (content_at w env).
Lemma open_read_seen f p s s' o : open_read w env p s = (s', o) -> seen f s -> seen f s' /\ fst s' = S (fst s) /\ (forall c, o = Some c -> content_at f (fst s) p = Some c) /\
  (o = None -> w_read w p = true -> content_at f (fst s) p = None).
Proof.
  intros E S. destruct (look_seen f s S) as (A & B & C). unfold open_read in E. destruct (look env s) as [s1 g]. cbn in *. injection E as <- <-. subst g.
  split; [exact A|]. split; [exact C|]. unfold at_, content_at. destruct (moment env f (fst s) (loc p)); [destruct (w_read w p)|]; split; congruence.
Qed.
Lemma later_seen f p c s s' x i : later w env p c s = (s', x) -> seen f s -> content_at f i p = Some c -> (i <= fst s)%nat ->
  seen f s' /\ fst s' = S (fst s) /\ exists j, (i <= j <= fst s)%nat /\ content_at f j p = Some x.
Proof.
  intros E S Hc Hi. destruct (look_seen f s S) as (A & B & C). unfold later in E. destruct (look env s) as [s1 g]. cbn in *. injection E as <- <-. subst g.
  split; [exact A|]. split; [exact C|]. unfold at_. destruct (moment env f (fst s) (loc p)) as [c'|] eqn:M; [exists (fst s)|exists i]; auto.
Qed.
Lemma validPath_seen f p b s s' r : isValidPath_i w env p b s = (s', r) -> seen f s -> seen f s' /\ (fst s <= fst s')%nat.
Proof.
  intros E S. unfold isValidPath_i in E. destruct (lenN p =? 0); [injection E as <- _; auto|]. destruct (negb (eqb_bytes _ _)); [injection E as <- _; auto|].
  destruct (look_seen f s S) as (A & B & C). destruct (look env s) as [s1 g]. cbn in A, B, C. destruct (negb (w_stat w p)); [injection E as <- _; split; [exact A|lia]|].
  destruct b; destruct (at_ w p g); try (injection E as <- _; split; [exact A|lia]).
  destruct (open_read w env p s1) as [s2 o] eqn:O. destruct (open_read_seen f p s1 s2 o O A) as (A2 & C2 & _). injection E as <- _. split; [exact A2|lia].
Qed.
(** size and content of one stream *)
Lemma stream_seen f p s s1 c s2 x s3 y : open_read w env p s = (s1, Some c) -> later w env p c s1 = (s2, x) -> later w env p x s2 = (s3, y) -> seen f s ->
  seen f s3 /\ (fst s < fst s3)%nat /\ exists i j, (fst s <= i <= j)%nat /\ (j < fst s3)%nat /\ content_at f i p = Some x /\ content_at f j p = Some y.
Proof.
  intros E1 E2 E3 S. destruct (open_read_seen f p s s1 _ E1 S) as (S1 & C1 & H1 & _). specialize (H1 c eq_refl).
  destruct (later_seen f p c s1 s2 x (fst s) E2 S1 H1 ltac:(lia)) as (S2 & C2 & i & Hi & Hx).
  destruct (later_seen f p x s2 s3 y i E3 S2 Hx ltac:(lia)) as (S3 & C3 & j & Hj & Hy).
  split; [exact S3|]. split; [lia|]. exists i, j. split; [lia|]. split; [lia|]. auto.
Qed.
Lemma update_seen f p s s' h : update_i w env p s = (s', Ret h) -> seen f s -> w_read w p = true ->
  seen f s' /\ ((h = mkFH p 0 0 true /\ content_at f (fst s) p = None) \/
    exists i j x y, (fst s <= i <= j)%nat /\ (j < fst s')%nat /\ content_at f i p = Some x /\ content_at f j p = Some y /\ update_sized p (lenN x) y = Ret h).
Proof.
  intros E S R. unfold update_i in E. destruct (open_read w env p s) as [s1 [c|]] eqn:O.
  - destruct (later w env p c s1) as [s2 x] eqn:L1. destruct (later w env p x s2) as [s3 y] eqn:L2. injection E as <- E.
    destruct (stream_seen f p s s1 c s2 x s3 y O L1 L2 S) as (S3 & C3 & i & j & Hij & Hj & Hx & Hy). split; [exact S3|]. right. exists i, j, x, y. auto.
  - destruct (open_read_seen f p s s1 _ O S) as (S1 & C1 & _ & H). injection E as <- E. split; [exact S1|]. left. split; [|exact (H eq_refl R)]. cbn in E. congruence.
Qed.
Lemma validPath_read p s s' u : isValidPath_i w env p true s = (s', Ret (inr u)) -> w_read w p = true.
Proof.
  unfold isValidPath_i. destruct (lenN p =? 0); [discriminate|]. destruct (negb (eqb_bytes _ _)); [discriminate|]. destruct (look env s) as [s1 g]. destruct (negb (w_stat w p)); [discriminate|].
  destruct (at_ w p g); [|discriminate]. unfold open_read. destruct (look env s1) as [s2 g2]. destruct (at_ w p g2); [|discriminate]. destruct (w_read w p); [reflexivity|discriminate].
Qed.
Lemma handler_seen f p s s' h : getFileHandler_i w env p s = (s', Ret (inr h)) -> seen f s ->
  seen f s' /\ (fst s <= fst s')%nat /\ ((exists i, h = mkFH p 0 0 true /\ content_at f i p = None) \/
    exists i j x y, (fst s <= i <= j)%nat /\ (j < fst s')%nat /\ content_at f i p = Some x /\ content_at f j p = Some y /\ update_sized p (lenN x) y = Ret h).
Proof.
  intros E S. unfold getFileHandler_i in E. destruct (isValidPath_i w env p true s) as [s1 r] eqn:V. destruct (validPath_seen f p true s s1 r V S) as (S1 & C1).
  destruct r as [[e|u]|e|c|]; try discriminate. pose proof (validPath_read p s s1 u V) as R. unfold newFileHandler_i in E.
  destruct (isValidPath_i w env p true s1) as [s2 r] eqn:V2. destruct (validPath_seen f p true s1 s2 r V2 S1) as (S2 & C2).
  destruct r as [[e|u2]|e|c|]; try discriminate; [|destruct e; discriminate].
  destruct (update_i w env p s2) as [s3 r] eqn:U. destruct r as [h0|e|c|]; cbn in E; try discriminate; [|destruct e; discriminate]. injection E as <- <-.
  destruct (update_seen f p s2 s3 h0 U S2 R) as (S3 & [[-> N]|(i & j & x & y & H1 & H2 & H3)]).
  - split; [exact S3|]. split; [|left; eauto].
    revert U. unfold update_i. destruct (open_read w env p s2) as [s4 [c|]] eqn:O; [destruct (later w env p c s4) as [s5 x] eqn:L1; destruct (later w env p x s5) as [s6 y] eqn:L2|]; intros U.
    + injection U as <- _. destruct (stream_seen f p s2 s4 c s5 x s6 y O L1 L2 S2) as (_ & ? & _). lia.
    + assert (s4 = s3) as -> by congruence. destruct (open_read_seen f p s2 s3 _ O S2) as (_ & ? & _). lia.
  - split; [exact S3|]. split; [lia|]. right. exists i, j, x, y. split; [lia|]. auto.
Qed.
Lemma update_sized_ok p size c h : size < two64 -> update_sized p size c = Ret h -> fh_path h = p /\ fh_fsize h = size /\ fh_empty h = (size =? 0) /\
  (size <> 0 -> exists r, c = u64 (fh_fsize h) ++ u64 (fh_hsize h) ++ r /\ MIN_DATAHEADER_LEN <= fh_hsize h <= fh_fsize h).
Proof.
  intros L E. unfold update_sized in E. destruct (split8 c) as [Lc|(v & r & Hv & ->)].
  - rewrite (read_short c Lc) in E. destruct (N.eqb_spec size 0) as [->|N0]; cbn in E; [|discriminate]. injection E as <-. cbn. repeat split; congruence.
  - rewrite (u64_read v r Hv), (toLong_u64 v 8 Hv) in E. cbn [bind] in E. destruct (N.eqb_spec v size) as [->|]; cbn [negb bind] in E; [|discriminate].
    destruct (split8 r) as [Lr|(v2 & r2 & Hv2 & ->)]; [rewrite (read_short r Lr) in E; discriminate E|]. rewrite (u64_read v2 r2 Hv2), (toLong_u64 v2 8 Hv2) in E. cbn [bind] in E.
    destruct (N.ltb_spec size v2); [discriminate|]. destruct (_ && _) eqn:B; [discriminate|]. injection E as <-. cbn. repeat split; try reflexivity. intros N0. exists r2. split; [reflexivity|].
    split; [|assumption]. apply andb_false_iff in B. destruct B as [B|B]; [apply N.ltb_ge, B|]. apply negb_false_iff, andb_true_iff in B. destruct B as [_ B]. apply N.eqb_eq in B. contradiction.
Qed.
Lemma selected_moments cuts a p f s' a' : a_state a = INIT -> (forall k c, content_at f k p = Some c -> lenN c < 2 ^ 63) ->
  step_i w env cuts a (OSelect p) (O, f) = (s', Ret (a', ROk)) ->
  (a_state a' = EMPTY_FILE_SELECTED /\ exists k, content_at f k p = None \/ content_at f k p = Some []) \/
  (a_state a' = FILE_SELECTED /\ exists h d i1 i2 i3 i4 c1 c2 c3 c4 x r, a_file a' = Some h /\ a_dh a' = Some d /\ (i1 <= i2 < i3)%nat /\ (i3 <= i4)%nat /\
     content_at f i1 p = Some c1 /\ content_at f i2 p = Some c2 /\ content_at f i3 p = Some c3 /\ content_at f i4 p = Some c4 /\
     fh_path h = p /\ fh_fsize h = lenN c1 /\ (exists r2, c2 = u64 (fh_fsize h) ++ u64 (fh_hsize h) ++ r2) /\ MIN_DATAHEADER_LEN <= fh_hsize h <= fh_fsize h /\
     c4 = x ++ r /\ forall r', lenN (x ++ r') = lenN c3 -> decode_stream (w_build w) (w_rnd w 0) (x ++ r') = Ret (inr (d, r'))).
Proof.
  intros Es F E. unfold step_i in E. rewrite Es in E. unfold selectFile_i in E. destruct (getFileHandler_i w env p (0%nat, f)) as [s1 r] eqn:G.
  destruct r as [[e|h]|e|c|]; try discriminate. destruct (handler_seen f p _ s1 h G eq_refl) as (S1 & _ & [(k & -> & N)|(i1 & i2 & c1 & c2 & I1 & I2 & H1 & H2 & U)]).
  - cbn in E. injection E as <- <-. left. split; [reflexivity|]. eauto.
  - assert (lenN c1 < two64) as L1 by (apply lt63_64, (F _ _ H1)). destruct (update_sized_ok p (lenN c1) c2 h L1 U) as (P1 & P2 & P3 & P4).
    rewrite P3 in E. destruct (N.eqb_spec (lenN c1) 0) as [Z|NZ].
    + injection E as <- <-. left. split; [reflexivity|]. exists i1. right. rewrite H1. f_equal. apply lenN_0; exact Z.
    + destruct (getDataHeader_i w env 0 h s1) as [s2 r] eqn:D. destruct r as [[e|d]|e|c|]; try discriminate. injection E as <- <-. right. split; [reflexivity|].
      unfold getDataHeader_i in D. rewrite P1 in D. destruct (open_read w env p s1) as [s3 [c|]] eqn:O; [|injection D as _ D; discriminate D].
      destruct (later w env p c s3) as [s4 x] eqn:A1. destruct (later w env p x s4) as [s5 y] eqn:A2. injection D as _ D.
      destruct (stream_seen f p s1 s3 c s4 x s5 y O A1 A2 S1) as (_ & _ & i3 & i4 & I3 & _ & H3 & H4).
      destruct (decode_sized (w_build w) (w_rnd w 0) (lenN x) y) as [[e|[d0 r]]|e|c0|] eqn:Dec; cbn in D; try discriminate. injection D as ->.
      destruct (sized_accept _ _ _ _ _ _ Dec) as (z & -> & _ & Z). destruct (P4 NZ) as (r2 & Q1 & Q2).
      exists h, d, i1, i2, i3, i4, c1, c2, x, (z ++ r), z, r. repeat (split; [first [reflexivity|assumption|lia|eauto]|]). exact Z.
Qed.
End Facts.
