(** Lemmas for the properties of the file handler. *)
From Coq Require Import Strings.String.
From Verif Require Import Base BaseFacts BytesModel MiscModel CipherModel PwModel ChModel HeaderModel HeaderSpec HeaderFacts HeaderFacts2 HeaderFacts3 FileModel ApiModel ApiSpec FileFacts.

Lemma open_iff w f p : fs_ok f ->
  ((exists h, newFileHandler w f p = Ret h) <->
   (enc_path p /\ w_stat w p = true /\ w_read w p = true /\
    exists c, f (w_loc w p) = Some c /\ (c = [] \/ exists hsz, hsz < 2 ^ 64 /\ sizes_fit c hsz))).
Proof.
  intros Hf. change (2 ^ 64) with two64. split.
  - intros [h E]. destruct (handler_cases w f p Hf) as [(c & (A & B & C & D) & -> & _)|[(c & hsz & (A & B & C & D) & L & Lh & F & _)|[(c & e & _ & _ & _ & _ & _ & X)|[(_ & _ & _ & _ & X)|(_ & c & _ & X & _)]]]]; try congruence.
    + spl; trivial. exists []. split; [exact C|left; reflexivity].
    + spl; trivial. exists c. split; [exact C|right]. exists hsz. split; [exact Lh|exact F].
  - intros (A & S & R & c & F & K). assert (openable w f p c) as O by (unfold openable; auto). rewrite (new_open _ _ _ _ O).
    destruct K as [->|(hsz & Lh & Ft)]; [eexists; reflexivity|]. rewrite (update_fit _ _ hsz); [eexists; reflexivity| |assumption..]. exact (lt63_64 _ (Hf _ _ F)).
Qed.
Lemma open_result w f p h : fs_ok f -> newFileHandler w f p = Ret h ->
  exists c, f (w_loc w p) = Some c /\ fh_path h = p /\ fh_fsize h = lenN c /\ (fh_empty h = true <-> c = []) /\
    (c = [] -> fh_hsize h = 0) /\ (c <> [] -> sizes_fit c (fh_hsize h)).
Proof.
  intros Hf E. destruct (handler_cases w f p Hf) as [(c & (A & B & C & D) & -> & _ & X)|[(c & hsz & (A & B & C & D) & L & Lh & F & _ & X)|[(c & e & _ & _ & _ & _ & _ & X)|[(_ & _ & _ & _ & X)|(_ & c & _ & X & _)]]]]; try congruence;
  rewrite X in E; injection E as <-; cbn [fh_path fh_fsize fh_empty fh_hsize].
  - exists []. spl; trivial; try reflexivity; tauto.
  - exists c. pose proof (fit_nonempty _ _ F). spl; trivial; try reflexivity; try (split; [discriminate|contradiction]); intros; try contradiction; assumption.
Qed.
(** the documented error codes of selecting *)
Lemma open_codes w f p : fs_ok f ->
  (p = [] -> getFileHandler w f p = dfail ERR_EMPTY_FILEPATH) /\
  (p <> [] -> ~ enc_path p -> getFileHandler w f p = dfail ERR_EXTENSION_INVALID) /\
  (enc_path p -> w_stat w p = false -> getFileHandler w f p = Crash Terminate) /\
  (enc_path p -> w_stat w p = true -> f (w_loc w p) = None -> getFileHandler w f p = dfail ERR_FILE_NOT_FOUND) /\
  (enc_path p -> w_stat w p = true -> f (w_loc w p) <> None -> w_read w p = false -> getFileHandler w f p = dfail ERR_FILE_NOT_OPEN) /\
  (forall c, enc_path p -> w_stat w p = true -> w_read w p = true -> f (w_loc w p) = Some c -> c <> [] ->
     (forall hsz, hsz < 2 ^ 64 -> ~ sizes_fit c hsz) -> getFileHandler w f p = dfail ERR_FILEHANDLER_CREATION).
Proof.
  intros Hf. change (2 ^ 64) with two64.
  assert (enc_path [] -> False) as N0 by (intros E; apply enc_path_nonempty in E; discriminate).
  destruct (handler_cases w f p Hf) as [(c & (A & B & C & D) & -> & X & _)|[(c & hsz & (A & B & C & D) & L & Lh & F & X & _)|[(c & e & (A & B & C & D) & NE & NF & _ & X & _)|[(NO & A & B & X & _)|(NO & c & X & _ & K)]]]];
  [| | | |destruct K as [(K1 & K2)|[(K1 & K2 & K3)|[(K1 & K2 & K3 & K4)|(K1 & K2 & K3 & K4 & K5)]]]]; rewrite X;
  spl; intros; subst; try congruence; try contradiction; try tauto.
  - exfalso. replace c0 with c in * by congruence. exact (H4 hsz Lh F).
Qed.

(** ** createFile *)
Lemma create_spec w f p f' r : fh_createFile w f p = (f', r) ->
  (r = Ret (inr tt) /\ enc_path p /\ f (w_loc w p) = None /\ f' (w_loc w p) = Some [] /\ (forall l, l <> w_loc w p -> f' l = f l)) \/
  (r <> Ret (inr tt) /\ f' = f).
Proof.
  unfold fh_createFile. destruct (valid_path_cases w f p false) as [[Ep V]|[(NEp & Np & V)|[(Ep & S & V)|(Ep & S & V)]]]; rewrite V.
  1-3: intros E; injection E as <- <-; right; split; [discriminate|reflexivity].
  destruct (f (w_loc w p)) eqn:F; cbn [dret dfail].
  - intros E; injection E as <- <-. right; split; [discriminate|reflexivity].
  - destruct (w_create w p); intros E; injection E as <- <-; [left|right; split; [discriminate|reflexivity]].
    spl; trivial; try reflexivity.
    + unfold upd. rewrite N.eqb_refl. reflexivity.
    + intros l Hl. unfold upd. destruct (N.eqb_spec l (w_loc w p)); [contradiction|reflexivity].
Qed.
Lemma create_ok w f p : enc_path p -> w_stat w p = true -> w_create w p = true -> f (w_loc w p) = None ->
  exists f', fh_createFile w f p = (f', dret tt).
Proof.
  intros E S C F. unfold fh_createFile. destruct (valid_path_cases w f p false) as [[Ep V]|[(NEp & Np & V)|[(Ep & S' & V)|(Ep & S' & V)]]]; rewrite V; try congruence; try contradiction.
  - subst p. apply enc_path_nonempty in E. discriminate.
  - rewrite F. cbn [dret]. rewrite C. eexists. reflexivity.
Qed.
(** a created file can be opened at once, as an empty file *)
Lemma create_open w f p f' : fs_ok f -> fh_createFile w f p = (f', dret tt) -> w_read w p = true -> newFileHandler w f' p = Ret (mkFH p 0 0 true).
Proof.
  intros Hf E R. assert (w_stat w p = true) as S.
  { destruct (w_stat w p) eqn:S; [reflexivity|exfalso]. unfold fh_createFile in E.
    destruct (valid_path_cases w f p false) as [[Ep V]|[(NEp & Np & V)|[(Ep & S' & V)|(Ep & S' & V)]]]; rewrite V in E; discriminate || congruence. }
  destruct (create_spec _ _ _ _ _ E) as [(_ & A & _ & B & _)|[N _]]; [|exfalso; apply N; reflexivity].
  rewrite (new_open w f' p []); [reflexivity|]. unfold openable. auto.
Qed.

(** ** getWriteStreamIfEmpty *)
(** a handler opened in one file system and used in a later one *)
Lemma stale_empty w f h : fh_empty h = true -> enc_path (fh_path h) -> usable_file w (fh_path h) -> f (w_loc w (fh_path h)) <> None ->
  exists h' f', fh_getWriteStreamIfEmpty w f h = (h', f', dret tt) /\ f' (w_loc w (fh_path h)) = Some [] /\ (forall l, l <> w_loc w (fh_path h) -> f' l = f l).
Proof.
  intros Em Ep (S & R & W) F. unfold fh_getWriteStreamIfEmpty, fh_getWriteStream. rewrite Em.
  destruct (f (w_loc w (fh_path h))) as [c|] eqn:Fc; [|contradiction].
  rewrite (valid_path_ok w f _ c) by assumption. cbn [dret]. rewrite W. eexists _, _. split; [reflexivity|]. split.
  - unfold upd. rewrite N.eqb_refl. reflexivity.
  - intros l Hl. unfold upd. destruct (N.eqb_spec l (w_loc w (fh_path h))); [contradiction|reflexivity].
Qed.
Lemma nonempty_refused w f h : fh_empty h = false -> fh_getWriteStreamIfEmpty w f h = (h, f, dfail ERR_FILE_NOT_EMPTY).
Proof. intros E. unfold fh_getWriteStreamIfEmpty. rewrite E. reflexivity. Qed.
Lemma stale_if_empty w w' f f' p h : fs_ok f -> newFileHandler w f p = Ret h -> usable_file w' p -> f' (w_loc w' p) <> None ->
  (f (w_loc w p) = Some [] -> exists h' f2, fh_getWriteStreamIfEmpty w' f' h = (h', f2, dret tt) /\ f2 (w_loc w' p) = Some [] /\ (forall l, l <> w_loc w' p -> f2 l = f' l)) /\
  (f (w_loc w p) <> Some [] -> fh_getWriteStreamIfEmpty w' f' h = (h, f', dfail ERR_FILE_NOT_EMPTY)).
Proof.
  intros Hf E U F. destruct (open_result _ _ _ _ Hf E) as (c & Fc & Ep & _ & Em & _).
  assert (enc_path p) as EP by (apply (open_iff w f p Hf); exists h; exact E).
  split; intros X.
  - rewrite Fc in X. injection X as ->. subst p. apply stale_empty; trivial. apply Em. reflexivity.
  - apply nonempty_refused. destruct (fh_empty h) eqn:Eh; [|reflexivity]. exfalso. apply X. rewrite Fc. f_equal. apply Em. reflexivity.
Qed.
