(** Proofs for C88, continued: nobody else; what gets lost or mixed up. *)
From Coq Require Import Strings.Byte.
From Verif Require Import Base BaseFacts BytesModel BytesFacts MiscModel MiscFacts CipherModel CipherSpec CipherFacts CipherFacts2 PwModel PwSpec PwFacts ChModel ChSpec ChFacts ChFacts2
  HeaderModel HeaderSpec HeaderFacts HeaderFacts2 HeaderFacts3 HeaderFacts4 HeaderFacts5 HeaderFacts8 HeaderFacts9 FileModel ApiModel ApiSpec ApiSpec2 FileFacts FileFacts2 ApiFacts ApiFacts2 ApiFacts3 ApiFacts4 ApiFacts5 ApiFacts6 ApiFacts7 ApiFacts8 ApiFacts9 ApiFacts11
  SecSpec SecFacts InterModel InterSpec StreamFacts InterFacts InterFacts2 InterFacts3.
Import ListNotations.
Open Scope N_scope.
Open Scope list_scope.

Lemma changed_about w a o l : changed_by w a o l -> about w a o l.
Proof. unfold changed_by, about. destruct o, (a_state a); first [tauto|intros []]. Qed.
Lemma step_frame w a f o l : ~ changed_by w a o l -> fst (step w a f o) l = f l.
Proof.
  unfold changed_by. destruct o; cbn [step]; try (destruct (a_state a); reflexivity); try (destruct (a_state a); try reflexivity; destruct (_ : bool); reflexivity).
  - unfold fh_createFile. destruct (a_state a); try reflexivity. intros C. destruct (isValidPath w f p false) as [[e|u]|e|c|]; try reflexivity. destruct (w_create w p); [|reflexivity].
    cbn. apply upd_other. congruence.
  - intros C. destruct (a_state a) eqn:Es; try reflexivity; unfold deleteFile; (destruct (a_file a) as [h|]; [|reflexivity]); (destruct (negb (w_remove w (fh_path h))); [reflexivity|]);
      (destruct (f (w_loc w (fh_path h))); [|reflexivity]); cbn; apply upd_other; intros ->; apply C; eauto.
  - intros C. destruct (a_state a) eqn:Es; try reflexivity. unfold writeToFile. destruct (a_file a) as [h|]; [|reflexivity]. unfold fh_getWriteStream.
    assert (l <> w_loc w (fh_path h)) as Nl by (intros ->; apply C; eauto).
    destruct (isValidPath w f (fh_path h) true) as [[e|u]|e|c|]; try reflexivity. destruct (w_write w (fh_path h)); [|reflexivity]. cbn [dret]. unfold dret.
    unfold finishWrite. destruct (noexcept _); cbn [fst]; unfold write_stream; rewrite ?upd_other by exact Nl; reflexivity.
  - intros C. destruct (a_state a) eqn:Es; try reflexivity. unfold writeToPath. destruct (getFileHandler w f p) as [[e|h]|e|c|] eqn:G; try reflexivity. unfold fh_getWriteStreamIfEmpty, fh_getWriteStream.
    destruct (fh_empty h); [|reflexivity]. pose proof (handler_path w f p h G) as Hp. rewrite Hp.
    destruct (isValidPath w f p true) as [[e|u]|e|c|]; try reflexivity. destruct (w_write w p); [|reflexivity]. cbn [dret]. unfold dret.
    unfold finishWrite. destruct (noexcept _); cbn [fst]; unfold write_stream; rewrite ?upd_other by congruence; reflexivity.
Qed.
Lemma changed_dec w a o l : changed_by w a o l \/ ~ changed_by w a o l.
Proof.
  unfold changed_by. destruct o, (a_state a); auto; try (destruct (N.eq_dec l (w_loc w p)); auto);
    (destruct (a_file a) as [h|]; [destruct (N.eq_dec l (w_loc w (fh_path h))) as [-> |X]; [left; eauto|right; intros (h' & [= <-] & E); auto]|right; intros (h' & E & _); discriminate]).
Qed.
Lemma alone w cuts a o f n : snd (step_i w nobody cuts a o (n, f)) = snd (step w a f o) /\ forall l, snd (fst (step_i w nobody cuts a o (n, f))) l = fst (step w a f o) l.
Proof.
  assert (forall l, left_alone nobody l) as Q by (intros l k g; reflexivity). destruct (undisturbed w nobody cuts a o f n (fun l _ => Q l)) as [R F]. split; [exact R|].
  intros l. destruct (changed_dec w a o l) as [C|C]; [apply F, changed_about, C|]. rewrite (others_kept w nobody cuts a o (n, f) l C (Q l)), step_frame by exact C. reflexivity.
Qed.

Lemma valid_there w env p n (f g1 g2 : fs) c1 c2 : usable_file w p -> enc_path p -> env n f = g1 -> env (S n) g1 = g2 -> g1 (w_loc w p) = Some c1 -> g2 (w_loc w p) = Some c2 ->
  isValidPath_i w env p true (n, f) = ((S (S n), g2), dret tt).
Proof.
  intros (U1 & U2 & U3) Ep <- <- F1 F2. unfold isValidPath_i. rewrite (enc_path_nonempty p Ep), (ext_true p Ep), U1. unfold look, open_read, at_. cbn [negb fst snd]. rewrite F1.
  unfold look. cbn [fst snd]. rewrite F2, U2. reflexivity.
Qed.
Lemma open_read_there w env p n (f g : fs) c : usable_file w p -> env n f = g -> g (w_loc w p) = Some c -> open_read w env p (n, f) = ((S n, g), Some c).
Proof. intros (U1 & U2 & U3) <- F. unfold open_read, look, at_. cbn [fst snd]. rewrite F, U2. reflexivity. Qed.
Lemma open_read_gone w env p n (f g : fs) : env n f = g -> g (w_loc w p) = None -> open_read w env p (n, f) = ((S n, g), None).
Proof. intros <- F. unfold open_read, look, at_. cbn [fst snd]. rewrite F. reflexivity. Qed.
Lemma later_there w env p x n (f g : fs) c : env n f = g -> g (w_loc w p) = Some c -> later w env p x (n, f) = ((S n, g), c).
Proof. intros <- F. unfold later, look, at_. cbn [fst snd]. rewrite F. reflexivity. Qed.

(** a file that appears between the check and the creation *)
Lemma create_erases w cuts a p (f : fs) c : a_state a = INIT -> usable_file w p -> enc_path p -> f (w_loc w p) = None ->
  exists s', step_i w (storing 1 (w_loc w p) c) cuts a (OCreate p) (O, f) = (s', Ret (a, ROk)) /\ snd s' (w_loc w p) = Some [] /\ moment (storing 1 (w_loc w p) c) f 1 (w_loc w p) = Some c.
Proof.
  intros Es (U1 & U2 & U3) Ep Fl. unfold step_i. rewrite Es. unfold createFile_i, isValidPath_i, look, at_. cbn [fst snd]. rewrite (enc_path_nonempty p Ep), (ext_true p Ep), U1. unfold storing. cbn [negb fst snd Nat.eqb].
  rewrite Fl. unfold open_write, at_, dret. cbn [fst snd Nat.eqb]. rewrite upd_same, U3. eexists. split; [reflexivity|]. cbn [snd moment Nat.eqb]. rewrite !upd_same. auto.
Qed.
(** a file that disappears between the check and the opening *)
Lemma vanished w cuts a p (f : fs) c : a_state a = INIT -> usable_file w p -> enc_path p -> f (w_loc w p) = Some c ->
  exists s' a', step_i w (removing 4 (w_loc w p)) cuts a (OSelect p) (O, f) = (s', Ret (a', ROk)) /\ a_state a' = EMPTY_FILE_SELECTED /\ snd s' (w_loc w p) = None.
Proof.
  intros Es U Ep Fl. unfold step_i. rewrite Es. unfold selectFile_i, getFileHandler_i. set (e := removing 4 (w_loc w p)).
  rewrite (valid_there w e p 0 f f f c c U Ep eq_refl eq_refl Fl Fl). unfold dret, newFileHandler_i. rewrite (valid_there w e p 2 f f f c c U Ep eq_refl eq_refl Fl Fl). unfold dret, update_i.
  rewrite (open_read_gone w e p 4 f (upd f (w_loc w p) None) eq_refl (upd_same _ _ _)). change (update_sized p 0 []) with (Ret (mkFH p 0 0 true)). cbn [try_ bind noexcept dret fh_empty].
  eexists. eexists. split; [reflexivity|]. split; [reflexivity|]. apply upd_same.
Qed.
Section S.
Variable H : hashes. Hypothesis HH : hashes_ok H. Variable bd : build.
(** a file that is filled between the check and the opening for writing *)
Lemma write_erases mode tr a w p (f : fs) c : history bd H mode tr a -> a_state a = ENCRYPTED -> usable_file w p -> enc_path p -> f (w_loc w p) = Some [] ->
  exists s' a' x, step_i w (storing 7 (w_loc w p) c) [] a (OWriteTo p) (O, f) = (s', Ret (a', ROk)) /\ to_save H tr x /\ snd s' (w_loc w p) = Some (takeN (w_room w) x) /\
    moment (storing 7 (w_loc w p) c) f 7 (w_loc w p) = Some c.
Proof.
  intros Hh Es U Ep Fl. destruct (ready_to_save H HH bd _ _ _ Hh Es) as (p0 & x & fh & t & Q1 & Q2 & Q3 & F & T).
  unfold step_i. rewrite Es. unfold writeToPath_i, getFileHandler_i. set (e := storing 7 (w_loc w p) c). set (g := upd f (w_loc w p) (Some c) : fs). assert (g (w_loc w p) = Some c) as Gl by apply upd_same.
  rewrite (valid_there w e p 0 f f f [] [] U Ep eq_refl eq_refl Fl Fl). unfold dret, newFileHandler_i. rewrite (valid_there w e p 2 f f f [] [] U Ep eq_refl eq_refl Fl Fl). unfold dret, update_i.
  rewrite (open_read_there w e p 4 f f [] U eq_refl Fl), (later_there w e p [] 5 f f [] eq_refl Fl), (later_there w e p [] 6 f f [] eq_refl Fl).
  change (noexcept (try_ (any_std ERR_FILEHANDLER_CREATION) (update_sized p (lenN []) []))) with (dret (mkFH p 0 0 true)). unfold dret, getWriteStreamIfEmpty_i, getWriteStream_i. cbn [fh_empty fh_path].
  rewrite (valid_there w e p 7 f g g c c U Ep eq_refl eq_refl Gl Gl). unfold dret, open_write, at_. cbn [fst snd]. change (e 9%nat g) with g. rewrite Gl. destruct U as (U1 & U2 & U3). rewrite U3.
  unfold finishWrite_i. rewrite F. cbn [noexcept]. eexists. eexists. exists (bdata t).
  split; [reflexivity|]. split; [exact T|]. split.
  - cbn [write_pieces]. unfold change, write_at, at_. cbn [fst snd]. change (e 10%nat) with (fun f : fs => f). cbv beta. rewrite upd_same, upd_same, overwrite_0, dropN_all, app_nil_r; [reflexivity|]. unfold lenN at 1. cbn. lia.
  - cbn [moment]. unfold e, storing. cbn [Nat.eqb]. apply upd_same.
Qed.
End S.

(** selecting, checking the password and reading, with the others acting while the file is selected *)
Definition read_while (w : world) (env : nat -> fs -> fs) (p pw : bytes) (f : fs) (d : bytes) : bool :=
  match step_i w env [] (fresh 1) (OSelect p) (O, f) with
  | (s1, Ret (a1, ROk)) =>
      match snd (step w a1 (snd s1) (OVerify pw 0)) with
      | Ret (a2, ROk) =>
          match snd (step w a2 (snd s1) ODecrypt) with
          | Ret (_, RData (mkFD (Some m) (Some b))) => (m =? 1) && eqb_bytes (bdata b) d
          | _ => false
          end
      | _ => false
      end
  | _ => false
  end.
Lemma read_while_ok w env p pw f d : read_while w env p pw f d = true ->
  exists s1 a1 a2 a3 b, step_i w env [] (fresh 1) (OSelect p) (O, f) = (s1, Ret (a1, ROk)) /\ snd (step w a1 (snd s1) (OVerify pw 0)) = Ret (a2, ROk) /\
    snd (step w a2 (snd s1) ODecrypt) = Ret (a3, RData (mkFD (Some 1) (Some b))) /\ bdata b = d.
Proof.
  unfold read_while. destruct (step_i w env [] (fresh 1) (OSelect p) (0%nat, f)) as [s1 [[a1 []]|e|c|]]; try discriminate.
  destruct (snd (step w a1 (snd s1) (OVerify pw 0))) as [[a2 []]|e|c|] eqn:E2; try discriminate.
  destruct (snd (step w a2 (snd s1) ODecrypt)) as [[a3 [| | | |[[m|] [b|]]| |]]|e|c|] eqn:E3; try discriminate.
  intros E. apply andb_prop in E. destruct E as [E4 E5]. apply N.eqb_eq in E4. subst m. apply eqb_bytes_spec in E5. exists s1, a1, a2, a3, b. auto.
Qed.
Lemma stored_moments w k p c0 c f i : f (w_loc w p) = Some c0 -> (0 < k)%nat -> content_at w (storing k (w_loc w p) c) f i p = Some c0 \/ content_at w (storing k (w_loc w p) c) f i p = Some c.
Proof.
  intros F K. unfold content_at. induction i as [|i IH]; cbn [moment].
  - unfold storing. destruct (Nat.eqb_spec 0 k); [lia|auto].
  - unfold storing at 1 3. destruct (Nat.eqb (S i) k); [right; apply upd_same|exact IH].
Qed.
