(** Lemmas for the properties of the API: states, files, logout. *)
From Coq Require Import Strings.Byte.
From Verif Require Import Base BaseFacts BytesModel BytesFacts MiscModel MiscFacts CipherModel CipherSpec CipherFacts CipherFacts2 PwModel PwSpec PwFacts ChModel ChSpec ChFacts ChFacts2
  HeaderModel HeaderSpec HeaderFacts HeaderFacts2 HeaderFacts3 HeaderFacts4 HeaderFacts5 HeaderFacts8 HeaderFacts9 FileModel ApiModel ApiSpec FileFacts FileFacts2 ApiFacts ApiFacts2 ApiFacts3 ApiFacts4 ApiFacts5.

Lemma complete_iff ds : set_isComplete ds = true <-> settings_complete ds.
Proof.
  unfold set_isComplete, settings_complete. rewrite !andb_true_iff.
  destruct (s_fmode ds), (s_hmode ds), (s_ch1 ds), (s_ch2 ds), (s_n1 ds), (s_n2 ds); cbn [isSome]; intuition congruence.
Qed.
Lemma incomplete_iff ds : set_isComplete ds = false <-> ~ settings_complete ds.
Proof. rewrite <- complete_iff. destruct (set_isComplete ds); split; congruence. Qed.

(** ** C33 *)
Lemma not_offered w a f o : offered (a_state a) o = false ->
  (forall pw ds t, o = OHeader pw ds t -> settings_complete ds) -> (forall pw ds, o = OHeaderTime pw ds -> settings_complete ds) ->
  step w a f o = (f, Ret (a, RErr FAIL ERR_API_STATE_INVALID)).
Proof.
  intros N C1 C2. destruct o; cbn [step] in *; try (destruct (a_state a); try discriminate N; reflexivity).
  - rewrite (proj2 (complete_iff ds) (C1 _ _ _ eq_refl)). destruct (a_state a); try discriminate N; reflexivity.
  - rewrite (proj2 (complete_iff ds) (C2 _ _ eq_refl)). destruct (a_state a); try discriminate N; reflexivity.
Qed.
Lemma incomplete_settings w a f ds : ~ settings_complete ds ->
  (forall pw t, step w a f (OHeader pw ds t) = (f, Ret (a, RErr FAIL ERR_DATAHEADERSETTINGS_INCOMPLETE))) /\
  (forall pw, step w a f (OHeaderTime pw ds) = (f, Ret (a, RErr FAIL ERR_DATAHEADERSETTINGS_INCOMPLETE))).
Proof. intros N. apply incomplete_iff in N. split; intros; cbn [step]; rewrite N; reflexivity. Qed.

Ltac inj E := first [discriminate E | injection E as ? ? ?; subst].
Ltac fin := spl; cbn; intros; try discriminate; congruence.
Lemma failed_not c : succeeded (failed c) = false.
Proof. reflexivity. Qed.
Lemma state_step w a f o f' a' r : fs_ok f -> step w a f o = (f', Ret (a', r)) ->
  (succeeded r = true -> a_state a' = next_state (a_state a) o (selects_empty w f o)) /\ (succeeded r = false -> a_state a' = a_state a) /\ a_mode a' = a_mode a.
Proof.
  intros Hf E. destruct o; cbn [step] in E.
  - (* list *) destruct (a_state a) eqn:Es; try (inj E; fin).
    destruct (getRelevantFileNames w f (a_mode a) dir) as [[c|l]| | |]; cbn in E; inj E; fin.
  - (* create *) destruct (a_state a) eqn:Es; try (inj E; fin).
    destruct (fh_createFile w f p) as [f1 [[c|u]| | |]]; cbn in E; inj E; fin.
  - (* select *) destruct (a_state a) eqn:Es; try (inj E; fin). unfold selectFile in E.
    destruct (handler_cases w f p Hf) as [(c & O & -> & X & _)|[(c & hsz & O & L & Lh & S & X & _)|[(c & e & O & _ & _ & _ & X & _)|[(_ & _ & _ & X & _)|(_ & c & X & _)]]]]; rewrite X in E; cbn [bind dret dfail noexcept fh_empty] in E.
    + inj E. destruct O as (_ & _ & O & _). unfold selects_empty, content. rewrite O. fin.
    + destruct O as (_ & _ & O & _). unfold selects_empty, content. rewrite O. apply fit_nonempty in S. destruct c as [|b0 c]; [contradiction|].
      destruct (fh_getDataHeader w f 0 _) as [[k|d]| | |]; cbn in E; inj E; fin.
    + inj E. fin.
    + discriminate E.
    + inj E. fin.
  - destruct (a_state a) eqn:Es; inj E; fin.
  - destruct (a_state a) eqn:Es; inj E; fin.
  - destruct (a_state a) eqn:Es; try (inj E; fin); unfold deleteFile in E; destruct (a_file a) as [x|]; try discriminate E;
      destruct (negb (w_remove w (fh_path x))); try discriminate E; destruct (f (w_loc w (fh_path x))); inj E; fin.
  - destruct (a_state a) eqn:Es; try (inj E; fin). unfold getFileContent in E. destruct (a_file a) as [x|]; cbn [ptr bind] in E; [|discriminate E].
    destruct (try_ _ _) as [[c|b]| | |]; cbn in E; inj E; fin.
  - destruct (a_state a) eqn:Es; try (inj E; fin). unfold verifyPassword in E. destruct (a_dh a); cbn [ptr bind] in E; [|discriminate E].
    destruct (catch_std _ _) as [[c|b]| | |]; cbn in E; inj E; fin.
  - destruct (set_isComplete ds); cbn [negb] in E; [|inj E; fin]. destruct (a_state a) eqn:Es; try (inj E; fin);
    destruct (createHeaderIters _ _ _ _ _) as [[c|[d k]]| | |]; cbn in E; inj E; fin.
  - destruct (set_isComplete ds); cbn [negb] in E; [|inj E; fin]. destruct (a_state a) eqn:Es; try (inj E; fin);
    destruct (createHeaderTime _) as [[c|[d k]]| | |]; cbn in E; inj E; fin.
  - destruct (a_state a) eqn:Es; try (inj E; fin). unfold changeSalt in E.
    destruct (ptr (a_dh a)) as [d| | |]; cbn [bind] in E; try discriminate. destruct (getDataHeaderParts d) as [p| | |]; cbn [bind] in E; try discriminate.
    destruct (p_getSalt p) as [s| | |]; cbn [bind] in E; try discriminate. destruct (newBytes _) as [b| | |]; cbn [bind] in E; try discriminate.
    destruct (fillrandom _ _) as [bz| | |]; cbn [bind] in E; try discriminate E. destruct (p_setSalt _ _) as [p'| | |]; cbn [bind] in E; try discriminate. destruct (setHeaderParts _ _) as [[c|d']| | |]; cbn in E; inj E; fin.
  - destruct (a_state a) eqn:Es; try (inj E; fin). unfold getDecryptedData in E. destruct (try_ _ _) as [[c|b]| | |]; cbn in E; inj E; fin.
  - destruct (a_state a) eqn:Es; try (inj E; fin). unfold getFileData in E. destruct (a_fdata a); inj E; fin.
  - destruct (a_state a) eqn:Es; try (inj E; fin). unfold encryptData in E. destruct x as [[fm fd]|]; [|discriminate]. cbn [ptr bind fd_mode fd_data] in E.
    destruct fm as [m|]; [|inj E; fin]. destruct (negb (m =? a_mode a)); [inj E; fin|].
    destruct fd as [data|]; cbn [ptr bind] in E; [|discriminate]. destruct (a_dh a) as [d|]; cbn [ptr bind] in E; [|discriminate].
    destruct (try_ _ (setDataSize _ _)) as [[c|d1]| | |]; cbn [bind] in E; try discriminate; [inj E; fin|].
    destruct (calcHeaderBytes _ _ _ _) as [d2 r2]. destruct (try_ _ _) as [[c|b]| | |]; cbn in E; inj E; fin.
  - destruct (a_state a) eqn:Es; try (inj E; fin). unfold writeToFile in E. destruct (a_file a) as [x|]; [|discriminate].
    destruct (fh_getWriteStream w f x) as [[h' f1] [[c|u]| | |]]; try discriminate; [inj E; fin|]. unfold finishWrite in E.
    destruct (noexcept (fullData _)); inj E; fin.
  - destruct (a_state a) eqn:Es; try (inj E; fin). unfold writeToPath in E.
    destruct (getFileHandler w f p) as [[c|x]| | |]; try discriminate; [inj E; fin|].
    destruct (fh_getWriteStreamIfEmpty w f x) as [[h' f1] [[c|u]| | |]]; try discriminate; [inj E; fin|]. unfold finishWrite in E.
    destruct (noexcept (fullData _)); inj E; fin.
  - inj E. fin.
  - inj E. fin.
Qed.

(** ** C14: time settings *)
Lemma time_settings w a f pw ds : settings_complete ds -> offered (a_state a) (OHeaderTime pw ds) = true -> step w a f (OHeaderTime pw ds) = (f, Crash Terminate).
Proof. intros C O. apply complete_iff in C. cbn [step]. rewrite C. cbn [negb]. destruct (a_state a); try discriminate O; reflexivity. Qed.
Lemma time_never w a f pw ds f' a' r : step w a f (OHeaderTime pw ds) = (f', Ret (a', r)) -> succeeded r = false /\ a' = a /\ f' = f.
Proof.
  cbn [step]. destruct (set_isComplete ds); cbn [negb]; [|intros [= <- <- <-]; auto]. destruct (a_state a); try (intros [= <- <- <-]; auto); discriminate.
Qed.

(** ** C43 *)
Lemma relevant_same w f mode dir names : forall i ret l, relevant_loop w f i mode dir names ret = Ret l -> l = ret.
Proof.
  induction names as [|n names IH]; intros i ret l E; cbn [relevant_loop] in E; [congruence|].
  destruct (getFileHandler w f (join dir n)) as [[c|x]| | |]; cbn [bind] in E; try discriminate; [unfold count_up in E; destruct (N.of_nat i =? INT_MAX); [discriminate|exact (IH _ _ _ E)]|].
  destruct (if fh_empty x then _ else _) as [t| | |]; cbn [bind] in E; try discriminate. unfold count_up in E. destruct (N.of_nat i =? INT_MAX); [discriminate|exact (IH _ _ _ E)].
Qed.
Lemma names_empty w a f dir f' a' l : step w a f (OList dir) = (f', Ret (a', RNames l)) -> l = [].
Proof.
  cbn [step]. destruct (a_state a); try discriminate. unfold getRelevantFileNames. destruct (getAllEncFileNames w dir) as [[c|names]| | |]; cbn; try discriminate.
  destruct (relevant_loop w f 0 (a_mode a) dir names []) as [x| | |] eqn:X; cbn; try discriminate. intros [= _ _ <-]. exact (relevant_same _ _ _ _ _ _ _ _ X).
Qed.

(** ** C39 *)
Lemma logout_fresh bd H mode tr a w f m : history bd H mode tr a -> exists a', newAPI mode = Ret a' /\
  step w a f OLogout = (f, Ret (a', RVoid)) /\ step w a f (OLogoutMode m) = (f, Ret (a', RVoid)).
Proof.
  intros Hh. assert (a_mode a = mode /\ exists a', newAPI mode = Ret a') as [Em [a' Ea']].
  { induction Hh as [a E|tr a w0 f0 o f' a' r Hh IH W Hf Ho E].
    - split; [|eauto]. unfold newAPI in E. destruct (file_mode_valid mode); [|discriminate]. injection E as <-. reflexivity.
    - destruct IH as [IH [a1 IH']]. split; [|eauto]. destruct (state_step _ _ _ _ _ _ _ Hf E) as (_ & _ & ->). exact IH. }
  exists a'. split; [exact Ea'|]. cbn [step]. rewrite Em. unfold newAPI in Ea'. destruct (file_mode_valid mode); [|discriminate]. injection Ea' as <-. auto.
Qed.
Section Hist.
  Variable H : hashes.
  Hypothesis HH : hashes_ok H.
  Variable bd : build.
  Lemma closed_fresh mode tr a w f o f' a' : history bd H mode tr a -> (o = OUnselect \/ o = ODelete) -> step w a f o = (f', Ret (a', ROk)) -> newAPI mode = Ret a'.
  Proof.
    intros Hh Ho E. pose proof (history_mode _ _ _ _ _ Hh) as ->. pose proof (history_inv _ HH _ _ _ _ Hh) as [Em I].
    destruct Ho as [-> | ->]; cbn [step] in E.
    - destruct (a_state a); try discriminate.
      + destruct I as (p & c & hsz & l1 & l2 & h & rest & _ & _ & _ & _ & _ & _ & _ & _ & ->). injection E as _ <-. reflexivity.
      + destruct I as (p & _ & _ & _ & _ & ->). injection E as _ <-. reflexivity.
    - destruct (a_state a); try discriminate.
      + destruct I as (p & c & hsz & l1 & l2 & h & rest & _ & _ & _ & _ & _ & _ & _ & _ & ->). unfold deleteFile in E. cbn [a_file] in E.
        destruct (negb _); [discriminate|]. destruct (f _); [|discriminate]. injection E as _ <-. reflexivity.
      + destruct I as (p & _ & _ & _ & _ & ->). unfold deleteFile in E. cbn [a_file] in E.
        destruct (negb _); [discriminate|]. destruct (f _); [|discriminate]. injection E as _ <-. reflexivity.
  Qed.
  (** an object in the state INIT is as new *)
  Lemma init_fresh mode tr a : history bd H mode tr a -> a_state a = INIT -> newAPI mode = Ret a.
  Proof.
    intros Hh E. pose proof (history_mode _ _ _ _ _ Hh) as ->. pose proof (history_inv _ HH _ _ _ _ Hh) as [Em I]. rewrite E in I. destruct I as (_ & _ & _ & _ & ->). reflexivity.
  Qed.

  (** ** C37 *)
  Lemma upd_other f l v k : k <> l -> upd f l v k = f k.
  Proof. intros N. unfold upd. destruct (N.eqb_spec k l); [contradiction|reflexivity]. Qed.
  Lemma upd_same f l v : upd f l v l = v.
  Proof. unfold upd. rewrite N.eqb_refl. reflexivity. Qed.
  Lemma stream_other w f p d k : k <> w_loc w p -> write_stream w (upd f (w_loc w p) (Some [])) p d k = f k.
  Proof. intros N. unfold write_stream. rewrite !upd_other by exact N. reflexivity. Qed.
  Lemma stream_same w f p d : write_stream w (upd f (w_loc w p) (Some [])) p d (w_loc w p) = Some (takeN (w_room w) d).
  Proof. unfold write_stream. apply upd_same. Qed.
  (** a call changes at most the file it is meant for, and only if it succeeds *)
  Lemma frame mode tr a w f o f' r l : history bd H mode tr a -> world_ok bd H w -> fs_ok f -> op_ok o -> step w a f o = (f', r) -> f' l <> f l ->
    (exists a', r = Ret (a', ROk)) /\ exists p, target tr o = Some p /\ l = w_loc w p /\
    match o with
    | OCreate _ => f l = None /\ f' l = Some []
    | ODelete => f l <> None /\ f' l = None
    | OWriteTo _ => f l = Some [] /\ f' l <> None
    | OWrite => f l <> None /\ f' l <> None
    | _ => False
    end.
  Proof.
    intros Hh W Hf Ho E Nl. pose proof (history_inv _ HH _ _ _ _ Hh) as [Em I].
    destruct o; cbn [step] in E.
    all: try (exfalso; apply Nl; destruct (a_state a); injection E as <- _; reflexivity).
    all: try (exfalso; apply Nl; destruct (set_isComplete ds); destruct (a_state a); injection E as <- _; reflexivity).
    - (* create *) destruct (a_state a); try (exfalso; apply Nl; injection E as <- _; reflexivity).
      destruct (fh_createFile w f p) as [f1 r1] eqn:Ec. destruct (create_spec _ _ _ _ _ Ec) as [(-> & _ & F0 & F1 & Fo)|[_ ->]]; [|exfalso; apply Nl; injection E as <- _; reflexivity].
      cbn in E. injection E as <- <-. split; [eexists; reflexivity|]. exists p. cbn. destruct (N.eq_dec l (w_loc w p)) as [->|N1]; [auto|]. exfalso. apply Nl, Fo, N1.
    - (* delete *) cbn [target]. destruct (a_state a); try (exfalso; apply Nl; injection E as <- _; reflexivity).
      + destruct I as (p & c & hsz & l1 & l2 & h & rest & Q1 & _ & _ & _ & _ & _ & _ & _ & ->). unfold deleteFile in E. cbn [a_file fh_path] in E.
        destruct (negb _); [exfalso; apply Nl; injection E as <- _; reflexivity|]. destruct (f (w_loc w p)) eqn:Fl; [|exfalso; apply Nl; injection E as <- _; reflexivity].
        injection E as <- <-. split; [eexists; reflexivity|]. rewrite Q1. exists p. destruct (N.eq_dec l (w_loc w p)) as [->|N1]; [|rewrite upd_other in Nl by exact N1; contradiction].
        rewrite upd_same, Fl. spl; congruence.
      + destruct I as (p & Q1 & _ & _ & _ & ->). unfold deleteFile in E. cbn [a_file fh_path] in E.
        destruct (negb _); [exfalso; apply Nl; injection E as <- _; reflexivity|]. destruct (f (w_loc w p)) eqn:Fl; [|exfalso; apply Nl; injection E as <- _; reflexivity].
        injection E as <- <-. split; [eexists; reflexivity|]. rewrite Q1. exists p. destruct (N.eq_dec l (w_loc w p)) as [->|N1]; [|rewrite upd_other in Nl by exact N1; contradiction].
        rewrite upd_same, Fl. spl; congruence.
    - (* write *) cbn [target]. destruct (a_state a); try (exfalso; apply Nl; injection E as <- _; reflexivity).
      destruct I as (p & c & h & pw & k & d & fh & data & e & Q1 & Q2 & Q3 & Q4 & K & Rd & L & Q5 & Q6 & Ea).
      assert (getLen e = lenN data) as Le by (unfold getLen; rewrite Q6; apply (cipher_len H HH); apply (holds_ok d), Rd).
      pose proof (write_outcome w a f fh d e h (lenN data)) as X. rewrite Ea in X. cbn [a_file a_dh a_enc a_state a_mode a_fdata a_key] in X.
      specialize (X eq_refl eq_refl eq_refl Rd Le L). rewrite <- Ea in X. cbv zeta in X.
      destruct X as [(c0 & O & Ww & X)|[_ [[c0 X]|X]]]; rewrite X in E; injection E as <- <-; try (exfalso; apply Nl; reflexivity).
      split; [eexists; reflexivity|]. rewrite Q1. exists p. rewrite Q5 in *. destruct (N.eq_dec l (w_loc w p)) as [->|N1]; [|rewrite stream_other in Nl by exact N1; contradiction].
      rewrite stream_same. destruct O as (_ & _ & O & _). rewrite O. spl; congruence.
    - (* write to *) cbn [target]. destruct (a_state a); try (exfalso; apply Nl; injection E as <- _; reflexivity).
      destruct I as (q & c & h & pw & k & d & fh & data & e & Q1 & Q2 & Q3 & Q4 & K & Rd & L & Q5 & Q6 & Ea).
      assert (getLen e = lenN data) as Le by (unfold getLen; rewrite Q6; apply (cipher_len H HH); apply (holds_ok d), Rd).
      pose proof (write_to_outcome w a f p d e h (lenN data) Hf) as X. rewrite Ea in X. cbn [a_file a_dh a_enc a_state a_mode a_fdata a_key] in X.
      specialize (X eq_refl eq_refl Rd Le L). rewrite <- Ea in X.
      destruct X as [(O & Ww & X)|[_ [[c0 X]|X]]]; rewrite X in E; injection E as <- <-; try (exfalso; apply Nl; reflexivity).
      split; [eexists; reflexivity|]. exists p. destruct (N.eq_dec l (w_loc w p)) as [->|N1]; [|rewrite stream_other in Nl by exact N1; contradiction].
      rewrite stream_same. destruct O as (_ & _ & O & _). rewrite O. spl; congruence.
  Qed.

  (** ** C44 *)
  Lemma encrypt_failed mode tr a w f x f' a' s c : history bd H mode tr a -> world_ok bd H w -> fs_ok f -> op_ok (OEncrypt x) -> a_state a = DECRYPTED ->
    step w a f (OEncrypt x) = (f', Ret (a', RErr s c)) ->
    f' = f /\ a_state a' = DECRYPTED /\ a_key a' = a_key a /\ a_file a' = a_file a /\ a_fdata a' = a_fdata a /\
    exists d d', a_dh a = Some d /\ a_dh a' = Some d' /\ contents d' = contents d /\ contents d <> None.
  Proof.
    intros Hh (_ & WH & _) Hf Ho Es E. pose proof (history_inv _ HH _ _ _ _ Hh) as [Em I]. cbn [step] in E. rewrite Es in E, I.
    destruct I as (p & c0 & h0 & pw0 & k0 & d0 & fh & fd & Q1 & Q2 & Q3 & Q4 & [Q5 Q5'] & Q6 & Q7 & Q8 & Ea).
    assert (encryptData w a x = Ret (a', RErr s c) /\ f' = f) as [E' ->] by (injection E as <- ->; auto).
    assert (a_dh a = Some d0) as Edh by (rewrite Ea; reflexivity). assert (bdata (a_key a) = key_of H h0 pw0) as Ek by (rewrite Ea; exact Q5').
    split; [reflexivity|].
    destruct (encrypt_inv H HH w a x d0 h0 pw0 a' _ WH Em Edh Q6 Ek Ho E') as [(e & -> & _)|[(d1 & e & Hd1 & -> & _)|(data & res & d2 & _ & _ & _ & X & _)]]; [| |discriminate X].
    - spl; try reflexivity; try assumption. exists d0, d0. spl; try assumption; try reflexivity. destruct Q6 as [_ ->]. discriminate.
    - cbn. spl; try reflexivity; try assumption. exists d0, d1. spl; try assumption; try reflexivity; rewrite (proj2 Q6); [exact (proj2 Hd1)|discriminate].
  Qed.
End Hist.
