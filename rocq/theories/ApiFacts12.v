(** Content, deletion and writing after any history. *)
From Coq Require Import Strings.Byte.
From Verif Require Import Base BaseFacts BytesModel BytesFacts MiscModel MiscFacts CipherModel CipherSpec CipherFacts CipherFacts2 PwModel PwSpec PwFacts ChModel ChSpec ChFacts ChFacts2
  HeaderModel HeaderSpec HeaderFacts HeaderFacts2 HeaderFacts3 HeaderFacts4 HeaderFacts5 HeaderFacts8 HeaderFacts9 FileModel ApiModel ApiSpec ApiSpec2 FileFacts ApiFacts ApiFacts2 ApiFacts3 ApiFacts4 ApiFacts5 ApiFacts6 ApiFacts7 ApiFacts8 ApiFacts9 ApiFacts11.

Section S.
  Variable H : hashes.
  Hypothesis HH : hashes_ok H.
  Variable bd : build.

  (** ** getFileContent, isFileEmpty *)
  Lemma first_mod (c : bytes) : readBytes (lenN c) (Z.of_N (lenN c)) c = Some (takeN (lenN c mod 2 ^ 32) c, dropN (lenN c mod 2 ^ 32) c).
  Proof.
    unfold readBytes. assert (Z.to_N (Z.of_N (lenN c) mod 4294967296) = lenN c mod 2 ^ 32) as ->.
    { change 4294967296%Z with (Z.of_N (2 ^ 32)). rewrite <- N2Z.inj_mod, N2Z.id. reflexivity. }
    assert (lenN c mod 2 ^ 32 <= lenN c) as L by (apply N.mod_le; discriminate).
    destruct (N.ltb_spec (lenN c) (lenN c mod 2 ^ 32)); [lia|]. reflexivity.
  Qed.
  Lemma content_outcome mode tr a w f p c0 : history bd H mode tr a -> a_state a = FILE_SELECTED -> selected tr = Some (p, c0) ->
    step w a f OContent = (f, Ret (a, match f (w_loc w p) with
      | Some c => if w_read w p then RBytes (mkBytes (takeN (lenN c mod 2 ^ 32) c) (lenN c)) else RErr FAIL ERR_FILE_READ
      | None => RErr FAIL ERR_FILE_READ end)).
  Proof.
    intros Hh Es Q. pose proof (history_inv _ HH _ _ _ _ Hh) as [Em I]. rewrite Es in I.
    destruct I as (p' & c' & hsz' & l1' & l2' & h' & rest' & Q1 & _ & _ & _ & _ & Wr' & L1 & L2 & Ea).
    assert (p' = p) as -> by congruence. cbn [step]. rewrite Es. unfold getFileContent. rewrite Ea at 1. cbn [a_file ptr bind]. unfold fh_getAllBytes. cbn [fh_path].
    destruct (f (w_loc w p)) as [c|]; [|reflexivity]. destruct (w_read w p); [|reflexivity]. rewrite first_mod. reflexivity.
  Qed.
  Lemma content_empty mode tr a w f : history bd H mode tr a -> a_state a = EMPTY_FILE_SELECTED ->
    step w a f OContent = (f, Ret (a, RBytes (mkBytes [] 0))).
  Proof. intros Hh Es. cbn [step]. rewrite Es. reflexivity. Qed.
  Lemma empty_outcome mode tr a w f : history bd H mode tr a -> offered (a_state a) OIsEmpty = true ->
    exists p c, selected tr = Some (p, c) /\ step w a f OIsEmpty = (f, Ret (a, RBool (match c with [] => true | _ => false end))).
  Proof.
    intros Hh O. pose proof (history_inv _ HH _ _ _ _ Hh) as [Em I]. cbn [step]. destruct (a_state a) eqn:Es; try discriminate O.
    - destruct I as (p & c & hsz & l1 & l2 & h & rest & Q & _ & _ & _ & _ & Wr & _). exists p, c. split; [exact Q|]. destruct c; [|reflexivity].
      exfalso. destruct (written_size _ _ _ _ _ _ Wr) as [r L]. discriminate L.
    - destruct I as (p & Q & _). exists p, []. split; [exact Q|]. reflexivity.
  Qed.

  (** ** getFileData *)
  Lemma unread_data mode tr a : history bd H mode tr a -> a_state a = DECRYPTED ->
    a_fdata a = if unread tr then Some (mkFD (Some 1) (Some (mkBytes [] 0))) else None.
  Proof.
    induction 1 as [a E|tr a w f o f' a' r Hh IH W Hf Ho E]; intros Es.
    - unfold newAPI in E. destruct (file_mode_valid mode); [|discriminate E]. injection E as <-. discriminate Es.
    - pose proof (history_inv _ HH _ _ _ _ Hh) as [Em I].
      assert (forall c, a' = a -> r = failed c -> o <> OLogout -> (forall m, o <> OLogoutMode m) ->
        a_fdata a' = if unread (mkEntry w f o r f' :: tr) then Some (mkFD (Some 1) (Some (mkBytes [] 0))) else None) as Q.
      { intros c -> -> N1 N2. rewrite (IH Es). destruct (failed_err c) as [s ->]. destruct o; try reflexivity; [congruence|]. exfalso. apply (N2 mode0). reflexivity. }
      destruct o; cbn [step] in E;
        try (solve [destruct (a_state a) eqn:Ea; try (injection E as <- <- <-); try discriminate Es; try congruence;
              first [eapply Q; [reflexivity|reflexivity|discriminate|discriminate] | idtac]]).
      + destruct (a_state a) eqn:Ea; try (injection E as <- <- <-; eapply Q; [reflexivity|reflexivity|discriminate|discriminate]).
        destruct (getRelevantFileNames _ _ _ _) as [[?|?]| | |]; cbn in E; try discriminate E; injection E as <- <- <-; congruence.
      + destruct (a_state a) eqn:Ea; try (injection E as <- <- <-; eapply Q; [reflexivity|reflexivity|discriminate|discriminate]).
        destruct (fh_createFile w f p) as [? [[?|?]| | |]]; cbn in E; try discriminate E; injection E as <- <- <-; congruence.
      + destruct (a_state a) eqn:Ea; try (injection E as <- <- <-; eapply Q; [reflexivity|reflexivity|discriminate|discriminate]).
        exfalso. assert (a = fresh 1) as -> by apply I.
        destruct (select_outcome bd H w f p W Hf) as [[O S]|[(c & hsz & l1 & l2 & h & rest & O & Wr & L1 & L2 & _ & S)|[[c S]|[c S]]]]; rewrite S in E; try discriminate; injection E as <- <- <-; discriminate Es.
      + destruct (a_state a) eqn:Ea; try (injection E as <- <- <-; eapply Q; [reflexivity|reflexivity|discriminate|discriminate]); exfalso;
        unfold deleteFile in E; destruct (a_file a); try discriminate E; destruct (negb _); try discriminate E; destruct (f _); injection E as <- <- <-; cbn in Es; congruence.
      + destruct (a_state a) eqn:Ea; try (injection E as <- <- <-; first [congruence | eapply Q; [reflexivity|reflexivity|discriminate|discriminate]]). exfalso.
        unfold getFileContent in E. destruct (a_file a) as [x|]; cbn [ptr bind] in E; [|discriminate].
        destruct (try_ _ _) as [[c|b]| | |]; cbn in E; try discriminate; injection E as <- <- <-; congruence.
      + destruct (a_state a) eqn:Ea; try (injection E as <- <- <-; first [congruence | eapply Q; [reflexivity|reflexivity|discriminate|discriminate]]). exfalso.
        unfold verifyPassword in E. destruct (a_dh a) as [x|]; cbn [ptr bind] in E; [|discriminate].
        destruct (catch_std _ _) as [[c|b]| | |]; cbn in E; try discriminate; injection E as <- <- <-; cbn in Es; congruence.
      + destruct (negb _); [injection E as <- <- <-; eapply Q; [reflexivity|reflexivity|discriminate|discriminate]|].
        destruct (a_state a) eqn:Ea; try (injection E as <- <- <-; first [congruence | eapply Q; [reflexivity|reflexivity|discriminate|discriminate]]).
        * unfold headerEmpty in E. destruct (createHeaderIters _ _ _ _ _) as [[c|[d k]]| | |]; cbn in E; try discriminate E; injection E as <- <- <-; [congruence|].
          destruct I as (p & I1 & I2 & _). cbn [unread closes e_op e_reply a_fdata]. rewrite I2, Em. reflexivity.
        * unfold headerDecrypted in E. destruct (createHeaderIters _ _ _ _ _) as [[c|[d k]]| | |]; cbn in E; try discriminate E; injection E as <- <- <-.
          -- eapply Q; [reflexivity|reflexivity|discriminate|discriminate].
          -- destruct I as (p & c & h & pw' & k' & d' & fh & fd & I1 & I2 & _). cbn [unread closes e_op e_reply a_fdata]. rewrite I2. apply (IH eq_refl).
      + destruct (negb _); [injection E as <- <- <-; eapply Q; [reflexivity|reflexivity|discriminate|discriminate]|].
        destruct (a_state a) eqn:Ea; try (injection E as <- <- <-; first [congruence | eapply Q; [reflexivity|reflexivity|discriminate|discriminate]]); discriminate E.
      + destruct (a_state a) eqn:Ea; try (injection E as <- <- <-; first [congruence | eapply Q; [reflexivity|reflexivity|discriminate|discriminate]]).
        unfold changeSalt in E. destruct (a_dh a) as [x|]; cbn [ptr bind] in E; [|discriminate].
        destruct (getDataHeaderParts x) as [x1| | |]; cbn [bind] in E; try discriminate E. destruct (p_getSalt x1) as [x2| | |]; cbn [bind] in E; try discriminate E.
        destruct (newBytes _) as [x3| | |]; cbn [bind] in E; try discriminate E. destruct (fillrandom _ _) as [bz| | |]; cbn [bind] in E; try discriminate E. destruct (p_setSalt _ _) as [x4| | |]; cbn [bind] in E; try discriminate E.
        destruct (setHeaderParts _ _) as [[x5|x5]| | |]; cbn in E; try discriminate E; injection E as <- <- <-.
        * eapply Q; [reflexivity|reflexivity|discriminate|discriminate].
        * apply (IH eq_refl).
      + destruct (a_state a) eqn:Ea; try (injection E as <- <- <-; first [congruence | eapply Q; [reflexivity|reflexivity|discriminate|discriminate]]).
        unfold getDecryptedData in E. destruct (try_ _ _) as [[c|b]| | |]; cbn in E; try discriminate; injection E as <- <- <-; [congruence|reflexivity].
      + destruct (a_state a) eqn:Ea; try (injection E as <- <- <-; first [congruence | eapply Q; [reflexivity|reflexivity|discriminate|discriminate]]).
        unfold getFileData in E. rewrite (IH eq_refl) in E. destruct (unread tr) eqn:U; injection E as <- <- <-; [reflexivity|]. cbn. rewrite U. apply (IH eq_refl).
      + destruct (a_state a) eqn:Ea; try (injection E as <- <- <-; first [congruence | eapply Q; [reflexivity|reflexivity|discriminate|discriminate]]).
        unfold encryptData in E. destruct x as [x|]; cbn [ptr bind] in E; [|discriminate E]. destruct (fd_mode x) as [m|]; [|injection E as <- <- <-; eapply Q; [reflexivity|reflexivity|discriminate|discriminate]].
        destruct (negb _); [injection E as <- <- <-; eapply Q; [reflexivity|reflexivity|discriminate|discriminate]|].
        destruct (fd_data x); cbn [ptr bind] in E; [|discriminate E]. destruct (a_dh a) as [dh|]; cbn [ptr bind] in E; [|discriminate E].
        destruct (try_ _ _) as [[c|d1]| | |]; cbn [bind] in E; try discriminate E; [injection E as <- <- <-; eapply Q; [reflexivity|reflexivity|discriminate|discriminate]|].
        destruct (calcHeaderBytes _ _ _ _) as [d2 r2]. destruct (try_ _ _) as [[c|d3]| | |]; cbn [bind] in E; try discriminate E; injection E as <- <- <-; [|discriminate Es].
        cbn [a_fdata]. rewrite (IH eq_refl). destruct (failed_err c) as [s ->]. cbn. destruct x as [xm [xb|]]; reflexivity.
      + destruct (a_state a) eqn:Ea; try (injection E as <- <- <-; first [congruence | eapply Q; [reflexivity|reflexivity|discriminate|discriminate]]). exfalso.
        pose proof (state_step w a f OWrite f' a' r Hf) as S. cbn [step] in S. rewrite Ea in S. destruct (S E) as (S1 & S2 & _). cbn in S1. destruct (succeeded r); [rewrite S1 in Es by reflexivity|rewrite S2 in Es by reflexivity]; discriminate Es.
      + destruct (a_state a) eqn:Ea; try (injection E as <- <- <-; first [congruence | eapply Q; [reflexivity|reflexivity|discriminate|discriminate]]). exfalso.
        pose proof (state_step w a f (OWriteTo p) f' a' r Hf) as S. cbn [step] in S. rewrite Ea in S. destruct (S E) as (S1 & S2 & _). cbn in S1. destruct (succeeded r); [rewrite S1 in Es by reflexivity|rewrite S2 in Es by reflexivity]; discriminate Es.
  Qed.
  Lemma get_data_outcome mode tr a w f : history bd H mode tr a -> a_state a = DECRYPTED ->
    exists a', step w a f OGetData = (f, Ret (a', if unread tr then RData (mkFD (Some 1) (Some (mkBytes [] 0))) else RErr FAIL ERR_FILEDATASTRUCT_NULL)).
  Proof.
    intros Hh Es. cbn [step]. rewrite Es. unfold getFileData. rewrite (unread_data _ _ _ Hh Es). destruct (unread tr); eexists; reflexivity.
  Qed.

  (** ** deleteFile *)
  Lemma delete_outcome mode tr a w (f : fs) p c : history bd H mode tr a -> offered (a_state a) ODelete = true -> selected tr = Some (p, c) -> w_remove w p = true ->
    (f (w_loc w p) = None -> step w a f ODelete = (f, Ret (a, RErr FAIL ERR_FILE_NOT_DELETED))) /\ (f (w_loc w p) <> None -> step w a f ODelete = (upd f (w_loc w p) None, Ret (fresh 1, ROk))).
  Proof.
    intros Hh O Q Rm. pose proof (history_inv _ HH _ _ _ _ Hh) as [Em I]. cbn [step]. destruct (a_state a) eqn:Es; try discriminate O.
    - destruct I as (p' & c' & hsz & l1 & l2 & h & rest & Q' & _ & _ & _ & _ & _ & _ & _ & ->). assert (p' = p) as -> by congruence.
      unfold deleteFile. cbn [a_file fh_path]. rewrite Rm. cbn [negb]. split; intros F; [rewrite F; reflexivity|]. destruct (f (w_loc w p)); [reflexivity|contradiction].
    - destruct I as (p' & Q' & _ & _ & _ & ->). assert (p' = p) as -> by congruence.
      unfold deleteFile. cbn [a_file fh_path]. rewrite Rm. cbn [negb]. split; intros F; [rewrite F; reflexivity|]. destruct (f (w_loc w p)); [reflexivity|contradiction].
  Qed.
  Lemma create_delete w1 w2 w3 p l (f : fs) : at_hand bd H w1 p l -> at_hand bd H w2 p l -> w_loc w3 p = l -> enc_path p -> w_create w1 p = true -> w_remove w3 p = true -> f l = None ->
    exists f', calls [(w1, OCreate p); (w2, OSelect p); (w3, ODelete)] (fresh 1) f = Some ([ROk; ROk; ROk], fresh 1, f') /\ forall l', f' l' = f l'.
  Proof.
    intros A1 A2 L3 Ep C R F. exists (upd (upd f l (Some [])) l None). split.
    - change [(w1, OCreate p); (w2, OSelect p); (w3, ODelete)] with ([(w1, OCreate p); (w2, OSelect p)] ++ [(w3, ODelete)]). change [ROk; ROk; ROk] with ([ROk; ROk] ++ [ROk])%list.
      eapply calls_app; [apply (create_select H bd w1 w2 p l f A1 A2 Ep C F)|]. eapply calls_cons; [|reflexivity]. cbn [step a_state empty_obj]. unfold deleteFile, empty_obj. cbn [a_file fh_path]. rewrite R. cbn [negb]. rewrite L3, upd_same. reflexivity.
    - intros l'. destruct (N.eq_dec l' l) as [-> |Nl]; [rewrite upd_same; congruence|rewrite !upd_other by exact Nl; reflexivity].
  Qed.

  (** ** writeToFile *)
  Lemma write_blind mode tr a w p x : history bd H mode tr a -> a_state a = ENCRYPTED -> selected tr = Some (p, x) -> usable_file w p ->
    exists c a', (exists h pw data, password tr = Some pw /\ encrypted tr = Some data /\ current H tr h /\ lenN data < 2 ^ 31 /\ sealed H h pw data c) /\ a_state a' = FINISHED /\ forall f, f (w_loc w p) <> None -> exists f', step w a f OWrite = (f', Ret (a', ROk)) /\ f' (w_loc w p) = Some (takeN (w_room w) c) /\ forall l, l <> w_loc w p -> f' l = f l.
  Proof.
    intros Hh Es Q (U1 & U2 & U3). pose proof (selected_enc _ _ _ _ _ _ _ Hh Q) as Ep.
    pose proof (history_inv _ HH _ _ _ _ Hh) as [Em I]. rewrite Es in I. destruct I as (p0 & c & h & pw & k & d & fh & data & e & Q1 & Q2 & Q3 & Q4 & [K1 K2] & Rd & L & Q5 & Q6 & Ea).
    assert (p0 = p) as -> by congruence. assert (header_ok h) as Hok by apply (holds_ok d), Rd.
    assert (getLen e = lenN data) as Le by (unfold getLen; rewrite Q6; apply (cipher_len H HH); exact Hok).
    exists (ser (hdr_len h + lenN data) h ++ bdata e). eexists. split; [exists h, pw, data; spl; try assumption; split; [exact Hok|]; split; [exact K1|]; rewrite Q6; reflexivity|].
    split; [shelve|]. intros f F.
    pose proof (write_outcome w a f fh d e h (lenN data)) as X. rewrite Ea in X. cbn [a_file a_dh a_enc a_state a_mode a_fdata a_key] in X.
    specialize (X eq_refl eq_refl eq_refl Rd Le L). rewrite <- Ea in X. cbv zeta in X. rewrite Q5 in X. destruct X as [(c0 & O & Ww & X)|[NX _]].
    - cbn [step]. rewrite Es. rewrite X. eexists. split; [reflexivity|]. unfold write_stream. split; [apply upd_same|]. intros l Nl. rewrite !upd_other by exact Nl. reflexivity.
    - exfalso. destruct (f (w_loc w p)) as [c0|] eqn:Ef; [|contradiction]. specialize (NX c0). unfold openable in NX. rewrite U3 in NX. discriminate NX. auto.
    Unshelve. reflexivity.
  Qed.
  (** success is reported whatever part of the bytes reached the disk *)
  Lemma write_short mode tr a w p x f w2 : history bd H mode tr a -> a_state a = ENCRYPTED -> selected tr = Some (p, x) -> usable_file w p -> f (w_loc w p) <> None ->
    at_hand bd H w2 p (w_loc w p) ->
    exists c a' f', step w a f OWrite = (f', Ret (a', ROk)) /\ f' (w_loc w p) = Some (takeN (w_room w) c) /\ (exists h pw data, password tr = Some pw /\ encrypted tr = Some data /\ sealed H h pw data c) /\ (0 < w_room w < lenN c -> step w2 (fresh 1) f' (OSelect p) = (f', Ret (fresh 1, RErr FAIL ERR_FILEHANDLER_CREATION))).
  Proof.
    intros Hh Es Q U F A2. destruct (write_blind _ _ _ _ _ _ Hh Es Q U) as (c & a' & (h & pw & data & P1 & P2 & P3 & P4 & P5) & _ & X). destruct (X f F) as (f' & E1 & E2 & _).
    exists c, a', f'. split; [exact E1|]. split; [exact E2|]. split; [exists h, pw, data; auto|]. intros K.
    pose proof (selected_enc _ _ _ _ _ _ _ Hh Q) as Ep.
    apply (proj1 (torn_select H HH bd w2 p (w_loc w p) f' h pw data c (w_room w) A2 Ep P5 P4 E2) K).
  Qed.
End S.
