(** Lemmas for C97: the log of every call that succeeds. *)
From Coq Require Import Strings.String.
From Coq Require Import Lia.
From Verif Require Import Base BaseFacts BytesModel MiscModel CipherModel CipherSpec CipherFacts CipherFacts2 PwModel PwSpec ChModel ChSpec HeaderModel HeaderSpec HeaderFacts HeaderFacts2 HeaderFacts3 HeaderFacts4 HeaderFacts5 HeaderFacts6 HeaderFacts7 HeaderFacts8 HeaderFacts9 FileModel FileFacts ApiModel ApiSpec ApiFacts ApiFacts2 ApiFacts3 ApiFacts4 ApiFacts5 ApiFacts7 LogModel LogSpec LogFacts1 LogFacts6 LogFacts7 LogFacts8.
Open Scope N_scope.
Open Scope list_scope.
Import ListNotations.

Definition no_header : header := mkHeader 0 0 [] (0, 0, []) (0, 0, []) [] [] [].
Lemma plain_case (P Q : header -> Prop) : Q no_header -> exists h, (false = true -> P h) /\ Q h.
Proof. intro A. exists no_header. split; [discriminate | exact A]. Qed.
Lemma written_nothing c hsz l1 l2 h rest : written_as c hsz l1 l2 h rest -> nothing c = false.
Proof. intro W. destruct (written_size _ _ _ _ _ _ W) as [r E]. destruct c; [ | reflexivity]. discriminate E. Qed.
Ltac no_success := match goal with S : succeeded ?r = true, E : _ = (_, Ret (_, ?r)) |- _ => exfalso; injection E; intros; subst r; discriminate S end.
Section Main.
  Variable H : hashes.
  Hypothesis HH : hashes_ok H.
  Variable bd : build.
  Lemma success_logged mode tr a w f o f' a' r : history bd H mode tr a -> world_ok bd H w -> fs_ok f -> op_ok o -> step w a f o = (f', Ret (a', r)) -> succeeded r = true ->
    let e := mkEntry w f o r f' in exists h, (of_header e = true -> current H (e :: tr) h) /\ logged tr e (a_state a) h (lines_of w a f o).
  Proof.
    intros Hh W Hf Ho E S e. pose proof (history_inv _ HH _ _ _ _ Hh) as [Em I]. pose proof (hist_call _ _ _ _ _ _ _ _ _ _ _ Hh W Hf Ho E) as Hh2.
    pose proof (history_inv _ HH _ _ _ _ Hh2) as [Em2 I2]. pose proof W as (Wb & WH & WR & We). unfold logged, of_header. subst e. cbn [e_op e_world e_before e_reply].
    destruct o; cbn [step lines_of] in *.
    - (* list *) apply plain_case. exact Logic.I.
    - (* create *) destruct (a_state a); try no_success. apply plain_case. unfold fh_createFile in E. unfold createFile_lines.
      destruct (isValidPath w f p false) as [[c|[]]|x|x|] eqn:V; try (injection E; intros; subst; discriminate).
      unfold isValidPath_l. rewrite V. cbn [bind fst snd]. destruct (w_create w p); [reflexivity | ]. injection E; intros; subst; discriminate.
    - (* select *) destruct (a_state a) eqn:Es; try no_success. injection E as _ E. rewrite <- select_erase in E.
      destruct (selectFile_l w a f p) as [ls x] eqn:L. cbn [fst snd] in *. subst x.
      assert (r = ROk) as ->.
      { unfold selectFile_l in L. apply noexcept_l_inv in L. apply bindl_inv in L as (? & [] & ? & _ & L & _). apply bindl_inv in L as (? & [z|hd] & ? & _ & L & _);
          [apply silent_inv in L as [L _]; injection L as _ <-; discriminate | ]. destruct (fh_empty hd); [injection L; congruence | ].
        apply bindl_inv in L as (? & [z|dd] & ? & _ & L & _); [apply silent_inv in L as [L _]; injection L as _ <-; discriminate | injection L; congruence]. }
      destruct (select_log _ _ _ _ _ _ L) as [[Z ->]|(Z & d & Sa & Sd & Q)]; rewrite Z; cbn [negb]; [apply plain_case; reflexivity | ].
      rewrite Sa in I2. destruct I2 as (p' & c & hsz & l1 & l2 & h & rest & _ & _ & _ & _ & C & Wr & L1 & L2 & ->). cbn [a_dh] in Sd. injection Sd as <-.
      exists h. split; [intros _; exact C | ]. rewrite (Q h); [reflexivity | ]. apply decoded_contents. apply Wr.
    - (* isEmpty *) apply plain_case. reflexivity.
    - (* unselect *) apply plain_case. destruct (a_state a) eqn:Es; try no_success.
      + destruct I as (p & c & hsz & l1 & l2 & h & rest & -> & _ & _ & _ & _ & Wr & _ & _ & ->). rewrite (written_nothing _ _ _ _ _ _ Wr). reflexivity.
      + destruct I as (p & -> & _ & _ & _ & ->). reflexivity.
    - (* delete *) apply plain_case. destruct (a_state a) eqn:Es; try no_success.
      + destruct I as (p & c & hsz & l1 & l2 & h & rest & -> & _ & _ & _ & _ & Wr & _ & _ & ->). rewrite (written_nothing _ _ _ _ _ _ Wr). unfold deleteFile in E. unfold delete_lines.
        cbn [a_file ptr fh_path] in *. destruct (w_remove w p); cbn [negb] in *; [ | try (injection E; intros; subst; discriminate); discriminate].
        destruct (f (w_loc w p)); [reflexivity | ]. injection E; intros; subst; discriminate.
      + destruct I as (p & -> & _ & _ & _ & ->). unfold deleteFile in E. unfold delete_lines.
        cbn [a_file ptr fh_path] in *. destruct (w_remove w p); cbn [negb] in *; [ | try (injection E; intros; subst; discriminate); discriminate].
        destruct (f (w_loc w p)); [reflexivity | ]. injection E; intros; subst; discriminate.
    - (* content *) apply plain_case. destruct (a_state a) eqn:Es; try no_success.
      + destruct I as (p & c & hsz & l1 & l2 & h & rest & -> & _ & _ & _ & _ & Wr & _ & _ & ->). rewrite (written_nothing _ _ _ _ _ _ Wr). injection E as _ E. rewrite <- content_erase in E.
        destruct (getFileContent_l _ _ f) as [ls x] eqn:L. cbn [fst snd] in *. subst x. unfold getFileContent_l in L. apply noexcept_l_inv in L.
        apply bindl_inv in L as (? & fh & ? & E1 & L & ->). apply silent_inv in E1 as [E1 ->]. injection E1 as <-.
        apply bindl_inv in L as (? & [x|b] & ? & E1 & L & ->); apply silent_inv in L as [L ->]; [injection L as _ <-; discriminate | ].
        apply try_inv in E1. unfold getAllBytes_l in E1. pose proof (f_equal snd E1) as E2. apply (f_equal fst) in E1. cbn [fst snd] in E1, E2. rewrite E2 in E1. rewrite <- E1. reflexivity.
      + destruct I as (p & -> & _ & _ & _ & ->). reflexivity.
    - (* verify *) destruct (a_state a) eqn:Es; try no_success. destruct I as (p & c & hsz & l1 & l2 & h & rest & Sl & _ & _ & _ & C & Wr & L1 & L2 & ->). injection E as _ E. rewrite <- verify_erase in E.
      destruct (verifyPassword_l _ _ _ _) as [ls x] eqn:L. cbn [fst snd] in *. subst x.
      assert (r = ROk) as ->.
      { unfold verifyPassword_l in L. apply noexcept_l_inv in L. apply bindl_inv in L as (? & [] & ? & _ & L & _). apply bindl_inv in L as (? & d & ? & _ & L & _).
        apply bindl_inv in L as (? & [z|k] & ? & _ & L & _); [apply silent_inv in L as [L _]; injection L as _ <-; discriminate | injection L; congruence]. }
      exists h. split; [intros _; exact C | ]. rewrite (verify_log _ _ _ _ _ _ _ h L eq_refl); [reflexivity | apply decoded_contents, Wr | exact Ho | exact We].
    - (* header *) destruct (set_isComplete ds) eqn:Sc; cbn [negb] in *; [ | no_success]. destruct Ho as [_ Ho].
      destruct (a_state a) eqn:Es; try no_success; injection E as _ E.
      + pose proof (headerEmpty_erase a _ _ (createIters_erase w (a_mode a) pw ds timeout)) as X.
        destruct (headerEmpty_l a _) as [ls x] eqn:L. cbn [fst snd] in *. rewrite <- X in E. destruct x as [[a2 r2]|x|x|]; try discriminate. cbn [noexcept] in E. injection E as -> ->.
        unfold headerEmpty_l in L. apply bindl_inv in L as (? & [z|[d k]] & ? & E1 & L & ->); [apply silent_inv in L as [L _]; injection L as _ <-; discriminate | ].
        injection L as <- <- <-. cbn [a_state] in I2. destruct I2 as (p & c & h & w0 & k0 & d0 & fh & fd & _ & _ & _ & C & _ & [_ Hd] & _ & _ & Ea). assert (d0 = d) as -> by (injection Ea; congruence).
        exists h. split; [intros _; exact C | ]. cbn [current closes e_op e_reply e_world] in C. pose proof C as (_ & _ & (m1 & n1 & S1 & S2 & S3) & (m2 & n2 & S4 & S5 & S6) & _).
        apply onerr_inv in E1. rewrite (iters_log _ _ _ _ _ _ _ _ _ _ E1 Hd C Ho We), S2, S5, S3, S6. cbn [iterations fst snd opt_num app]. rewrite <- ?app_assoc. reflexivity.
      + pose proof (headerDecrypted_erase a _ _ (createIters_erase w (a_mode a) pw ds timeout)) as X.
        destruct (headerDecrypted_l a _) as [ls x] eqn:L. cbn [fst snd] in *. rewrite <- X in E. destruct x as [[a2 r2]|x|x|]; try discriminate. cbn [noexcept] in E. injection E as -> ->.
        unfold headerDecrypted_l in L. apply bindl_inv in L as (? & [z|[d k]] & ? & E1 & L & ->); [apply silent_inv in L as [L _]; injection L as _ <-; discriminate | ].
        injection L as <- <- <-. cbn [a_state] in I2. rewrite Es in I2. destruct I2 as (p & c & h & w0 & k0 & d0 & fh & fd & _ & _ & _ & C & _ & [_ Hd] & _ & _ & Ea). assert (d0 = d) as -> by (injection Ea; congruence).
        exists h. split; [intros _; exact C | ]. cbn [current closes e_op e_reply e_world] in C. pose proof C as (_ & _ & (m1 & n1 & S1 & S2 & S3) & (m2 & n2 & S4 & S5 & S6) & _).
        apply onerr_inv in E1. rewrite (iters_log _ _ _ _ _ _ _ _ _ _ E1 Hd C Ho We), S2, S5, S3, S6. cbn [iterations fst snd opt_num app]. rewrite <- ?app_assoc. reflexivity.
    - (* header with times *) destruct (set_isComplete ds) eqn:Sc; cbn [negb] in *; [ | no_success]. destruct (a_state a); try no_success; discriminate E.
    - (* salt *) destruct (a_state a) eqn:Es; try no_success. injection E as _ E. rewrite <- salt_erase in E.
      destruct (changeSalt_l w a) as [ls x] eqn:L. cbn [fst snd] in *. subst x.
      destruct I as (p & c & h & w0 & k0 & d & fh & fd & _ & _ & _ & C & _ & Hd & _ & _ & ->).
      assert (exists d', a_state a' = DECRYPTED /\ a_dh a' = Some d' /\ r = ROk) as (d' & Sa & Ed & ->).
      { pose proof L as L0. unfold changeSalt_l in L0. apply noexcept_l_inv in L0. do 7 apply bindl_inv in L0 as (? & ? & ? & _ & L0 & _).
        apply bindl_inv in L0 as (? & [z|d'] & ? & _ & L0 & _); apply silent_inv in L0 as [L0 _]; [injection L0 as _ <-; discriminate | ]. injection L0 as <- <-. exists d'. auto. }
      rewrite Sa in I2. destruct I2 as (p2 & c2 & h2 & w2 & k2 & d2 & fh2 & fd2 & _ & _ & _ & C2 & _ & [_ Hd2] & _ & _ & Ea). assert (d2 = d') as -> by (rewrite Ea in Ed; injection Ed; congruence).
      exists h2. split; [intros _; exact C2 | ]. rewrite (salt_log _ _ _ _ _ _ L eq_refl Ed h2 Hd2). reflexivity.
    - (* decrypt *) destruct (a_state a) eqn:Es; try no_success. injection E as _ E. rewrite <- getDecrypted_erase in E.
      destruct I as (p & c & hsz & l1 & l2 & h & rest & w0 & k & Sl & _ & _ & _ & C & Wr & L1 & L2 & _ & ->).
      destruct (getDecryptedData_l _ _ _) as [ls x] eqn:L. cbn [fst snd] in *. subst x.
      assert (holds (decoded (lenN c) h) h) as Hd by (split; [apply decoded_hinv; [apply Wr | apply lt63_two64, L2] | apply decoded_contents, Wr]).
      destruct (getDecrypted_log H HH _ _ _ _ _ _ _ h L S WH eq_refl Hd) as (m & b & fs & -> & Z & ->).
      { cbn [a_file]. intros x Q. injection Q as <-. unfold fh_dataSize, sub64. apply N.mod_upper_bound. discriminate. }
      exists h. split; [intros _; exact C | ]. exists fs. split; [exact Z | reflexivity].
    - (* getFileData *) apply plain_case. destruct (a_state a) eqn:Es; try no_success. unfold getFileData in E. unfold fileData_lines. destruct (a_fdata a); [reflexivity | ]. no_success.
    - (* encrypt *) destruct (a_state a) eqn:Es; try no_success. injection E as _ E. rewrite <- encrypt_erase in E.
      destruct I as (p & c & h & w0 & k0 & d & fh & fd & _ & _ & _ & C & _ & Hd & _ & _ & ->).
      destruct (encryptData_l _ _ _) as [ls y] eqn:L. cbn [fst snd] in *. subst y.
      destruct (encrypt_log H HH _ _ _ _ _ _ _ h L S WH eq_refl Hd Ho) as (m & b & fs & -> & Z & ->).
      exists h. split; [intros _; exact C | ]. exists fs. split; [exact Z | reflexivity].
    - (* write *) destruct (a_state a) eqn:Es; try no_success. apply plain_case.
      destruct I as (p & c & h & w0 & k0 & d & fh & data & en & -> & _ & _ & _ & _ & _ & _ & Fp & _ & ->).
      unfold writeToFile in E. unfold writeToFile_lines. cbn [a_file] in *. pose proof (write_stream_erase w f fh) as X. destruct (fh_getWriteStream w f fh) as [[h' f1] y]. cbn [snd] in X.
      destruct (write_stream_l w f fh) as [ls z] eqn:L. unfold erase in X. cbn [fst snd] in *. destruct z as [[z|[]]|z|z|]; cbn [bind] in X; subst y; try (injection E; intros; subst; discriminate); try discriminate.
      apply write_stream_log in L as ->. rewrite Fp. unfold finishWrite in E. unfold finish_lines. cbn [a_dh a_enc fullData] in *. unfold fullData in E. cbn [a_dh a_enc] in E.
      match type of E with context [noexcept ?m] => destruct m as [t|x|x|] eqn:Fd; cbn [noexcept] in E; try discriminate end. unfold fullData. cbn [a_dh a_enc]. rewrite Fd. reflexivity.
    - (* write to *) destruct (a_state a) eqn:Es; try no_success. apply plain_case. unfold writeToPath in E. unfold writeToPath_lines.
      pose proof (getFileHandler_erase w f p) as X. destruct (getFileHandler_l w f p) as [ls z] eqn:L. unfold erase in X. cbn [fst snd] in *.
      destruct z as [[z|h]|z|z|]; cbn [bind] in X; rewrite <- X in E; try (injection E; intros; subst; discriminate); try discriminate.
      apply handler_log in L. destruct L as (Fp & Fe & -> & _). unfold fh_getWriteStreamIfEmpty in E. unfold write_stream_empty_l. rewrite Fe in *.
      destruct (nothing _); [ | injection E; intros; subst; discriminate].
      pose proof (write_stream_erase w f h) as Y. destruct (fh_getWriteStream w f h) as [[h' f1] y]. cbn [snd] in Y. destruct (write_stream_l w f h) as [ls z] eqn:L. unfold erase in Y. cbn [fst snd] in *.
      destruct z as [[z|[]]|z|z|]; cbn [bind] in Y; subst y; try (injection E; intros; subst; discriminate); try discriminate.
      apply write_stream_log in L as ->. rewrite Fp. unfold finishWrite in E. unfold finish_lines. destruct (fullData a) as [t|x|x|]; cbn [noexcept] in E; try discriminate. reflexivity.
    - (* logout *) apply plain_case. reflexivity.
    - apply plain_case. reflexivity.
  Qed.
End Main.
