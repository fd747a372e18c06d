(** Lemmas for C92. *)
From Verif Require Import Base BaseFacts BytesModel MiscModel CipherModel CipherSpec PwModel ChModel ChSpec HeaderModel HeaderSpec FileModel ApiModel ApiSpec ApiFacts6 ApiFacts7 RefSpec RefSpec2 RefFacts2 TraceSpec.

(** ** objects that differ in what is never used again *)
Definition same_head (d e : dheader) : Prop := d_parts d = d_parts e /\ d_hsize d = d_hsize e /\ d_blen d = d_blen e.
Definition same_place (h k : handler) : Prop := fh_path h = fh_path k /\ fh_empty h = fh_empty k.
Definition twin (a b : api) : Prop :=
  a_state a = a_state b /\ a_mode a = a_mode b /\ a_fdata a = a_fdata b /\ a_key a = a_key b /\ a_enc a = a_enc b /\
  (a_dh a = a_dh b \/ a_state a = DECRYPTED /\ exists d e, a_dh a = Some d /\ a_dh b = Some e /\ same_head d e) /\
  (a_file a = a_file b \/ (a_state a = ENCRYPTED \/ a_state a = FINISHED) /\ exists h k, a_file a = Some h /\ a_file b = Some k /\ same_place h k).
Definition twins (x y : fs * outcome (api * reply)) : Prop :=
  fst x = fst y /\
  match snd x, snd y with
  | Ret (a, r), Ret (b, s) => r = s /\ twin a b
  | Throw e, Throw e' => e = e'
  | Crash c, Crash c' => c = c'
  | OutOfFuel, OutOfFuel => True
  | _, _ => False
  end.
Lemma twin_refl a : twin a a.
Proof. unfold twin. auto 10. Qed.
Lemma twins_refl x : twins x x.
Proof. split; [reflexivity|]. destruct (snd x) as [[a r]| | |]; auto using twin_refl. Qed.
Lemma twins_ret f a b r : twin a b -> twins (f, Ret (a, r)) (f, Ret (b, r)).
Proof. intros T. split; [reflexivity|]. split; [reflexivity|exact T]. Qed.

Lemma head_length d e : same_head d e -> d_isComplete d = true -> getHeaderLength d = getHeaderLength e.
Proof.
  intros (E1 & E2 & E3) C. unfold d_isComplete, p_isComplete in C. unfold getHeaderLength. rewrite <- E1, <- E2, <- E3.
  destruct (ch_val (p_ch1 (d_parts d)) && ch_val (p_ch2 (d_parts d))) eqn:X; [reflexivity|]. cbn [andb] in C. discriminate.
Qed.
Lemma head_complete d e : same_head d e -> d_isComplete d = d_isComplete e.
Proof. intros (E1 & E2 & E3). unfold d_isComplete. rewrite E1, E2. reflexivity. Qed.
Lemma head_parts d e : same_head d e -> getDataHeaderParts d = getDataHeaderParts e.
Proof. intros X. unfold getDataHeaderParts. rewrite (head_complete _ _ X). destruct X as (-> & _). reflexivity. Qed.
Lemma head_sized n d e : same_head d e ->
  match setDataSize n d, setDataSize n e with
  | Ret d', Ret e' => same_head d' e' /\ d_fsize d' = d_fsize e' /\ d_isComplete d' = true
  | Throw x, Throw y => x = y
  | Crash x, Crash y => x = y
  | OutOfFuel, OutOfFuel => True
  | _, _ => False
  end.
Proof.
  intros X. unfold setDataSize. rewrite <- (head_complete _ _ X). destruct (d_isComplete d) eqn:C; cbn [negb]; [|reflexivity].
  set (d' := mkDH (d_parts d) (d_hsize d) (clearBytes (d_bytes d)) (d_fsize d) (d_blen d)).
  set (e' := mkDH (d_parts e) (d_hsize e) (clearBytes (d_bytes e)) (d_fsize e) (d_blen e)).
  assert (same_head d' e') as X' by exact X.
  rewrite <- (head_length d' e' X' C). destruct (getHeaderLength d') as [l| | |]; cbn [bind]; auto.
Qed.
Lemma head_calc H clk b d e : same_head d e -> d_fsize d = d_fsize e -> d_isComplete d = true ->
  match calcHeaderBytes H clk b d, calcHeaderBytes H clk b e with
  | (d', Ret _), (e', Ret _) => d' = e'
  | (d', r), (e', s) => same_head d' e' /\ r = s
  end.
Proof.
  intros X F C. unfold calcHeaderBytes. rewrite <- (head_complete _ _ X), C, <- F, <- (head_length _ _ X C).
  destruct X as (E1 & E2 & E3).
  set (d' := mkDH (d_parts d) (d_hsize d) (clearBytes (d_bytes d)) (d_fsize d) (d_blen d)).
  set (e' := mkDH (d_parts e) (d_hsize e) (clearBytes (d_bytes e)) (d_fsize d) (d_blen e)).
  assert (same_head d' e') as X' by (split; [exact E1|split; assumption]).
  rewrite <- (head_length d' e' X' C). rewrite <- E1, <- E2, <- E3. cbn [negb].
  match goal with |- context [match ?m with Ret _ => _ | Throw _ => _ | Crash _ => _ | OutOfFuel => _ end] => destruct m as [size| | |] end.
  2-4: split; [split; [exact E1|split; assumption]|reflexivity].
  destruct (getHeaderLength d') as [len| | |]; [|split; [exact X'|reflexivity]..].
  destruct (calcBody size len (d_parts d)) as [t|[]| |]; try (split; [exact X'|reflexivity]).
  destruct (negb (getLen t =? len)); [split; [exact X'|reflexivity]|]. reflexivity.
Qed.

Lemma head_kept H clk b d : same_head d (fst (calcHeaderBytes H clk b d)).
Proof.
  unfold calcHeaderBytes.
  match goal with |- context [match ?m with Ret _ => _ | Throw _ => _ | Crash _ => _ | OutOfFuel => _ end] => destruct m as [size| | |] end; try solve [repeat split].
  match goal with |- context [getHeaderLength ?d'] => destruct (getHeaderLength d') as [len| | |] end; try solve [repeat split].
  destruct (calcBody size len (d_parts d)) as [t|[]| |]; try solve [repeat split]. destruct (negb (getLen t =? len)); repeat split.
Qed.

(** ** one call on both *)
Lemma body_twins w k data d e : same_head d e -> encryptBody w k data d = encryptBody w k data e.
Proof. intros X. unfold encryptBody. rewrite (head_parts _ _ X). reflexivity. Qed.
Lemma twins_noexcept f (x y : outcome (api * reply)) : twins (f, x) (f, y) -> twins (f, noexcept x) (f, noexcept y).
Proof. intros (_ & T). cbn [snd] in T. split; [reflexivity|]. cbn [snd]. destruct x as [[a r]| | |], y as [[b s]| | |]; cbn; try contradiction; auto. Qed.
Lemma encrypt_twins w a b f x : a_state a = DECRYPTED -> twin a b -> twins (f, encryptData w a x) (f, encryptData w b x).
Proof.
  intros S T. pose proof T as (ES & EM & EF & EK & EE & ED & EH).
  destruct EH as [EH|(X & _)]; [|rewrite S in X; destruct X; discriminate].
  assert ((exists d e, a_dh a = Some d /\ a_dh b = Some e /\ same_head d e) \/ a_dh a = None /\ a_dh b = None) as D.
  { destruct ED as [ED|(_ & D)]; [|left; exact D]. destruct (a_dh a) as [d|] eqn:Y; [left; exists d, d; repeat split; congruence|right; split; congruence]. }
  unfold encryptData. apply twins_noexcept. destruct x as [[m data]|]; cbn [ptr bind fd_mode fd_data]; [|apply twins_refl].
  destruct m as [m|]; [|apply twins_ret; exact T]. rewrite <- EM. destruct (negb (m =? a_mode a)); [apply twins_ret; exact T|].
  destruct data as [data|]; cbn [ptr bind]; [|apply twins_refl].
  destruct D as [(d & e & -> & -> & X)|(-> & ->)]; cbn [ptr bind]; [|apply twins_refl].
  pose proof (head_sized (getLen data) d e X) as Z.
  destruct (setDataSize (getLen data) d) as [d1|x| |], (setDataSize (getLen data) e) as [e1|y| |]; try contradiction.
  2: { subst y. cbn [try_]. destruct (any_std ERR x); cbn [bind dfail]; [apply twins_ret; exact T|apply twins_refl]. }
  2: { subst. cbn. apply twins_refl. }
  2: { cbn. apply twins_refl. }
  cbn [try_ bind dret]. destruct Z as (X1 & F1 & C1). pose proof (head_calc (w_hashes w) (w_clk1 w) (mkBytes [] 0) d1 e1 X1 F1 C1) as Y.
  destruct (calcHeaderBytes (w_hashes w) (w_clk1 w) (mkBytes [] 0) d1) as [d2 r], (calcHeaderBytes (w_hashes w) (w_clk1 w) (mkBytes [] 0) e1) as [e2 s].
  cbv beta iota. rewrite <- EK.
  assert (same_head d2 e2 /\ r = s /\ (r = Ret tt -> d2 = e2)) as (X2 & <- & Q).
  { destruct r as [[]| | |], s as [[]| | |]; try (destruct Y as (Y1 & Y2); repeat split; try exact Y2; try apply Y1; intros; discriminate); subst e2; split; [split; [|split]; reflexivity|auto]. }
  rewrite <- (body_twins w (a_key a) data d2 e2 X2).
  assert (twin (mkApi (a_state a) (a_mode a) (a_fdata a) (a_key a) (a_enc a) (Some d2) (a_file a)) (mkApi (a_state b) (a_mode a) (a_fdata b) (a_key a) (a_enc b) (Some e2) (a_file b))) as T2.
  { unfold twin. cbn. rewrite S, <- ES, EF, EE, EH, S. repeat split; auto. right. split; [reflexivity|]. exists d2, e2. auto. }
  destruct r as [[]|x| |]; cbn [bind].
  - rewrite <- (Q eq_refl). destruct (encryptBody w (a_key a) data d2) as [res|x| |]; cbn [try_ bind dret]; try apply twins_refl.
    + apply twins_ret. unfold twin. cbn. rewrite EH. auto 10.
    + destruct (any_std ERR x) as [c|]; cbn [bind dfail]; [|apply twins_refl]. apply twins_ret. rewrite (Q eq_refl). rewrite (Q eq_refl) in T2. exact T2.
  - cbn [try_]. destruct (any_std ERR x) as [c|]; cbn [bind dfail]; [|apply twins_refl]. apply twins_ret. exact T2.
  - cbn. apply twins_refl.
  - cbn. apply twins_refl.
Qed.
Lemma salt_twins w a b f : a_state a = DECRYPTED -> twin a b -> twins (f, changeSalt w a) (f, changeSalt w b).
Proof.
  intros S T. pose proof T as (ES & EM & EF & EK & EE & ED & EH).
  destruct EH as [EH|(X & _)]; [|rewrite S in X; destruct X; discriminate].
  unfold changeSalt. apply twins_noexcept.
  assert ((exists d e, a_dh a = Some d /\ a_dh b = Some e /\ same_head d e) \/ a_dh a = None /\ a_dh b = None) as D.
  { destruct ED as [ED|(_ & D)]; [|left; exact D]. destruct (a_dh a) as [d|] eqn:Y; [left; exists d, d; repeat split; congruence|right; split; congruence]. }
  destruct D as [(d & e & -> & -> & X)|(-> & ->)]; cbn [ptr bind]; [|apply twins_refl]. rewrite <- (head_parts _ _ X).
  destruct (getDataHeaderParts d) as [p| | |]; cbn [bind]; try apply twins_refl.
  destruct (p_getSalt p) as [s| | |]; cbn [bind]; try apply twins_refl.
  destruct (newBytes (Z.of_N (getLen s))) as [x| | |]; cbn [bind]; try apply twins_refl.
  destruct (fillrandom (w_rnd w 0) x) as [y| | |]; cbn [bind]; try apply twins_refl.
  destruct (p_setSalt y p) as [q| | |]; cbn [bind]; try apply twins_refl.
  destruct (setHeaderParts (w_rnd w 1) q) as [[c|d']| | |]; cbn [bind]; try apply twins_refl.
  - apply twins_ret. exact T.
  - apply twins_ret. rewrite ES, EM, EF, EK, EE, EH. apply twin_refl.
Qed.
Lemma header_twins a b f r : a_state a = DECRYPTED -> twin a b -> twins (f, noexcept (headerDecrypted a r)) (f, noexcept (headerDecrypted b r)).
Proof.
  intros S T. pose proof T as (ES & EM & EF & EK & EE & ED & EH).
  destruct EH as [EH|(X & _)]; [|rewrite S in X; destruct X; discriminate].
  apply twins_noexcept. unfold headerDecrypted. destruct r as [[c|(d & k)]| | |]; cbn [bind]; try apply twins_refl.
  - apply twins_ret. exact T.
  - apply twins_ret. rewrite ES, EM, EF, EE, EH. apply twin_refl.
Qed.
Lemma finish_twins w a b f p : a_state a = ENCRYPTED -> twin a b -> twins (finishWrite w a f p) (finishWrite w b f p).
Proof.
  intros S T. pose proof T as (ES & EM & EF & EK & EE & ED & EH).
  destruct ED as [ED|(X & _)]; [|rewrite S in X; discriminate].
  unfold finishWrite. replace (fullData b) with (fullData a) by (unfold fullData; rewrite ED, EE; reflexivity).
  destruct (noexcept (fullData a)); try apply twins_refl. apply twins_ret. rewrite EM, EF, EK, ED. unfold twin. cbn.
  repeat split; auto. destruct EH as [->|(_ & h & k & -> & -> & X)]; [auto|]. right. split; [auto|]. exists h, k. auto.
Qed.
Lemma write_twins w a b f : a_state a = ENCRYPTED -> twin a b -> twins (writeToFile w a f) (writeToFile w b f).
Proof.
  intros S T. pose proof T as (ES & EM & EF & EK & EE & ED & EH).
  unfold writeToFile.
  assert ((exists h k, a_file a = Some h /\ a_file b = Some k /\ same_place h k) \/ a_file a = None /\ a_file b = None) as D.
  { destruct EH as [EH|(_ & D)]; [|left; exact D]. destruct (a_file a) as [d|] eqn:Y; [left; exists d, d; repeat split; congruence|right; split; congruence]. }
  destruct D as [(h & k & -> & -> & E1 & E2)|(-> & ->)]; [|apply twins_refl].
  unfold fh_getWriteStream. rewrite <- E1, <- E2.
  assert (twin (mkApi (a_state a) (a_mode a) (a_fdata a) (a_key a) (a_enc a) (a_dh a) (Some (mkFH (fh_path h) 0 0 (fh_empty h))))
               (mkApi (a_state b) (a_mode b) (a_fdata b) (a_key b) (a_enc b) (a_dh b) (Some (mkFH (fh_path h) 0 0 (fh_empty h))))) as T'.
  { unfold twin. cbn. destruct ED as [ED|(X & _)]; [auto 10|rewrite S in X; discriminate]. }
  destruct (isValidPath w f (fh_path h) true) as [[c|[]]| | |]; try apply twins_refl.
  - apply twins_ret. exact T'.
  - destruct (w_write w (fh_path h)).
    + cbn [dret]. apply finish_twins; [exact S|exact T'].
    + cbn [dfail]. apply twins_ret. exact T'.
Qed.
Lemma write_to_twins w a b f p : a_state a = ENCRYPTED -> twin a b -> twins (writeToPath w a f p) (writeToPath w b f p).
Proof.
  intros S T. unfold writeToPath. destruct (getFileHandler w f p) as [[c|h]| | |]; try apply twins_refl; [apply twins_ret; exact T|].
  destruct (fh_getWriteStreamIfEmpty w f h) as [[h' f'] [[c|[]]| | |]]; try apply twins_refl; [apply twins_ret; exact T|apply finish_twins; assumption].
Qed.
Lemma twin_same a b : twin a b -> a_state a <> DECRYPTED -> a_state a <> ENCRYPTED -> a_state a <> FINISHED -> a = b.
Proof.
  intros (ES & EM & EF & EK & EE & ED & EH) D E F. destruct a, b; cbn in *. subst.
  destruct ED as [->|(X & _)]; [|contradiction]. destruct EH as [->|([X|X] & _)]; [reflexivity|contradiction..].
Qed.
Lemma step_twins w a b f o : twin a b -> twins (step w a f o) (step w b f o).
Proof.
  intros T. pose proof T as (ES & EM & EF & EK & EE & ED & EH).
  destruct (a_state a) eqn:S.
  1-4: rewrite (twin_same a b T); [apply twins_refl|rewrite S; discriminate..].
  - destruct o; cbn [step]; rewrite <- ?ES, ?S, <- ?EM; try (apply twins_ret; exact T); try apply twins_refl.
    + destruct (negb (set_isComplete ds)); [apply twins_ret; exact T|]. apply header_twins; assumption.
    + destruct (negb (set_isComplete ds)); [apply twins_ret; exact T|]. apply header_twins; assumption.
    + apply salt_twins; assumption.
    + unfold getFileData. rewrite <- EF. destruct (a_fdata a); [|apply twins_ret; exact T]. apply twins_ret. unfold twin. cbn. rewrite ?S, <- ?ES. auto 10.
    + apply encrypt_twins; assumption.
  - destruct o; cbn [step]; rewrite <- ?ES, ?S, <- ?EM; try (apply twins_ret; exact T); try apply twins_refl.
    + destruct (negb (set_isComplete ds)); apply twins_ret; exact T.
    + destruct (negb (set_isComplete ds)); apply twins_ret; exact T.
    + apply write_twins; assumption.
    + apply write_to_twins; assumption.
  - destruct o; cbn [step]; rewrite <- ?ES, ?S, <- ?EM; try (apply twins_ret; exact T); try apply twins_refl.
    + destruct (negb (set_isComplete ds)); apply twins_ret; exact T.
    + destruct (negb (set_isComplete ds)); apply twins_ret; exact T.
Qed.
Lemma watch_twins l : forall a b, twin a b -> watch l a = watch l b.
Proof.
  induction l as [|c l IH]; intros a b T; [reflexivity|]. cbn [watch]. pose proof (step_twins (c_world c) a b (c_files c) (c_op c) T) as (E & X).
  destruct (step (c_world c) a (c_files c) (c_op c)) as [f1 [[a1 r1]|e1|e1|]], (step (c_world c) b (c_files c) (c_op c)) as [f2 [[b1 r2]|e2|e2|]];
    cbn [fst snd] in E, X; try contradiction; subst; try reflexivity. destruct X as (-> & T'). rewrite (IH _ _ T'). reflexivity.
Qed.

(** ** idle calls *)
Lemma closed_twin a b : a_state a <> DECRYPTED -> a_state a = a_state b -> a_mode a = a_mode b -> a_fdata a = a_fdata b -> a_key a = a_key b -> a_enc a = a_enc b -> a_dh a = a_dh b -> a_file a = a_file b -> twin a b.
Proof. unfold twin. auto 10. Qed.
Lemma noexcept_returns {A} (m : outcome A) x : noexcept m = Ret x -> m = Ret x.
Proof. destruct m; cbn; congruence. Qed.
Lemma idle_twin w a f o f' a' r : step w a f o = (f', Ret (a', r)) -> closes (mkEntry w f o r f') = false -> idle (mkEntry w f o r f') = true -> twin a a'.
Proof.
  unfold closes, idle. cbn [e_reply e_op]. intros E C I. destruct o; cbn [step] in E.
  - destruct (a_state a); try (injection E as _ <- _; apply twin_refl).
    destruct (getRelevantFileNames w f (a_mode a) dir) as [x| | |]; cbn [bind] in E; try discriminate. injection E as _ <- _. apply twin_refl.
  - destruct (a_state a); try (injection E as _ <- _; apply twin_refl).
    destruct (fh_createFile w f p) as [f1 [x| | |]]; cbn [bind] in E; try discriminate. injection E as _ <- _. apply twin_refl.
  - destruct (a_state a); try (injection E as _ <- _; apply twin_refl). unfold selectFile in E. injection E as _ E. apply noexcept_returns in E.
    destruct (getFileHandler w f p) as [[c|h]| | |]; cbn [bind] in E; try discriminate; [injection E as <- _; apply twin_refl|].
    destruct (fh_empty h); [injection E as _ <-; discriminate|].
    destruct (fh_getDataHeader w f 0 h) as [[c|d]| | |]; cbn [bind] in E; try discriminate; [injection E as <- _; apply twin_refl|injection E as _ <-; discriminate].
  - destruct (a_state a); injection E as _ <- _; apply twin_refl.
  - destruct (a_state a); injection E as _ <- <-; try apply twin_refl; discriminate.
  - destruct (a_state a); try (injection E as _ <- _; apply twin_refl);
      (unfold deleteFile in E; destruct (a_file a) as [h|]; [|discriminate]; destruct (negb (w_remove w (fh_path h))); [discriminate|];
       destruct (f (w_loc w (fh_path h))); [injection E as _ _ <-; discriminate|injection E as _ <- _; apply twin_refl]).
  - destruct (a_state a); try (injection E as _ <- _; apply twin_refl). unfold getFileContent in E. injection E as _ E. apply noexcept_returns in E.
    destruct (a_file a) as [h|]; cbn [ptr bind] in E; [|discriminate]. destruct (try_ (any_std ERR_FILE_READ) (fh_getAllBytes w f h)) as [x| | |]; cbn [bind] in E; try discriminate.
    injection E as <- _. apply twin_refl.
  - destruct (a_state a); try (injection E as _ <- _; apply twin_refl). unfold verifyPassword in E. injection E as _ E. apply noexcept_returns in E.
    destruct (a_dh a) as [d|]; cbn [ptr bind] in E; [|discriminate]. destruct (catch_std ERR (checkPassword w d pw timeout)) as [[c|k]| | |]; cbn [bind] in E; try discriminate;
      [injection E as <- _; apply twin_refl|injection E as _ <-; discriminate].
  - destruct (negb (set_isComplete ds)); [injection E as _ <- _; apply twin_refl|].
    destruct (a_state a); try (injection E as _ <- _; apply twin_refl); injection E as _ E; apply noexcept_returns in E;
      destruct (createHeaderIters w (a_mode a) pw ds timeout) as [[c|[d k]]| | |]; cbn in E; try discriminate; try (injection E as <- _; apply twin_refl); injection E as _ <-; discriminate.
  - destruct (negb (set_isComplete ds)); [injection E as _ <- _; apply twin_refl|].
    destruct (a_state a); try (injection E as _ <- _; apply twin_refl); discriminate.
  - destruct (a_state a); try (injection E as _ <- _; apply twin_refl). unfold changeSalt in E. injection E as _ E. apply noexcept_returns in E.
    destruct (a_dh a) as [d|]; cbn [ptr bind] in E; [|discriminate].
    destruct (getDataHeaderParts d) as [p| | |]; cbn [bind] in E; try discriminate.
    destruct (p_getSalt p) as [s| | |]; cbn [bind] in E; try discriminate.
    destruct (newBytes (Z.of_N (getLen s))) as [x| | |]; cbn [bind] in E; try discriminate.
    destruct (fillrandom (w_rnd w 0) x) as [y| | |]; cbn [bind] in E; try discriminate.
    destruct (p_setSalt y p) as [q| | |]; cbn [bind] in E; try discriminate.
    destruct (setHeaderParts (w_rnd w 1) q) as [[c|d']| | |]; cbn [bind] in E; try discriminate; [injection E as <- _; apply twin_refl|injection E as _ <-; discriminate].
  - destruct (a_state a); try (injection E as _ <- _; apply twin_refl). unfold getDecryptedData in E. injection E as _ E. apply noexcept_returns in E.
    destruct (try_ (any_std ERR) (decryptBody w a f)) as [[c|x]| | |]; cbn [bind] in E; try discriminate; [injection E as <- _; apply twin_refl|injection E as _ <-; discriminate].
  - destruct (a_state a); try (injection E as _ <- _; apply twin_refl). unfold getFileData in E. destruct (a_fdata a); [injection E as _ _ <-; discriminate|injection E as _ <- _; apply twin_refl].
  - destruct (a_state a) eqn:S; try (injection E as _ <- _; apply twin_refl). unfold encryptData in E. injection E as _ E. apply noexcept_returns in E.
    destruct x as [[m data]|]; cbn [ptr bind fd_mode fd_data] in E; [|discriminate].
    destruct m as [m|]; [|injection E as <- _; apply twin_refl]. destruct (negb (m =? a_mode a)); [injection E as <- _; apply twin_refl|].
    destruct data as [data|]; cbn [ptr bind] in E; [|discriminate]. destruct (a_dh a) as [d|] eqn:D; cbn [ptr bind] in E; [|discriminate].
    assert (forall d1, setDataSize (getLen data) d = Ret d1 -> same_head d d1 /\ d_isComplete d1 = true) as Z.
    { intros d1. unfold setDataSize. destruct (d_isComplete d) eqn:Y; cbn [negb]; [|discriminate].
      match goal with |- bind ?m _ = _ -> _ => destruct m; cbn [bind]; try discriminate end. intros X. injection X as <-. repeat split. exact Y. }
    destruct (setDataSize (getLen data) d) as [d1|y| |]; cbn [try_] in E; try discriminate.
    2: { destruct (any_std ERR y); cbn [bind dfail] in E; [injection E as <- _; apply twin_refl|discriminate]. }
    destruct (Z d1 eq_refl) as (X1 & C1). cbn [bind dret] in E.
    pose proof (head_kept (w_hashes w) (w_clk1 w) (mkBytes [] 0) d1) as X2.
    destruct (calcHeaderBytes (w_hashes w) (w_clk1 w) (mkBytes [] 0) d1) as [d2 r2]. cbn [fst] in X2.
    match type of E with context [try_ ?h ?m] => destruct (try_ h m) as [[c|res]| | |]; cbn [bind] in E; try discriminate end; [|injection E as _ <-; discriminate].
    injection E as <- _. unfold twin. cbn. rewrite D, S. repeat split; auto. right. split; [reflexivity|]. exists d, d2. split; [reflexivity|]. split; [reflexivity|].
    unfold same_head in *. intuition congruence.
  - destruct (a_state a) eqn:S; try (injection E as _ <- _; apply twin_refl). unfold writeToFile in E. destruct (a_file a) as [h|] eqn:D; [|discriminate].
    assert (twin a (mkApi ENCRYPTED (a_mode a) (a_fdata a) (a_key a) (a_enc a) (a_dh a) (Some (mkFH (fh_path h) 0 0 (fh_empty h))))) as T'.
    { unfold twin. cbn. rewrite D, S. repeat split; auto. right. split; [auto|]. exists h, (mkFH (fh_path h) 0 0 (fh_empty h)). repeat split. }
    unfold fh_getWriteStream in E. rewrite S in E. destruct (isValidPath w f (fh_path h) true) as [[c|[]]| | |]; try discriminate; [injection E as _ <- _; exact T'|].
    destruct (w_write w (fh_path h)); [|injection E as _ <- _; exact T']. cbn [dret] in E. unfold finishWrite in E.
    match type of E with context [noexcept ?m] => destruct (noexcept m); try discriminate end. injection E as _ _ <-. discriminate.
  - destruct (a_state a) eqn:S; try (injection E as _ <- _; apply twin_refl). unfold writeToPath in E. destruct (getFileHandler w f p) as [[c|h]| | |]; try discriminate; [injection E as _ <- _; apply twin_refl|].
    destruct (fh_getWriteStreamIfEmpty w f h) as [[h' f1] [[c|[]]| | |]]; try discriminate; [injection E as _ <- _; apply twin_refl|]. unfold finishWrite in E.
    destruct (noexcept (fullData a)); try discriminate. injection E as _ _ <-. discriminate.
  - injection E as _ _ <-. discriminate.
  - injection E as _ _ <-. discriminate.
Qed.
Lemma twin_trans a b c : twin a b -> twin b c -> twin a c.
Proof.
  intros (ES & EM & EF & EK & EE & ED & EH) (ES' & EM' & EF' & EK' & EE' & ED' & EH'). unfold twin.
  split; [congruence|]. split; [congruence|]. split; [congruence|]. split; [congruence|]. split; [congruence|]. rewrite <- ES in ED', EH'. split.
  - destruct ED as [ED|(S & d & e & D1 & D2 & X)], ED' as [ED'|(S' & d' & e' & D1' & D2' & X')].
    + left. congruence.
    + right. split; [exact S'|]. exists d', e'. rewrite ED. auto.
    + right. split; [exact S|]. exists d, e. rewrite <- ED'. auto.
    + right. split; [exact S|]. exists d, e'. split; [exact D1|]. split; [exact D2'|]. assert (d' = e) as -> by congruence.
      unfold same_head in *. intuition congruence.
  - destruct EH as [EH|(S & d & e & D1 & D2 & X)], EH' as [EH'|(S' & d' & e' & D1' & D2' & X')].
    + left. congruence.
    + right. split; [exact S'|]. exists d', e'. rewrite EH. auto.
    + right. split; [exact S|]. exists d, e. rewrite <- EH'. auto.
    + right. split; [exact S|]. exists d, e'. split; [exact D1|]. split; [exact D2'|]. assert (d' = e) as -> by congruence.
      unfold same_place in *. intuition congruence.
Qed.
Lemma twin_sym a b : twin a b -> twin b a.
Proof.
  intros (ES & EM & EF & EK & EE & ED & EH). unfold twin. repeat split; auto; rewrite <- ES.
  - destruct ED as [ED|(S & d & e & D1 & D2 & X1 & X2 & X3)]; [auto|]. right. split; [exact S|]. exists e, d. repeat split; auto.
  - destruct EH as [EH|(S & d & e & D1 & D2 & X1 & X2)]; [auto|]. right. split; [exact S|]. exists e, d. repeat split; auto.
Qed.

Section History.
  Variable H : hashes.
  Hypothesis HH : hashes_ok H.
  Variable bd : build.
  Lemma closes_init w a f o f' a' r : step w a f o = (f', Ret (a', r)) -> closes (mkEntry w f o r f') = true -> a_state a' = INIT.
  Proof.
    unfold closes. cbn [e_op e_reply]. intros E C. destruct o; try discriminate.
    - destruct r; try discriminate. cbn [step] in E. destruct (a_state a); try discriminate; injection E as _ <-; reflexivity.
    - destruct r; try discriminate. cbn [step] in E. destruct (a_state a); try discriminate; unfold deleteFile in E; (destruct (a_file a) as [h|]; [|discriminate]); destruct (negb (w_remove w (fh_path h))); try discriminate;
        destruct (f (w_loc w (fh_path h))); try discriminate; injection E as _ <-; reflexivity.
    - cbn [step] in E. injection E as _ <- _. reflexivity.
    - cbn [step] in E. injection E as _ <- _. reflexivity.
  Qed.
  Lemma essential_history mode tr a : history bd H mode tr a -> exists b, history bd H mode (essential tr) b /\ twin a b.
  Proof.
    intros P. pose proof P as P0. induction P as [a E|tr a w f o f' a' r P IH W F O E].
    - exists a. split; [constructor; exact E|apply twin_refl].
    - destruct (IH P) as (b & Pb & T). cbn [essential]. destruct (closes (mkEntry w f o r f')) eqn:C; [|destruct (idle (mkEntry w f o r f')) eqn:I].
      + exists a'. split; [|apply twin_refl]. constructor. apply (init_fresh H HH bd mode _ a' P0). apply (closes_init _ _ _ _ _ _ _ E C).
      + exists b. split; [exact Pb|]. apply (twin_trans a' a b); [|exact T]. apply twin_sym. apply (idle_twin w a f o f' a' r E C I).
      + pose proof (step_twins w a b f o T) as (X & Y). rewrite E in X, Y. cbn [fst snd] in X, Y.
        destruct (step w b f o) as [f1 [[b1 s]| | |]] eqn:Z; try contradiction. cbn [fst snd] in X, Y. destruct Y as (<- & T'). subst f1.
        exists b1. split; [|exact T']. apply (hist_call bd H mode _ b w f o f' b1 r); assumption.
  Qed.
  Theorem no_trace mode tr a : history bd H mode tr a -> exists b, history bd H mode (essential tr) b /\ forall l, watch l a = watch l b.
  Proof. intros P. destruct (essential_history mode tr a P) as (b & Pb & T). exists b. split; [exact Pb|]. intros l. apply watch_twins. exact T. Qed.
  (** histories with the same essential part *)
  Lemma history_same mode tr a b : history bd H mode tr a -> history bd H mode tr b -> a = b.
  Proof.
    intros P. revert b. induction P as [a E|tr a w f o f' a' r P IH W F O E]; intros b Q.
    - inversion Q; subst. congruence.
    - inversion Q; subst. match goal with X : history bd H mode tr ?x |- _ => rewrite <- (IH x X) in * end. congruence.
  Qed.
  Theorem same_essence mode tr a tr' a' : history bd H mode tr a -> history bd H mode tr' a' -> essential tr = essential tr' -> forall l, watch l a = watch l a'.
  Proof.
    intros P P' E l. destruct (no_trace mode tr a P) as (b & Pb & ->). destruct (no_trace mode tr' a' P') as (b' & Pb' & ->).
    rewrite <- E in Pb'. rewrite (history_same _ _ _ _ Pb Pb'). reflexivity.
  Qed.
  (** ** wrong passwords *)
  Lemma wrong_alike mode tr a w f p c hsz l1 l2 h rest pw t : history bd H mode tr a -> world_ok bd H w -> t < 2 ^ 64 -> a_state a = FILE_SELECTED ->
    selected tr = Some (p, c) -> written_as c hsz l1 l2 h rest -> ~ opens H h pw ->
    (step w a f (OVerify pw t) = (f, Ret (a, RErr FAIL ERR_PASSWORD_INVALID)) /\ verify_in_time w t (iterations (h_ch1 h)) (iterations (h_ch2 h))) \/
    (step w a f (OVerify pw t) = (f, Ret (a, RErr TIMEOUT ERR_TIMEOUT)) /\ ~ verify_in_time w t (iterations (h_ch1 h)) (iterations (h_ch2 h))).
  Proof.
    intros P W L S Sel Wr Op. destruct (verify_outcome H HH bd mode tr a w f p c hsz l1 l2 h rest pw t P W L S Sel Wr) as (X & Y).
    destruct (verify_timely w t (iterations (h_ch1 h)) (iterations (h_ch2 h))) eqn:T.
    - apply verify_timely_iff in T. left. split; [apply X; assumption|exact T].
    - assert (~ verify_in_time w t (iterations (h_ch1 h)) (iterations (h_ch2 h))) as T' by (rewrite <- verify_timely_iff; congruence). right. split; [apply Y|]; exact T'.
  Qed.
  Theorem wrong_same mode tr a w f p c hsz l1 l2 h rest pw1 pw2 t : history bd H mode tr a -> world_ok bd H w -> t < 2 ^ 64 -> a_state a = FILE_SELECTED ->
    selected tr = Some (p, c) -> written_as c hsz l1 l2 h rest -> ~ opens H h pw1 -> ~ opens H h pw2 ->
    step w a f (OVerify pw1 t) = step w a f (OVerify pw2 t).
  Proof.
    intros P W L S Sel Wr O1 O2.
    destruct (wrong_alike _ _ _ w f _ _ _ _ _ _ _ pw1 t P W L S Sel Wr O1) as [(-> & T1)|(-> & T1)], (wrong_alike _ _ _ w f _ _ _ _ _ _ _ pw2 t P W L S Sel Wr O2) as [(-> & T2)|(-> & T2)]; try reflexivity; contradiction.
  Qed.
  Theorem attempts mode tr a p c hsz l1 l2 h rest l after : history bd H mode tr a -> a_state a = FILE_SELECTED ->
    selected tr = Some (p, c) -> written_as c hsz l1 l2 h rest -> (forall t, In t l -> world_ok bd H (t_world t) /\ t_limit t < 2 ^ 64 /\ ~ opens H h (t_pw t)) ->
    exists replies, watch (map trying l ++ after) a = combine (map t_files l) (map (@Ret reply) replies) ++ watch after a /\
      Forall2 (fun t r => (r = RErr FAIL ERR_PASSWORD_INVALID /\ verify_in_time (t_world t) (t_limit t) (iterations (h_ch1 h)) (iterations (h_ch2 h))) \/
                          (r = RErr TIMEOUT ERR_TIMEOUT /\ ~ verify_in_time (t_world t) (t_limit t) (iterations (h_ch1 h)) (iterations (h_ch2 h)))) l replies.
  Proof.
    intros P S Sel Wr. induction l as [|t l IH]; intros O.
    - exists []. split; [reflexivity|constructor].
    - destruct IH as (rs & E & F); [intros x X; apply O; right; exact X|]. destruct (O t (or_introl eq_refl)) as (W & L & Op).
      cbn [map app watch trying c_world c_files c_op].
      destruct (wrong_alike _ _ _ (t_world t) (t_files t) _ _ _ _ _ _ _ (t_pw t) (t_limit t) P W L S Sel Wr Op) as [(-> & T)|(-> & T)].
      + exists (RErr FAIL ERR_PASSWORD_INVALID :: rs). split; [cbn [map combine app]; rewrite E; reflexivity|]. constructor; [left; auto|exact F].
      + exists (RErr TIMEOUT ERR_TIMEOUT :: rs). split; [cbn [map combine app]; rewrite E; reflexivity|]. constructor; [right; auto|exact F].
  Qed.
End History.
