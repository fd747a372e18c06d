(** Lemmas for the properties of the API: passwords, contents, round trips. *)
From Coq Require Import Strings.Byte.
From Verif Require Import Base BaseFacts BytesModel BytesFacts MiscModel MiscFacts CipherModel CipherSpec CipherFacts CipherFacts2 PwModel PwSpec PwFacts ChModel ChSpec ChFacts ChFacts2
  HeaderModel HeaderSpec HeaderFacts HeaderFacts2 HeaderFacts3 HeaderFacts4 HeaderFacts5 HeaderFacts8 HeaderFacts9 FileModel ApiModel ApiSpec FileFacts FileFacts2 ApiFacts ApiFacts2 ApiFacts3 ApiFacts4 ApiFacts5 ApiFacts6.

Lemma calls_cons w o l a f a1 f1 x xs a2 f2 : step w a f o = (f1, Ret (a1, x)) -> calls l a1 f1 = Some (xs, a2, f2) -> calls ((w, o) :: l) a f = Some (x :: xs, a2, f2).
Proof. intros E1 E2. cbn [calls]. rewrite E1, E2. reflexivity. Qed.
Lemma calls_app l1 : forall l2 a f a1 f1 xs ys a2 f2, calls l1 a f = Some (xs, a1, f1) -> calls l2 a1 f1 = Some (ys, a2, f2) -> calls (l1 ++ l2) a f = Some ((xs ++ ys)%list, a2, f2).
Proof.
  induction l1 as [|[w o] l1 IH]; intros l2 a f a1 f1 xs ys a2 f2 E1 E2; cbn [calls app] in *.
  - injection E1 as <- <- <-. exact E2.
  - destruct (step w a f o) as [f0 [[a0 x]| | |]]; try discriminate. destruct (calls l1 a0 f0) as [[[zs a3] f3]|] eqn:E; try discriminate. injection E1 as <- -> ->.
    rewrite (IH l2 _ _ _ _ _ _ _ _ E E2). reflexivity.
Qed.

Section Api7.
  Variable H : hashes.
  Hypothesis HH : hashes_ok H.
  Variable bd : build.

  (** ** the header in use is unique *)
  Lemma created_unique w ds pw h h' : created H w ds pw h -> created H w ds pw h' -> h = h'.
  Proof.
    intros (A1 & A2 & (m1 & n1 & A3 & A4 & A5) & (m2 & n2 & A6 & A7 & A8) & A9 & A10 & A11 & A12) (B1 & B2 & (m1' & n1' & B3 & B4 & B5) & (m2' & n2' & B6 & B7 & B8) & B9 & B10 & B11 & B12).
    assert (h_hmode h = h_hmode h') as Em by congruence. assert (h_ch1 h = h_ch1 h') as E1 by congruence. assert (h_ch2 h = h_ch2 h') as E2 by congruence.
    unfold opens, validator, key_of in *. rewrite Em, E1, E2 in A12. rewrite Em in A9.
    destruct h, h'; cbn in *. congruence.
  Qed.
  Lemma current_unique mode tr a : history bd H mode tr a -> forall h h', current H tr h -> current H tr h' -> h = h'.
  Proof.
    induction 1 as [a E|tr a w f o f' a' r Hh IH W Hf Ho E]; intros h h' A B; [contradiction|]. cbn [current] in A, B. destruct (closes _); [contradiction|]. cbn [e_op e_reply e_before e_world] in A, B.
    destruct o; try (destruct r; exact (IH _ _ A B)); destruct r; try exact (IH _ _ A B).
    - destruct A as (s1 & a1 & a2 & r1 & A), B as (s2 & b1 & b2 & r2 & B). eapply written_unique; [|exact A|exact B].
      unfold content. destruct (f (w_loc w p)) as [c|] eqn:Ef; [exact (lt63_two64 _ (Hf _ _ Ef))|reflexivity].
    - exact (created_unique _ _ _ _ _ A B).
    - destruct A as (h0 & A & ->), B as (h1 & B & ->). rewrite (IH _ _ A B). reflexivity.
  Qed.

  (** ** C35 *)
  Lemma verify_obj a w f c hsz l1 l2 h rest x pw t : world_ok bd H w -> t < 2 ^ 64 -> written_as c hsz l1 l2 h rest -> lenN c < 2 ^ 63 ->
    a = mkApi FILE_SELECTED 1 None void None (Some (decoded (lenN c) h)) x ->
    (verify_in_time w t (iterations (h_ch1 h)) (iterations (h_ch2 h)) ->
       (opens H h pw -> exists k, bdata k = key_of H h pw /\ step w a f (OVerify pw t) = (f, Ret (mkApi PASSWORD_VERIFIED 1 None k None (Some (decoded (lenN c) h)) x, ROk))) /\
       (~ opens H h pw -> step w a f (OVerify pw t) = (f, Ret (a, RErr FAIL ERR_PASSWORD_INVALID)))) /\
    (~ verify_in_time w t (iterations (h_ch1 h)) (iterations (h_ch2 h)) -> step w a f (OVerify pw t) = (f, Ret (a, RErr TIMEOUT ERR_TIMEOUT))).
  Proof.
    intros (Wb & WH & WR & We) Lt Wr L ->. pose proof (lt63_two64 _ L) as L3.
    assert (holds (decoded (lenN c) h) h) as Hd by (split; [apply decoded_hinv|apply decoded_contents]; try apply Wr; exact L3).
    destruct (check_password H HH w _ h pw t WH We Lt Hd) as [A B]. cbn [step a_state]. unfold verifyPassword. cbn [a_dh ptr bind].
    split.
    - intros T. destruct (B T) as [B1 B2]. split.
      + intros O. destruct (B1 O) as (k & -> & Bk). exists k. split; [exact Bk|reflexivity].
      + intros O. rewrite (B2 O). reflexivity.
    - intros T. rewrite (A T). reflexivity.
  Qed.
  Lemma verify_outcome mode tr a w f p c hsz l1 l2 h rest pw t : history bd H mode tr a -> world_ok bd H w -> t < 2 ^ 64 -> a_state a = FILE_SELECTED ->
    selected tr = Some (p, c) -> written_as c hsz l1 l2 h rest ->
    (verify_in_time w t (iterations (h_ch1 h)) (iterations (h_ch2 h)) ->
       (opens H h pw -> exists a', a_state a' = PASSWORD_VERIFIED /\ bdata (a_key a') = key_of H h pw /\ step w a f (OVerify pw t) = (f, Ret (a', ROk))) /\
       (~ opens H h pw -> step w a f (OVerify pw t) = (f, Ret (a, RErr FAIL ERR_PASSWORD_INVALID)))) /\
    (~ verify_in_time w t (iterations (h_ch1 h)) (iterations (h_ch2 h)) -> step w a f (OVerify pw t) = (f, Ret (a, RErr TIMEOUT ERR_TIMEOUT))).
  Proof.
    intros Hh W Lt Es Q Wr. pose proof (history_inv _ HH _ _ _ _ Hh) as [Em I]. rewrite Es in I.
    destruct I as (p' & c' & hsz' & l1' & l2' & h' & rest' & Q1 & _ & _ & _ & _ & Wr' & L1 & L2 & Ea). assert (c' = c) by congruence. subst c'.
    destruct (written_unique _ _ _ _ _ _ _ _ _ _ _ (lt63_two64 _ L2) Wr Wr') as [<- <-].
    destruct (verify_obj a w f c hsz' l1' l2' h rest _ pw t W Lt Wr' L2 Ea) as [A B]. split; [|exact B]. intros T. destruct (A T) as [A1 A2]. split; [|exact A2].
    intros O. destruct (A1 O) as (k & Bk & X). eexists. split; [|split; [|exact X]]; [reflexivity|exact Bk].
  Qed.
  (** the selected file has a header *)
  Lemma selected_header mode tr a : history bd H mode tr a -> a_state a = FILE_SELECTED ->
    exists p c hsz l1 l2 h rest, selected tr = Some (p, c) /\ written_as c hsz l1 l2 h rest.
  Proof.
    intros Hh Es. pose proof (history_inv _ HH _ _ _ _ Hh) as [Em I]. rewrite Es in I.
    destruct I as (p' & c' & hsz' & l1' & l2' & h' & rest' & Q1 & _ & _ & _ & _ & Wr' & L1 & L2 & Ea). exists p', c', hsz', l1', l2', h', rest'. auto.
  Qed.

  (** ** C34 *)
  Lemma decrypt_obj_inv a w f (c : bytes) hsz h p k pw x f' a' : world_ok bd H w -> header_ok h -> lenN c < 2 ^ 63 -> hsz <= lenN c -> bdata k = key_of H h pw ->
    a = mkApi PASSWORD_VERIFIED 1 None k None (Some (decoded (lenN c) h)) (Some (mkFH p hsz (lenN c) false)) ->
    step w a f ODecrypt = (f', Ret (a', RData x)) ->
    exists b, x = mkFD (Some 1) (Some b) /\ bdata b = plain_of H h pw (takeN (lenN c - hsz) (dropN hsz (content f (w_loc w p)))) /\
      lenN c - hsz < 2 ^ 31 /\ lenN c - hsz <= lenN (content f (w_loc w p)) - hsz.
  Proof.
    intros (Wb & WH & WR & We) Hok L Lh Bk -> E. pose proof (lt63_two64 _ L) as L3. cbn [step a_state] in E. unfold getDecryptedData in E.
    assert (holds (decoded (lenN c) h) h) as Hd by (split; [apply decoded_hinv|apply decoded_contents]; assumption).
    destruct (crypt_body H HH w _ h pw k WH Hd Bk) as (hf & s & Hh & Ef & Es & Lk & Lsa & Bs & _ & Eb).
    rewrite Eb with (x := mkFH p hsz (lenN c) false) in E by reflexivity. unfold fh_dataSize, fh_dataStream in E. cbn [fh_hsize fh_fsize fh_path] in E.
    rewrite sub64_le in E by lia.
    destruct (via_stream _ _ _ _ _ _ _) as [res|e|e|] eqn:V; cbn [try_ bind noexcept dret] in E; try discriminate; [|destruct e; cbn in E; discriminate].
    injection E as _ _ <-. cbn [a_mode]. exists res. split; [reflexivity|].
    apply (via_stream_inv hf Hh) in V; [|change (2 ^ 64) with two64; lia]. destruct V as (_ & _ & L31 & Lt & Br).
    destruct (N.eq_dec (lenN c - hsz) 0) as [Z|NZ].
    - spl; try lia. rewrite Br. cbn [spec_k]. rewrite Ef, Es, Bk, Bs. unfold plain_of. rewrite Z. reflexivity.
    - assert (stream_of w f p = content f (w_loc w p)) as Ec.
      { unfold stream_of, content in *. destruct (f (w_loc w p)); [|reflexivity]. destruct (w_read w p); [reflexivity|]. exfalso.
        rewrite lenN_dropN in Lt. change (lenN (@nil byte)) with 0 in Lt. lia. }
      rewrite Ec in *. rewrite lenN_dropN in Lt. spl; try lia. rewrite Br. cbn [spec_k]. rewrite Ef, Es, Bk, Bs. reflexivity.
  Qed.
  Lemma data_reply mode tr a w f o f' a' x : history bd H mode tr a -> world_ok bd H w -> fs_ok f -> op_ok o -> step w a f o = (f', Ret (a', RData x)) ->
    (o = OGetData /\ exists b, x = mkFD (Some 1) (Some b) /\ bdata b = []) \/
    (o = ODecrypt /\ exists p c pw h hsz l1 l2 rest b, selected tr = Some (p, c) /\ verified tr = Some pw /\ written_as c hsz l1 l2 h rest /\ opens H h pw /\
       x = mkFD (Some 1) (Some b) /\ bdata b = plain_of H h pw (takeN (lenN c - hsz) (dropN hsz (content f (w_loc w p))))).
  Proof.
    intros Hh W Hf Ho E. pose proof (history_inv _ HH _ _ _ _ Hh) as [Em I].
    destruct o; try (exfalso; cbn [step] in E;
      first [ destruct (a_state a); discriminate E
            | destruct (set_isComplete ds); cbn [negb] in E; destruct (a_state a); try discriminate E; destruct (createHeaderIters _ _ _ _ _) as [[?|[? ?]]| | |]; cbn in E; discriminate E
            | destruct (set_isComplete ds); cbn [negb] in E; destruct (a_state a); try discriminate E; destruct (createHeaderTime _) as [[?|[? ?]]| | |]; cbn in E; discriminate E
            | destruct (a_state a); try discriminate E; destruct (getRelevantFileNames w f (a_mode a) dir) as [[?|?]| | |]; cbn in E; discriminate E
            | destruct (a_state a); try discriminate E; destruct (fh_createFile w f p) as [f1 [[?|?]| | |]]; cbn in E; discriminate E]; fail).
    - exfalso. cbn [step] in E. destruct (a_state a) eqn:Es; try discriminate E. destruct I as (_ & _ & _ & _ & ->).
      destruct (select_outcome bd H w f p W Hf) as [[O S]|[(c & hsz & l1 & l2 & h & rest & O & Wr & L1 & L2 & _ & S)|[[c S]|[c S]]]]; rewrite S in E; discriminate E.
    - exfalso. cbn [step] in E. destruct (a_state a) eqn:Es; try discriminate E; unfold deleteFile in E; destruct (a_file a); try discriminate E; destruct (negb _); try discriminate E; destruct (f _); discriminate E.
    - exfalso. cbn [step] in E. destruct (a_state a) eqn:Es; try discriminate E. unfold getFileContent in E. destruct (a_file a); cbn [ptr bind] in E; try discriminate E.
      destruct (try_ _ _) as [[?|?]| | |]; cbn in E; discriminate E.
    - exfalso. cbn [step] in E. destruct (a_state a) eqn:Es; try discriminate E. unfold verifyPassword in E. destruct (a_dh a); cbn [ptr bind] in E; try discriminate E.
      destruct (catch_std _ _) as [[?|?]| | |]; cbn in E; discriminate E.
    - exfalso. cbn [step] in E. destruct (a_state a) eqn:Es; try discriminate E. unfold changeSalt in E.
      destruct (ptr (a_dh a)) as [d| | |]; cbn [bind] in E; try discriminate. destruct (getDataHeaderParts d) as [p| | |]; cbn [bind] in E; try discriminate.
      destruct (p_getSalt p) as [s| | |]; cbn [bind] in E; try discriminate. destruct (newBytes _) as [b| | |]; cbn [bind] in E; try discriminate.
      destruct (fillrandom _ _) as [bz| | |]; cbn [bind] in E; try discriminate E. destruct (p_setSalt _ _) as [p'| | |]; cbn [bind] in E; try discriminate. destruct (setHeaderParts _ _) as [[c|d']| | |]; cbn in E; discriminate E.
    - right. split; [reflexivity|]. cbn [step] in E. destruct (a_state a) eqn:Es; try discriminate E.
      destruct I as (p & c & hsz & l1 & l2 & h & rest & pw & k & Q1 & Q2 & Q3 & Q4 & Q5 & Wr & L1 & L2 & [K1 K2] & Ea).
      assert (hsz <= lenN c) as Lh by apply Wr. assert (header_ok h) as Hok by apply Wr.
      assert (step w a f ODecrypt = (f', Ret (a', RData x))) as E' by (cbn [step]; rewrite Es; exact E).
      destruct (decrypt_obj_inv _ _ _ _ _ _ _ _ _ _ _ _ W Hok L2 Lh K2 Ea E') as (b & Ex & Bb & _). exists p, c, pw, h, hsz, l1, l2, rest, b. spl; assumption.
    - left. split; [reflexivity|]. cbn [step] in E. destruct (a_state a) eqn:Es; try discriminate E.
      destruct I as (p & c & h0 & pw0 & k0 & d0 & fh & fd & Q1 & Q2 & Q3 & Q4 & Q5 & Q6 & Q7 & Q8 & ->). unfold getFileData in E. cbn [a_fdata] in E.
      destruct Q8 as [-> | ->]; [discriminate E|]. injection E as _ _ <-. exists void. split; reflexivity.
    - exfalso. cbn [step] in E. destruct (a_state a) eqn:Es; try discriminate E. 
      destruct I as (p & c0 & h0 & pw0 & k0 & d0 & fh & fd & Q1 & Q2 & Q3 & Q4 & [Q5 Q5'] & Q6 & Q7 & Q8 & Ea).
      assert (encryptData w a x0 = Ret (a', RData x)) as E' by (injection E as _ ->; reflexivity).
      assert (a_dh a = Some d0) as Edh by (rewrite Ea; reflexivity). assert (bdata (a_key a) = key_of H h0 pw0) as Ek by (rewrite Ea; exact Q5'). destruct W as (_ & WH & _).
      destruct (encrypt_inv H HH w a x0 d0 h0 pw0 a' _ WH Em Edh Q6 Ek Ho E') as [(e & _ & X)|[(d1 & e & _ & _ & X)|(data & res & d2 & _ & _ & _ & X & _)]]; discriminate X.
    - exfalso. cbn [step] in E. destruct (a_state a) eqn:Es; try discriminate E. unfold writeToFile in E. destruct (a_file a) as [y|]; [|discriminate].
      destruct (fh_getWriteStream w f y) as [[h' f1] [[c|u]| | |]]; try discriminate. unfold finishWrite in E. destruct (noexcept (fullData _)); discriminate E.
    - exfalso. cbn [step] in E. destruct (a_state a) eqn:Es; try discriminate E. unfold writeToPath in E.
      destruct (getFileHandler w f p) as [[c|y]| | |]; try discriminate.
      destruct (fh_getWriteStreamIfEmpty w f y) as [[h' f1] [[c|u]| | |]]; try discriminate. unfold finishWrite in E. destruct (noexcept (fullData _)); discriminate E.
  Qed.

  (** ** C36: opening a sealed file *)
  Lemma decrypt_obj a w f p l (c : bytes) hsz h k pw x : at_hand bd H w p l -> header_ok h -> lenN c < 2 ^ 63 -> hsz <= lenN c -> bdata k = key_of H h pw ->
    a = mkApi PASSWORD_VERIFIED 1 None k None x (Some (mkFH p hsz (lenN c) false)) -> x = Some (decoded (lenN c) h) ->
    f l = Some c -> lenN c - hsz < 2 ^ 31 -> patient w (lenN c - hsz) ->
    exists b, step w a f ODecrypt = (f, Ret (mkApi DECRYPTED 1 None k None x (Some (mkFH p hsz (lenN c) false)), RData (mkFD (Some 1) (Some b)))) /\
      bdata b = plain_of H h pw (dropN hsz c).
  Proof.
    intros ((Wb & WH & WR & We) & (U1 & U2 & U3) & El) Hok L Lh Bk -> -> Fc L31 Pt. pose proof (lt63_two64 _ L) as L3. cbn [step a_state]. unfold getDecryptedData.
    assert (holds (decoded (lenN c) h) h) as Hd by (split; [apply decoded_hinv|apply decoded_contents]; assumption).
    destruct (crypt_body H HH w _ h pw k WH Hd Bk) as (hf & s & Hh & Ef & Es & Lk & Lsa & Bs & _ & Eb).
    rewrite Eb with (x := mkFH p hsz (lenN c) false) by reflexivity. unfold fh_dataSize, fh_dataStream. cbn [fh_hsize fh_fsize fh_path].
    rewrite sub64_le by lia. assert (stream_of w f p = c) as -> by (unfold stream_of; rewrite El, Fc, U2; reflexivity).
    destruct (via_stream_ok hf Hh (w_fuel w) Dec k s (dropN hsz c) (lenN c - hsz) Lk Lsa) as (r & -> & Br).
    - rewrite lenN_dropN. lia.
    - exact L31.
    - exact Pt.
    - exists r. split; [reflexivity|]. rewrite Br. cbn [spec_k]. rewrite Ef, Es, Bk, Bs. unfold plain_of. f_equal. rewrite <- lenN_dropN. apply takeN_all. lia.
  Qed.
  Lemma sealed_written h pw data c : sealed H h pw data c -> no_empty_block h -> lenN data < 2 ^ 31 ->
    lenN c = hdr_len h + lenN data /\ dropN (hdr_len h) c = cipher_of H h pw data /\ lenN c < 2 ^ 63 /\ 104 <= hdr_len h /\
    written_as c (hdr_len h) (lenN (snd (h_ch1 h))) (lenN (snd (h_ch2 h))) h (cipher_of H h pw data).
  Proof.
    intros (Hok & O & ->) Ne L. pose proof (hdr_len_small h Hok) as Ls. pose proof (hdr_len_bounds h Hok) as Lb. change (2 ^ 31) with 2147483648 in L. change (2 ^ 63) with 9223372036854775808.
    assert (lenN (ser (hdr_len h + lenN data) h ++ cipher_of H h pw data) = hdr_len h + lenN data) as Lc by (rewrite lenN_app, ser_len, (cipher_len H HH) by exact Hok; reflexivity).
    spl.
    - exact Lc.
    - rewrite <- (ser_len (hdr_len h + lenN data) h Hok) at 1. apply dropN_app_exact.
    - lia.
    - destruct Hok as (_ & Hm & _). destruct (digest_cases _ Hm) as [E|[E|E]]; rewrite E in Lb; lia.
    - apply own_written; try assumption; [unfold two64; lia|]. rewrite Lc. reflexivity.
  Qed.
  Lemma reopen ws p l f h pw data c t : (forall i, at_hand bd H (ws i) p l) -> enc_path p -> f l = Some c -> sealed H h pw data c -> no_empty_block h -> lenN data < 2 ^ 31 ->
    t < 2 ^ 64 -> verify_in_time (ws 1%nat) t (iterations (h_ch1 h)) (iterations (h_ch2 h)) -> patient (ws 2%nat) (lenN data) ->
    exists b a', calls [(ws 0%nat, OSelect p); (ws 1%nat, OVerify pw t); (ws 2%nat, ODecrypt)] (fresh 1) f = Some ([ROk; ROk; RData (mkFD (Some 1) (Some b))], a', f) /\
      bdata b = data /\ exists k fh, a' = mkApi DECRYPTED 1 None k None (Some (decoded (lenN c) h)) (Some fh) /\ keyed H h pw k /\ fh_path fh = p.
  Proof.
    intros A Ep Fc Sc Ne L Lt T Pt. destruct (sealed_written _ _ _ _ Sc Ne L) as (Lc & Dc & L63 & L104 & Wr). pose proof Sc as (Hok & O & _).
    pose proof (A 0%nat) as (W0 & (S0 & R0 & _) & E0). assert (openable (ws 0%nat) f p c) as Op by (unfold openable; rewrite E0; auto).
    pose proof (select_written bd H (ws 0%nat) f p c _ _ _ h _ W0 Op Wr L104 L63 ltac:(auto)) as S.
    set (a1 := mkApi FILE_SELECTED _ _ _ _ _ _) in S. pose proof (A 1%nat) as (W1 & _ & _).
    destruct (verify_obj a1 (ws 1%nat) f c _ _ _ h _ _ pw t W1 Lt Wr L63 eq_refl) as [V _]. destruct (V T) as [V1 _]. destruct (V1 O) as (k & Bk & V2).
    set (a2 := mkApi PASSWORD_VERIFIED _ _ _ _ _ _) in V2.
    destruct (decrypt_obj a2 (ws 2%nat) f p l c (hdr_len h) h k pw _ (A 2%nat) Hok L63 ltac:(lia) Bk eq_refl eq_refl Fc) as (b & D & Bb).
    { rewrite Lc. replace (hdr_len h + lenN data - hdr_len h) with (lenN data) by lia. exact L. }
    { rewrite Lc. replace (hdr_len h + lenN data - hdr_len h) with (lenN data) by lia. exact Pt. }
    exists b. eexists. split; [|split].
    - eapply calls_cons; [cbn [step a_state fresh]; rewrite S; reflexivity|]. eapply calls_cons; [exact V2|]. eapply calls_cons; [exact D|]. reflexivity.
    - rewrite Bb, Dc. apply (plain_of_cipher H HH). exact Hok.
    - do 2 eexists. split; [reflexivity|]. split; [split; assumption|reflexivity].
  Qed.

  (** ** C36: writing a sealed file *)
  Definition dec_obj (a : api) (p : bytes) (h : header) (pw : bytes) : Prop :=
    exists fd k d fh, a = mkApi DECRYPTED 1 fd k None (Some d) (Some fh) /\ holds d h /\ keyed H h pw k /\ fh_path fh = p.
  Lemma history_dec mode tr a : history bd H mode tr a -> a_state a = DECRYPTED -> exists p c h pw, selected tr = Some (p, c) /\ password tr = Some pw /\ current H tr h /\ dec_obj a p h pw.
  Proof.
    intros Hh Es. pose proof (history_inv _ HH _ _ _ _ Hh) as [Em I]. rewrite Es in I.
    destruct I as (p & c & h & pw & k & d & fh & fd & Q1 & Q2 & Q3 & Q4 & Q5 & Q6 & Q7 & Q8 & ->). exists p, c, h, pw. spl; try assumption. exists fd, k, d, fh. auto.
  Qed.
  Lemma encrypt_write ws a p l f h pw data c0 : dec_obj a p h pw -> (forall i, at_hand bd H (ws i) p l) -> enc_path p -> f l = Some c0 ->
    getLen data < 2 ^ 31 -> patient (ws 0%nat) (getLen data) ->
    exists a' f', calls [(ws 0%nat, OEncrypt (text data)); (ws 1%nat, OWrite)] a f = Some ([ROk; ROk], a', f') /\ a_state a' = FINISHED /\ a_mode a' = 1 /\
      (forall l', l' <> l -> f' l' = f l') /\ exists c, sealed H h pw (bdata data) c /\ f' l = Some (takeN (w_room (ws 1%nat)) c).
  Proof.
    intros (fd & k & d & fh & -> & Hd & [K1 K2] & Ep) A Enc Fc L Pt. set (a := mkApi DECRYPTED _ _ _ _ _ _).
    pose proof (A 0%nat) as ((_ & WH & _) & _).
    destruct (encrypt_ok H HH (ws 0%nat) a (text data) d h pw data WH eq_refl eq_refl Hd K2 eq_refl L Pt) as (res & d2 & E & Br & Rd).
    assert (getLen res = getLen data) as Le by (unfold getLen; rewrite Br; apply (cipher_len H HH); apply (holds_ok d), Hd).
    set (a1 := mkApi ENCRYPTED _ _ _ _ _ _) in E.
    pose proof (A 1%nat) as (W1 & (U1 & U2 & U3) & El).
    destruct (write_outcome (ws 1%nat) a1 f fh d2 res h (getLen data) eq_refl eq_refl eq_refl Rd Le L) as [(c & O & Ww & X)|[X _]].
    2: { exfalso. rewrite Ep in X. specialize (X c0 ltac:(unfold openable; rewrite El; auto)). congruence. }
    eexists _, _. split; [|split; [|split; [|split]]].
    - eapply calls_cons; [cbn [step a_state a]; rewrite E; reflexivity|]. eapply calls_cons; [cbn [step a_state a1]; exact X|]. reflexivity.
    - reflexivity.
    - reflexivity.
    - intros l' N1. rewrite Ep. apply stream_other. rewrite El. exact N1.
    - eexists. split; [|rewrite <- El, Ep; apply stream_same]. split; [exact (holds_ok d h Hd)|]. split; [exact K1|]. rewrite Br. reflexivity.
  Qed.
  Lemma room_all w h pw data c : sealed H h pw data c -> hdr_len h + lenN data <= w_room w -> takeN (w_room w) c = c.
  Proof.
    intros (Hok & _ & ->) L. apply takeN_all. rewrite lenN_app, ser_len, (cipher_len H HH) by exact Hok. exact L.
  Qed.
  (** writeToFile after any history *)
  Lemma write_history mode tr a w f o p f' a' : history bd H mode tr a -> world_ok bd H w -> fs_ok f -> (o = OWrite \/ o = OWriteTo p) -> step w a f o = (f', Ret (a', ROk)) -> exists q h pw data c,
    target tr o = Some q /\ password tr = Some pw /\ encrypted tr = Some data /\ current H tr h /\ lenN data < 2 ^ 31 /\ sealed H h pw data c /\ f' (w_loc w q) = Some (takeN (w_room w) c).
  Proof.
    intros Hh W Hf Ho E. pose proof (history_inv _ HH _ _ _ _ Hh) as [Em I]. assert (a_state a = ENCRYPTED) as Es by (destruct Ho as [-> | ->]; cbn [step] in E; destruct (a_state a); try discriminate E; reflexivity).
    rewrite Es in I. destruct I as (p0 & c & h & pw & k & d & fh & data & e & Q1 & Q2 & Q3 & Q4 & [K1 K2] & Rd & L & Q5 & Q6 & Ea).
    assert (header_ok h) as Hok by apply (holds_ok d), Rd.
    assert (getLen e = lenN data) as Le by (unfold getLen; rewrite Q6; apply (cipher_len H HH); exact Hok).
    destruct Ho as [-> | ->]; cbn [step target] in *; rewrite Es in E.
    - pose proof (write_outcome w a f fh d e h (lenN data)) as X. rewrite Ea in X. cbn [a_file a_dh a_enc a_state a_mode a_fdata a_key] in X.
      specialize (X eq_refl eq_refl eq_refl Rd Le L). rewrite <- Ea in X. cbv zeta in X.
      destruct X as [(c0 & O & Ww & X)|[_ [[c0 X]|X]]]; rewrite X in E; try discriminate E. injection E as <- _. rewrite Q1.
      exists p0, h, pw, data, (ser (hdr_len h + lenN data) h ++ bdata e). spl; try assumption; try reflexivity.
      + split; [exact Hok|]. split; [exact K1|]. rewrite Q6. reflexivity.
      + rewrite Q5. apply stream_same.
    - pose proof (write_to_outcome w a f p d e h (lenN data) Hf) as X. rewrite Ea in X. cbn [a_file a_dh a_enc a_state a_mode a_fdata a_key] in X.
      specialize (X eq_refl eq_refl Rd Le L). rewrite <- Ea in X.
      destruct X as [(O & Ww & X)|[_ [[c0 X]|X]]]; rewrite X in E; try discriminate E. injection E as <- _.
      exists p, h, pw, data, (ser (hdr_len h + lenN data) h ++ bdata e). spl; try assumption; try reflexivity.
      + split; [exact Hok|]. split; [exact K1|]. rewrite Q6. reflexivity.
      + apply stream_same.
  Qed.
End Api7.
