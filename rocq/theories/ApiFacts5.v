(** The invariant of API histories. *)
From Coq Require Import Strings.Byte.
From Verif Require Import Base BaseFacts BytesModel BytesFacts MiscModel MiscFacts CipherModel CipherSpec CipherFacts CipherFacts2 PwModel PwSpec PwFacts ChModel ChSpec ChFacts ChFacts2
  HeaderModel HeaderSpec HeaderFacts HeaderFacts2 HeaderFacts3 HeaderFacts4 HeaderFacts5 HeaderFacts8 HeaderFacts9 FileModel ApiModel ApiSpec FileFacts ApiFacts ApiFacts2 ApiFacts3 ApiFacts4.

(** ** writeToFile *)
Lemma ready_bytes h n d : ready h n d -> getHeaderBytes d = Ret (mkBytes (ser (hdr_len h + n) h) (hdr_len h)).
Proof.
  intros ([I C] & F & B). pose proof (contents_ok _ _ _ I C) as [Hok _]. unfold getHeaderBytes. rewrite (header_length _ d h I C). cbn [bind].
  pose proof (hdr_len_bounds h Hok). destruct (N.eqb_spec (hdr_len h) 0); [lia|]. rewrite B. unfold getLen. cbn [bdata]. rewrite (ser_len _ _ Hok), N.eqb_refl. reflexivity.
Qed.
Lemma full_data a d e h n : a_dh a = Some d -> a_enc a = Some e -> ready h n d -> getLen e = n -> n < 2 ^ 31 ->
  exists t, fullData a = Ret t /\ bdata t = ser (hdr_len h + n) h ++ bdata e.
Proof.
  intros Ed Ee R Le L. change (2 ^ 31) with 2147483648 in L. pose proof (holds_ok d h (proj1 R)) as Hok. pose proof (hdr_len_small h Hok) as Ls.
  unfold fullData. rewrite Ed. cbn [ptr bind]. rewrite (ready_bytes _ _ _ R). cbn [bind]. rewrite Ee. cbn [ptr bind].
  set (s := ser (hdr_len h + n) h). assert (lenN s = hdr_len h) as Lh by (apply ser_len; exact Hok).
  unfold getLen at 1. cbn [bdata]. rewrite Lh, Le. unfold to_int64. rewrite Z.mod_small by lia. destruct (Z.ltb_spec (Z.of_N (hdr_len h + n)) 9223372036854775808); [|lia].
  unfold newBytes. destruct (Z.ltb_spec (Z.of_N (hdr_len h + n)) 0); [lia|]. rewrite N2Z.id. cbn [bind].
  rewrite addcopy_ok by (unfold getLen; cbn [bdata]; rewrite Lh; change (lenN (@nil byte)) with 0; lia). cbn [bind bdata app].
  rewrite addcopy_ok by (rewrite Lh, Le; lia). eexists. split; [reflexivity|]. reflexivity.
Qed.
Lemma write_outcome w a f fh d e h n : a_file a = Some fh -> a_dh a = Some d -> a_enc a = Some e -> ready h n d -> getLen e = n -> n < 2 ^ 31 ->
  let a1 := mkApi (a_state a) (a_mode a) (a_fdata a) (a_key a) (a_enc a) (a_dh a) (Some (mkFH (fh_path fh) 0 0 (fh_empty fh))) in
  (exists c, openable w f (fh_path fh) c /\ w_write w (fh_path fh) = true /\
     writeToFile w a f = (write_stream w (upd f (w_loc w (fh_path fh)) (Some [])) (fh_path fh) (ser (hdr_len h + n) h ++ bdata e),
                          Ret (mkApi FINISHED (a_mode a) (a_fdata a) (a_key a) None (a_dh a) (Some (mkFH (fh_path fh) 0 0 (fh_empty fh))), ROk))) \/
  ((forall c, openable w f (fh_path fh) c -> w_write w (fh_path fh) = false) /\
   ((exists c, writeToFile w a f = (f, Ret (a1, failed c))) \/ writeToFile w a f = (f, Crash Terminate))).
Proof.
  intros Ef Ed Ee R Le L a1. unfold writeToFile. rewrite Ef. unfold fh_getWriteStream.
  destruct (valid_path_cases w f (fh_path fh) true) as [[Ep V]|[(NEp & Np & V)|[(Ep & S & V)|(Ep & S & V)]]]; rewrite V.
  - right. split; [|left; eexists; reflexivity]. intros c (E & _). apply enc_path_nonempty in E. rewrite Ep in E. discriminate E.
  - right. split; [|left; eexists; reflexivity]. intros c (E & _). contradiction.
  - right. split; [|right; reflexivity]. intros c (_ & E & _). congruence.
  - destruct (f (w_loc w (fh_path fh))) as [c|] eqn:El.
    2: { right. split; [|left; eexists; reflexivity]. intros c (_ & _ & E & _). congruence. }
    destruct (w_read w (fh_path fh)) eqn:Er.
    2: { right. split; [|left; eexists; reflexivity]. intros c' (_ & _ & _ & E). congruence. }
    unfold dret at 1. destruct (w_write w (fh_path fh)) eqn:Ew; unfold dret.
    2: { right. split; [reflexivity|left; eexists; reflexivity]. }
    left. exists c. split; [unfold openable; auto|]. split; [reflexivity|]. unfold finishWrite.
    destruct (full_data (mkApi (a_state a) (a_mode a) (a_fdata a) (a_key a) (a_enc a) (a_dh a) (Some (mkFH (fh_path fh) 0 0 (fh_empty fh)))) d e h n Ed Ee R Le L) as (t & -> & Bt).
    cbn [noexcept]. rewrite Bt. reflexivity.
Qed.
Lemma write_to_outcome w a f p d e h n : fs_ok f -> a_dh a = Some d -> a_enc a = Some e -> ready h n d -> getLen e = n -> n < 2 ^ 31 ->
  (openable w f p [] /\ w_write w p = true /\
     writeToPath w a f p = (write_stream w (upd f (w_loc w p) (Some [])) p (ser (hdr_len h + n) h ++ bdata e),
                          Ret (mkApi FINISHED (a_mode a) (a_fdata a) (a_key a) None (a_dh a) (a_file a), ROk))) \/
  ((openable w f p [] -> w_write w p = false) /\
   ((exists c, writeToPath w a f p = (f, Ret (a, failed c))) \/ writeToPath w a f p = (f, Crash Terminate))).
Proof.
  intros Hf Ed Ee R Le L. unfold writeToPath.
  destruct (handler_cases w f p Hf) as [(c & O & -> & E & _)|[(c & hsz & O & Lc & Lh & S & E & _)|[(c & e' & O & NE & _ & _ & E & _)|[(NO & _ & _ & E & _)|(NO & c & E & _)]]]].
  - rewrite E. unfold dret. unfold fh_getWriteStreamIfEmpty, fh_getWriteStream. cbn [fh_empty fh_path]. rewrite (openable_valid _ _ _ _ O). unfold dret at 1.
    destruct (w_write w p) eqn:Ew; unfold dret.
    2: { right. split; [reflexivity|left; eexists; reflexivity]. }
    left. split; [exact O|]. split; [reflexivity|]. unfold finishWrite. destruct (full_data a d e h n Ed Ee R Le L) as (t & -> & Bt). cbn [noexcept]. rewrite Bt. reflexivity.
  - right. split.
    + intros O'. exfalso. apply fit_nonempty in S. destruct O as (_ & _ & O & _), O' as (_ & _ & O' & _). congruence.
    + left. rewrite E. eexists. reflexivity.
  - right. split.
    + intros O'. exfalso. destruct O as (_ & _ & O & _), O' as (_ & _ & O' & _). congruence.
    + left. rewrite E. eexists. reflexivity.
  - right. split; [intros O'; exfalso; exact (NO _ O')|]. right. rewrite E. reflexivity.
  - right. split; [intros O'; exfalso; exact (NO _ O')|]. left. rewrite E. eexists. reflexivity.
Qed.

(** ** the invariant *)
Definition void : Bytes := mkBytes [] 0.
Definition keyed (H : hashes) (h : header) (pw : bytes) (k : Bytes) : Prop := opens H h pw /\ bdata k = key_of H h pw.
Definition inv0 (H : hashes) (sel : option (bytes * bytes)) (pw ver enc : option bytes) (cur : header -> Prop) (a : api) : Prop :=
  a_mode a = 1 /\
  match a_state a with
  | INIT => sel = None /\ pw = None /\ ver = None /\ enc = None /\ a = fresh 1
  | EMPTY_FILE_SELECTED => exists p, sel = Some (p, []) /\ pw = None /\ ver = None /\ enc = None /\
      a = mkApi EMPTY_FILE_SELECTED 1 None void None None (Some (mkFH p 0 0 true))
  | FILE_SELECTED => exists p c hsz l1 l2 h rest, sel = Some (p, c) /\ pw = None /\ ver = None /\ enc = None /\ cur h /\
      written_as c hsz l1 l2 h rest /\ 104 <= hsz /\ lenN c < 2 ^ 63 /\
      a = mkApi FILE_SELECTED 1 None void None (Some (decoded (lenN c) h)) (Some (mkFH p hsz (lenN c) false))
  | PASSWORD_VERIFIED => exists p c hsz l1 l2 h rest w k, sel = Some (p, c) /\ pw = Some w /\ ver = Some w /\ enc = None /\ cur h /\
      written_as c hsz l1 l2 h rest /\ 104 <= hsz /\ lenN c < 2 ^ 63 /\ keyed H h w k /\
      a = mkApi PASSWORD_VERIFIED 1 None k None (Some (decoded (lenN c) h)) (Some (mkFH p hsz (lenN c) false))
  | DECRYPTED => exists p c h w k d fh fd, sel = Some (p, c) /\ pw = Some w /\ enc = None /\ cur h /\ keyed H h w k /\
      holds d h /\ fh_path fh = p /\ (fd = None \/ fd = Some (mkFD (Some 1) (Some void))) /\
      a = mkApi DECRYPTED 1 fd k None (Some d) (Some fh)
  | ENCRYPTED => exists p c h w k d fh data e, sel = Some (p, c) /\ pw = Some w /\ enc = Some data /\ cur h /\ keyed H h w k /\
      ready h (lenN data) d /\ lenN data < 2 ^ 31 /\ fh_path fh = p /\ bdata e = cipher_of H h w data /\
      a = mkApi ENCRYPTED 1 (Some (mkFD (Some 1) None)) k (Some e) (Some d) (Some fh)
  | FINISHED => exists p c h w k d fh data, sel = Some (p, c) /\ pw = Some w /\ enc = Some data /\ cur h /\ keyed H h w k /\
      ready h (lenN data) d /\ lenN data < 2 ^ 31 /\ fh_path fh = p /\
      a = mkApi FINISHED 1 (Some (mkFD (Some 1) None)) k None (Some d) (Some fh)
  end.
Definition inv (H : hashes) (tr : list entry) (a : api) : Prop :=
  inv0 H (selected tr) (password tr) (verified tr) (encrypted tr) (current H tr) a.

Lemma inv_new H a : newAPI 1 = Ret a -> inv H [] a.
Proof. intros [= <-]. unfold inv, inv0. cbn. spl; reflexivity. Qed.
Lemma failed_err c : exists s, failed c = RErr s c.
Proof. unfold failed. eauto. Qed.
Definition quiet (o : op) (r : reply) : bool :=
  match o, r with
  | (OLogout | OLogoutMode _), _ => false
  | (OUnselect | ODelete | OSelect _ | OVerify _ _ | OHeader _ _ _ | OSalt | OEncrypt _), ROk => false
  | _, _ => true
  end.
Lemma quiet_inv H w f o r f' tr a : quiet o r = true -> inv H tr a -> inv H (mkEntry w f o r f' :: tr) a.
Proof.
  intros Q I. destruct o; try (destruct x as [[fm [b|]]|]); destruct r; try discriminate; exact I.
Qed.
Lemma quiet_failed o c : o <> OLogout -> (forall m, o <> OLogoutMode m) -> quiet o (failed c) = true.
Proof. intros N1 N2. destruct (failed_err c) as [s ->]. destruct o; try reflexivity; [contradiction|]. exfalso. apply (N2 mode). reflexivity. Qed.

Section Inv.
  Variable H : hashes.
  Hypothesis HH : hashes_ok H.
  Variable bd : build.
  Ltac quiet := apply quiet_inv; [first [reflexivity | apply quiet_failed; discriminate]|assumption].
  Ltac done_eq E := injection E as <- <- <-.
  Lemma step_inv tr a w f o f' a' r : inv H tr a -> world_ok bd H w -> fs_ok f -> op_ok o ->
    step w a f o = (f', Ret (a', r)) -> inv H (mkEntry w f o r f' :: tr) a'.
  Proof.
    intros I W Hf Ho E. pose proof I as I0. destruct W as (Wb & WH & WR & We). assert (W : world_ok bd H w) by (unfold world_ok; auto).
    destruct I as [Em I].
    destruct o; cbn [step] in E.
    - (* list *) destruct (a_state a) eqn:Es; try (done_eq E; quiet).
      destruct (getRelevantFileNames w f (a_mode a) dir) as [[c|l]| | |]; cbn in E; try discriminate; done_eq E; quiet.
    - (* create *) destruct (a_state a) eqn:Es; try (done_eq E; quiet).
      destruct (fh_createFile w f p) as [f1 [[c|u]| | |]]; cbn in E; try discriminate; done_eq E; quiet.
    - (* select *) destruct (a_state a) eqn:Es; try (done_eq E; quiet).
      destruct I as (_ & _ & _ & _ & ->).
      destruct (select_outcome bd H w f p W Hf) as [[O S]|[(c & hsz & l1 & l2 & h & rest & O & Wr & L1 & L2 & _ & S)|[[c S]|[c S]]]]; rewrite S in E; try discriminate.
      + done_eq E. unfold inv, inv0. cbn. split; [reflexivity|]. exists p. unfold content. destruct O as (_ & _ & -> & _). spl; reflexivity.
      + done_eq E. unfold inv, inv0. cbn. split; [reflexivity|]. exists p, c, hsz, l1, l2, h, rest. unfold content. destruct O as (_ & _ & -> & _).
        spl; try reflexivity; try assumption. exists hsz, l1, l2, rest. exact Wr.
      + done_eq E. quiet.
    - (* isEmpty *) destruct (a_state a) eqn:Es; done_eq E; quiet.
    - (* unselect *) destruct (a_state a) eqn:Es; try (done_eq E; quiet).
      + destruct I as (p & c & hsz & l1 & l2 & h & rest & _ & _ & _ & _ & _ & _ & _ & _ & ->). done_eq E. unfold inv, inv0. cbn. spl; reflexivity.
      + destruct I as (p & _ & _ & _ & _ & ->). done_eq E. unfold inv, inv0. cbn. spl; reflexivity.
    - (* delete *) destruct (a_state a) eqn:Es; try (done_eq E; quiet).
      + destruct I as (p & c & hsz & l1 & l2 & h & rest & _ & _ & _ & _ & _ & _ & _ & _ & ->). unfold deleteFile in E. cbn [a_file] in E.
        destruct (negb _); [discriminate|]. destruct (f _); done_eq E; [|quiet]. unfold inv, inv0. cbn. spl; reflexivity.
      + destruct I as (p & _ & _ & _ & _ & ->). unfold deleteFile in E. cbn [a_file] in E.
        destruct (negb _); [discriminate|]. destruct (f _); done_eq E; [|quiet]. unfold inv, inv0. cbn. spl; reflexivity.
    - (* content *) destruct (a_state a) eqn:Es; try (done_eq E; quiet).
      unfold getFileContent in E. destruct (a_file a) as [x|]; cbn [ptr bind] in E; [|discriminate].
      destruct (try_ _ _) as [[c|b]| | |]; cbn in E; try discriminate; done_eq E; quiet.
    - (* verify *) destruct (a_state a) eqn:Es; try (done_eq E; quiet).
      destruct I as (p & c & hsz & l1 & l2 & h & rest & Q1 & Q2 & Q3 & Q4 & Q5 & Wr & L1 & L2 & Ea).
      pose proof (lt63_two64 _ L2) as L3. assert (holds (decoded (lenN c) h) h) as Hd by (split; [apply decoded_hinv|apply decoded_contents]; try apply Wr; exact L3).
      unfold verifyPassword in E. assert (a_dh a = Some (decoded (lenN c) h)) as Edh by (rewrite Ea; reflexivity). rewrite Edh in E. cbn [ptr bind] in E.
      assert (exists r, checkPassword w (decoded (lenN c) h) pw timeout = Ret r /\ forall k, r = inr k -> opens H h pw /\ bdata k = key_of H h pw) as (x & Ex & Kx).
      { destruct (check_password H HH w _ h pw timeout WH We Ho Hd) as [A B].
        assert (verify_in_time w timeout (iters_of (h_ch1 h)) (iters_of (h_ch2 h)) \/ ~ verify_in_time w timeout (iters_of (h_ch1 h)) (iters_of (h_ch2 h))) as [T|T].
        { unfold verify_in_time. destruct (reached_dec (w_clk1 w) timeout (readings_string (iters_of (h_ch1 h)))); [right; tauto|].
          destruct (N.eq_dec timeout 0); destruct (N.eq_dec (w_elapsed w) timeout);
          destruct (reached_dec (w_clk2 w) ((timeout + 2 ^ 64 - w_elapsed w) mod 2 ^ 64) (readings_bytes (iters_of (h_ch2 h)))); tauto. }
        - destruct (B T) as [B1 B2].
          assert (opens H h pw \/ ~ opens H h pw) as [O|O].
          { unfold opens. destruct (list_eq_dec Byte.byte_eq_dec (h_valid h) (validator H h (key_of H h pw))); auto. }
          + destruct (B1 O) as (k & -> & Bk). eexists. split; [reflexivity|]. intros k' [= <-]. auto.
          + rewrite (B2 O). eexists. split; [reflexivity|]. discriminate.
        - rewrite (A T). eexists. split; [reflexivity|]. discriminate. }
      rewrite Ex in E. destruct x as [e|k]; cbn in E; done_eq E; [quiet|]. destruct (Kx k eq_refl) as [K1 K2].
      rewrite Ea. unfold inv, inv0. cbn. split; [reflexivity|]. exists p, c, hsz, l1, l2, h, rest, pw, k. unfold keyed. spl; try assumption; reflexivity.
    - (* createDataHeader *) destruct Ho as [Sm Lt]. destruct (set_isComplete ds) eqn:Sc; cbn [negb] in E; [|done_eq E; quiet].
      destruct (a_state a) eqn:Es; try (done_eq E; quiet); rewrite Em in E.
      all: destruct (create_header H HH w pw ds timeout WH WR We Lt Sm Sc) as (it1 & it2 & _ & _ & A & B).
      all: assert (exists r, createHeaderIters w 1 pw ds timeout = Ret r /\
             forall d k, r = inr (d, k) -> exists h, holds d h /\ created H w ds pw h /\ bdata k = key_of H h pw) as (x & Ex & Kx) by
        (assert (create_in_time w timeout it1 it2 \/ ~ create_in_time w timeout it1 it2) as [T|T];
         [unfold create_in_time; destruct (reached_dec (w_clk1 w) timeout (readings_string it1)); [right; tauto|];
          destruct (N.eq_dec timeout 0); destruct (N.lt_decidable (w_elapsed w) timeout);
          destruct (reached_dec (w_clk2 w) (timeout - w_elapsed w) (readings_bytes it2)); tauto| |];
         [destruct (B T) as [B1 B2];
          assert ((lenN (s_dec ds) <= 255 /\ lenN (s_enc ds) <= 255) \/ ~ (lenN (s_dec ds) <= 255 /\ lenN (s_enc ds) <= 255)) as [[L1 L2]|L] by lia;
          [destruct (B2 L1 L2) as (d & k & h & -> & K1 & _ & K2 & K3); eexists; split; [reflexivity|]; intros d' k' [= <- <-]; eauto
          |rewrite (B1 L); eexists; split; [reflexivity|]; discriminate]
         |rewrite (A T); eexists; split; [reflexivity|]; discriminate]).
      all: rewrite Ex in E; destruct x as [e|[d k]]; cbn in E; done_eq E; [quiet|]; destruct (Kx d k eq_refl) as (h & K1 & K2 & K3).
      + destruct I as (p & Q1 & Q2 & Q3 & Q4 & ->). unfold inv, inv0. cbn. split; [reflexivity|].
        exists p, [], h, pw, (copyBytes k), d. do 2 eexists. unfold keyed. spl; try reflexivity; try assumption; try (apply K2); try (right; reflexivity). reflexivity.
      + destruct I as (p & c & h0 & pw0 & k0 & d0 & fh & fd & Q1 & Q2 & Q3 & Q4 & Q5 & Q6 & Q7 & Q8 & ->). unfold inv, inv0. cbn. split; [reflexivity|].
        exists p, c, h, pw, (copyBytes k), d, fh, fd. unfold keyed. spl; try reflexivity; try assumption; try (apply K2).
    - (* with time settings *) destruct (set_isComplete ds) eqn:Sc; cbn [negb] in E; [|done_eq E; quiet].
      destruct (a_state a) eqn:Es; try (done_eq E; quiet); discriminate.
    - (* changeSalt *) destruct (a_state a) eqn:Es; try (done_eq E; quiet).
      destruct I as (p & c & h0 & pw0 & k0 & d0 & fh & fd & Q1 & Q2 & Q3 & Q4 & [Q5 Q5'] & Q6 & Q7 & Q8 & ->).
      unfold changeSalt in E. cbn [a_dh ptr bind] in E. destruct (new_salt w d0 h0 WR Q6) as (d' & Es' & _ & _ & Hd').
      pose proof (holds_parts d0 h0 Q6) as P. rewrite P in E, Es'. cbn [bind] in E, Es'.
      destruct (p_getSalt (d_parts d0)) as [s| | |]; cbn [bind] in E, Es'; try discriminate.
      destruct (newBytes (Z.of_N (getLen s))) as [b| | |]; cbn [bind] in E, Es'; try discriminate.
      destruct (fillrandom (w_rnd w 0) b) as [b'| | |]; cbn [bind] in E, Es'; try discriminate.
      destruct (p_setSalt b' (d_parts d0)) as [p'| | |]; cbn [bind] in E, Es'; try discriminate.
      rewrite Es' in E. cbn in E. done_eq E. unfold inv, inv0. cbn. split; [reflexivity|].
      exists p, c, (with_salt (w_rnd w 0 (digest_len (h_hmode h0))) h0), pw0, k0, d', fh, fd. unfold keyed. spl; try reflexivity; try assumption.
      exists h0. auto.
    - (* decrypt *) destruct (a_state a) eqn:Es; try (done_eq E; quiet).
      destruct I as (p & c & hsz & l1 & l2 & h & rest & pw & k & Q1 & Q2 & Q3 & Q4 & Q5 & Wr & L1 & L2 & K & ->).
      unfold getDecryptedData in E. destruct (try_ _ _) as [[x|x]| | |]; cbn in E; try discriminate; done_eq E; [quiet|].
      unfold inv, inv0. cbn. split; [reflexivity|]. exists p, c, h, pw, k, (decoded (lenN c) h), (mkFH p hsz (lenN c) false), None. pose proof (lt63_two64 _ L2) as L3.
      spl; try reflexivity; try assumption; try (left; reflexivity). split; [apply decoded_hinv|apply decoded_contents]; try apply Wr; exact L3.
    - (* getFileData *) destruct (a_state a) eqn:Es; try (done_eq E; quiet).
      destruct I as (p & c & h0 & pw0 & k0 & d0 & fh & fd & Q1 & Q2 & Q3 & Q4 & Q5 & Q6 & Q7 & Q8 & ->). unfold getFileData in E. cbn [a_fdata] in E.
      destruct fd as [x|]; done_eq E; [|quiet]. unfold inv, inv0. cbn. split; [reflexivity|]. exists p, c, h0, pw0, k0, d0, fh, None. spl; try assumption; try reflexivity. left. reflexivity.
    - (* encrypt *) destruct (a_state a) eqn:Es; try (done_eq E; quiet).
      destruct I as (p & c & h0 & pw0 & k0 & d0 & fh & fd & Q1 & Q2 & Q3 & Q4 & [Q5 Q5'] & Q6 & Q7 & Q8 & Ea).
      assert (encryptData w a x = Ret (a', r) /\ f' = f) as [E' ->] by (injection E as <- ->; auto).
      assert (a_dh a = Some d0) as Edh by (rewrite Ea; reflexivity). assert (bdata (a_key a) = key_of H h0 pw0) as Ek by (rewrite Ea; exact Q5').
      destruct (encrypt_inv H HH w a x d0 h0 pw0 a' r WH Em Edh Q6 Ek Ho E') as [(e & -> & ->)|[(d1 & e & Hd1 & -> & ->)|(data & res & d2 & -> & L & -> & -> & Br & Rd)]].
      + quiet.
      + apply quiet_inv; [apply quiet_failed; discriminate|]. subst a. unfold inv, inv0, with_dh. cbn. split; [reflexivity|].
        exists p, c, h0, pw0, k0, d1, fh, fd. unfold keyed. spl; try assumption; reflexivity.
      + subst a. unfold inv, inv0. cbn. split; [reflexivity|]. exists p, c, h0, pw0, k0, d2, fh, (bdata data), res. unfold keyed. spl; try assumption; reflexivity.
    - (* write *) destruct (a_state a) eqn:Es; try (done_eq E; quiet).
      destruct I as (p & c & h & pw & k & d & fh & data & e & Q1 & Q2 & Q3 & Q4 & K & Rd & L & Q5 & Q6 & Ea).
      assert (getLen e = lenN data) as Le by (unfold getLen; rewrite Q6; apply (cipher_len H HH); apply (holds_ok d), Rd).
      pose proof (write_outcome w a f fh d e h (lenN data)) as X. rewrite Ea in X. cbn [a_file a_dh a_enc a_state a_mode a_fdata a_key] in X.
      specialize (X eq_refl eq_refl eq_refl Rd Le L). rewrite <- Ea in X. cbv zeta in X. destruct X as [(c0 & O & Ww & X)|[_ [[c0 X]|X]]]; rewrite X in E; try discriminate; done_eq E.
      + apply quiet_inv; [reflexivity|]. unfold inv, inv0. cbn. split; [reflexivity|]. exists p, c, h, pw, k, d. do 2 eexists. spl; try reflexivity; eassumption.
      + apply quiet_inv; [apply quiet_failed; discriminate|]. unfold inv, inv0. cbn. split; [reflexivity|]. exists p, c, h, pw, k, d. do 3 eexists. spl; try reflexivity; eassumption.
    - (* write to *) destruct (a_state a) eqn:Es; try (done_eq E; quiet).
      destruct I as (q & c & h & pw & k & d & fh & data & e & Q1 & Q2 & Q3 & Q4 & K & Rd & L & Q5 & Q6 & Ea).
      assert (getLen e = lenN data) as Le by (unfold getLen; rewrite Q6; apply (cipher_len H HH); apply (holds_ok d), Rd).
      pose proof (write_to_outcome w a f p d e h (lenN data) Hf) as X. rewrite Ea in X. cbn [a_file a_dh a_enc a_state a_mode a_fdata a_key] in X.
      specialize (X eq_refl eq_refl Rd Le L). rewrite <- Ea in X. destruct X as [(O & Ww & X)|[_ [[c0 X]|X]]]; rewrite X in E; try discriminate; done_eq E; [|quiet].
      apply quiet_inv; [reflexivity|]. unfold inv, inv0. cbn. split; [reflexivity|]. exists q, c, h, pw, k, d. do 2 eexists. spl; try reflexivity; eassumption.
    - (* logout *) done_eq E. rewrite Em. unfold inv, inv0. cbn. spl; reflexivity.
    - done_eq E. rewrite Em. unfold inv, inv0. cbn. spl; reflexivity.
  Qed.
  Lemma history_mode mode tr a : history bd H mode tr a -> mode = 1.
  Proof.
    induction 1 as [a E|]; [|assumption]. unfold newAPI in E. destruct (file_mode_valid mode) eqn:V; [|discriminate]. apply file_mode_valid_spec. exact V.
  Qed.
  Lemma history_inv mode tr a : history bd H mode tr a -> inv H tr a.
  Proof.
    intros Hh. pose proof (history_mode _ _ _ Hh) as ->. induction Hh as [a E|tr a w f o f' a' r _ IH W Hf Ho E].
    - apply inv_new. exact E.
    - eapply step_inv; eassumption.
  Qed.
End Inv.
