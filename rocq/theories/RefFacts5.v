(** The reference machine: what follows from it. *)
From Coq Require Import Strings.Byte.
From Verif Require Import Base BaseFacts BytesModel BytesSpec BytesFacts MiscModel MiscFacts CipherModel CipherSpec CipherFacts CipherFacts2 PwModel PwSpec PwFacts ChModel ChSpec ChFacts ChFacts2
  HeaderModel HeaderSpec HeaderFacts HeaderFacts2 HeaderFacts3 HeaderFacts4 HeaderFacts5 HeaderFacts8 HeaderFacts9 FileModel ApiModel ApiSpec ApiSpec2 FileFacts ApiFacts ApiFacts2 ApiFacts3 ApiFacts4 ApiFacts5 ApiFacts6 ApiFacts7 ApiFacts10 ApiFacts11 ApiFacts12
  RefSpec RefFacts RefSpec2 RefFacts2 RefFacts3 RefFacts4.
Ltac Zify.zify_post_hook ::= Z.div_mod_to_equations.

(** ** the reader *)
Lemma reader_shows bd rnd file : (forall k, lenN (rnd k) = k) -> lenN file < 2 ^ 64 ->
  match read_file bd file with
  | Gives (h, rest) => exists d, decode_stream bd rnd file = Ret (inr (d, rest)) /\ shows d (lenN file) h
  | Rejects e => decode_stream bd rnd file = Ret (inl e)
  | Dies c => decode_stream bd rnd file = Crash c
  end.
Proof.
  intros R L. change (2 ^ 64) with two64 in L. rewrite (reader_refines bd rnd file R L). destruct (read_file bd file) as [[h r]|e|c] eqn:E; try reflexivity.
  exists (decoded (lenN file) h). split; [reflexivity|]. apply decoded_view; [|exact L]. apply (holds_ok (decoded (lenN file) h)). apply (read_holds bd file h r L E).
Qed.
(** isDataHeader *)
Lemma is_header bd H w f p c fh i m : world_ok bd H w -> fs_ok f -> opened w f p = Gives c -> getFileHandler w f p = Ret (inr fh) -> c <> [] ->
  fh_isDataHeader w f i m fh =
  match read_file (w_build w) c with
  | Gives _ => if m =? 1 then Ret (inr tt) else Ret (inl ERR_FILEMODE_INVALID)
  | Rejects e => Ret (inl e)
  | Dies k => Crash k
  end.
Proof.
  intros W Hf O E Ne. rewrite (handler_ref w f p Hf) in E. unfold opened_sized in E. rewrite O in E. cbn [also] in E. destruct (sized c); [|discriminate]. injection E as <-.
  unfold to_fh. assert ((lenN c =? 0) = false) as -> by (apply N.eqb_neq; intros Z; apply lenN_0 in Z; contradiction).
  apply opened_gives in O. assert (lenN c < two64) as L by (apply lt63_two64; destruct O as (_ & _ & F & _); exact (Hf _ _ F)).
  unfold fh_isDataHeader. rewrite (header_ref bd H w f p c i W O L). destruct (read_file (w_build w) c) as [[h r]|e|k] eqn:R; try reflexivity.
  destruct (read_holds _ _ _ _ L R) as [Hd _]. cbn [ansd dbind bind dret]. unfold dret at 1. cbn [dbind bind]. rewrite (holds_parts _ _ Hd). cbn [bind].
  change (p_getFileDataMode (d_parts (decoded (lenN c) h))) with (@Ret N 1). unfold lift, dret. cbn [bind dbind]. destruct (N.eqb_spec 1 m) as [<-|X]; [reflexivity|]. destruct (N.eqb_spec m 1); [congruence|reflexivity].
Qed.

(** ** long data *)
Lemma seen_err y e : seen y = Some (Err e) -> y = failed e.
Proof.
  destruct y as [|b|l|b|[[m|] [b|]]| |t c]; try discriminate. destruct t, c; cbn; intros [= <-]; reflexivity.
Qed.
Lemma forever_iff n : forever n = true <-> 2 ^ 32 <= n /\ n mod 2 ^ 32 < 2 ^ 31.
Proof. unfold forever, limit. rewrite andb_true_iff, N.leb_le, N.ltb_lt. reflexivity. Qed.
Lemma forever_false n : forever n = false <-> ~ (2 ^ 32 <= n /\ n mod 2 ^ 32 < 2 ^ 31).
Proof. rewrite <- forever_iff. destruct (forever n); split; congruence. Qed.

Section Long.
  Variable H : hashes.
  Hypothesis HH : hashes_ok H.
  Variable bd : build.

  Lemma plain_len h pw body : header_ok h -> lenN (plain_of H h pw body) = lenN body.
  Proof.
    intros Hok. destruct (hash_mode_ok H (h_hmode h) HH ltac:(apply Hok)) as (hf & Hg & (Hp & Hl & Hn) & Hf). pose proof (getHash_size _ _ _ Hg) as [Hs _].
    unfold plain_of. rewrite <- Hf, <- Hs. rewrite <- (crypt_spec_dec hf Hp Hl Hn). apply (crypt_len hf Hp Hl Hn).
  Qed.
  Lemma encrypt_length mode tr a w f b : history bd H mode tr a -> world_ok bd H w -> fs_ok f -> lenN (bdata b) < 2 ^ 63 -> a_state a = DECRYPTED ->
    let n := lenN (bdata b) in
    let r := step w a f (OEncrypt (Some (mkFD (Some 1) (Some b)))) in
    (n < 2 ^ 31 -> (N.to_nat n + 2 <= w_fuel w)%nat -> exists a', r = (f, Ret (a', ROk)) /\ a_state a' = ENCRYPTED) /\
    (2 ^ 32 <= n -> n mod 2 ^ 32 < 2 ^ 31 -> r = (f, OutOfFuel)) /\
    (2 ^ 31 <= n -> ~ (2 ^ 32 <= n /\ n mod 2 ^ 32 < 2 ^ 31) -> (N.to_nat n + 2 <= w_fuel w)%nat -> exists a', r = (f, Ret (a', RErr FAIL ERR)) /\ a_state a' = DECRYPTED).
  Proof.
    intros Hh W Hf L Es n r. destruct (sim_history H HH bd _ _ _ Hh) as (s & _ & R & _). pose proof (rel_state H _ _ R) as Q. rewrite Es in Q. destruct s; try discriminate. clear Q.
    assert (op_ok (OEncrypt (Some (mkFD (Some 1) (Some b))))) as Ho by (cbn; intros x [= <-]; exact L).
    pose proof (sim_step H HH bd w _ f _ a R W Hf Ho) as S. fold r in S.
    assert (fst r = f) as Ef by (subst r; cbn [step]; rewrite Es; reflexivity).
    assert (forall (X : lt (w_fuel w) (rounds (Open p h pw fetch) (OEncrypt (Some (mkFD (Some 1) (Some b)))))), (w_fuel w < N.to_nat n + 2)%nat) as Er by (intros X; exact X).
    unfold follows, agrees in S. cbn [act negb N.eqb] in S. change (negb (1 =? 1)) with false in S. cbn iota in S. fold n in S.
    clearbody r. destruct r as [f1 o]. cbn [fst] in Ef. subst f1. split; [|split].
    - intros Ln Lf. destruct S as [[_ S]|S]; [apply Er in S; lia|]. destruct (N.ltb_spec n limit) as [_|X]; [|unfold limit in X; change (2 ^ 31) with 2147483648 in Ln; lia].
      destruct o as [[a' y]| | |]; try contradiction. destruct S as (_ & S & R'). exists a'. split; [|exact (rel_state H _ _ R')].
      destruct y as [|x|x|x|[[x|] [z|]]| |t e]; try discriminate; [reflexivity|]. destruct t, e; discriminate.
    - intros L1 L2. destruct S as [[S _]|S]; [exact S|]. destruct (N.ltb_spec n limit) as [X|_]; [unfold limit in X; change (2 ^ 32) with 4294967296 in L1; lia|].
      rewrite (proj2 (forever_iff n) (conj L1 L2)) in S. destruct o as [[a' y]| | |]; try contradiction. reflexivity.
    - intros L1 L2 Lf. destruct S as [[_ S]|S]; [apply Er in S; lia|]. destruct (N.ltb_spec n limit) as [X|_]; [unfold limit in X; change (2 ^ 31) with 2147483648 in L1; lia|].
      apply forever_false in L2. rewrite L2 in S. destruct o as [[a' y]| | |]; try contradiction. destruct S as (_ & S & R'). exists a'. apply seen_err in S. subst y. split; [reflexivity|exact (rel_state H _ _ R')].
  Qed.

  Lemma decrypt_length mode tr a w f p c hsz : history bd H mode tr a -> world_ok bd H w -> fs_ok f -> a_state a = PASSWORD_VERIFIED ->
    selected tr = Some (p, c) -> hsz < 2 ^ 64 -> sizes_fit c hsz ->
    let n := lenN c - hsz in
    let here := if w_read w p then lenN (content f (w_loc w p)) - hsz else 0 in
    let r := step w a f ODecrypt in
    (n <= here -> n < 2 ^ 31 -> (N.to_nat n + 2 <= w_fuel w)%nat ->
       exists a' b, r = (f, Ret (a', RData (mkFD (Some 1) (Some b)))) /\ lenN (bdata b) = n /\ a_state a' = DECRYPTED) /\
    (2 ^ 32 <= n -> n mod 2 ^ 32 < 2 ^ 31 -> n mod 2 ^ 32 <= here -> r = (f, OutOfFuel)) /\
    (~ (n <= here /\ n < 2 ^ 31) -> ~ (2 ^ 32 <= n /\ n mod 2 ^ 32 < 2 ^ 31 /\ n mod 2 ^ 32 <= here) -> (N.to_nat n + 2 <= w_fuel w)%nat ->
       r = (f, Ret (a, RErr FAIL ERR))).
  Proof.
    intros Hh W Hf Es Sel Lh Sf n here r. destruct (sim_history H HH bd _ _ _ Hh) as (s & _ & R & _). pose proof (rel_state H _ _ R) as Q. rewrite Es in Q. destruct s as [| |  | p' c' h pw| | |]; try discriminate. clear Q.
    pose proof (history_inv H HH bd _ _ _ Hh) as [_ I]. rewrite Es in I. destruct I as (p1 & c1 & hsz1 & l1 & l2 & h1 & rest & pw1 & k1 & S1 & _ & _ & _ & _ & Wr & L104 & Lc & K1 & Ea).
    rewrite S1 in Sel. injection Sel as -> ->.
    pose proof R as R0. cbn [rel] in R. destruct R as (Ep & Hd & L1 & L2 & k & K & Ea'). assert (p' = p /\ header_size c' = hsz1 /\ lenN c' = lenN c) as (-> & <- & El) by (pose proof (f_equal a_file Ea) as X; rewrite Ea' in X; cbn [a_file] in X; injection X; auto).
    destruct (written_size _ _ _ _ _ _ Wr) as (r0 & E0).
    assert (sizes_fit c (header_size c')) as Sf1 by (exists r0; split; [exact E0|split; [exact L104|apply Wr]]).
    pose proof (lt63_two64 _ Lc) as Lc64.
    assert (hsz = header_size c') as -> by (apply (fit_unique c); try assumption; rewrite <- El in Lc64; eapply N.le_lt_trans; [exact L1|exact Lc64]).
    assert (lenN c' - header_size c' = n) as En by (subst n; rewrite El; reflexivity).
    pose proof (sim_step H HH bd w _ f ODecrypt a R0 W Hf I) as S. fold r in S.
    assert (fst r = f) as Ef by (subst r; cbn [step]; rewrite Es; reflexivity).
    assert (forall a' e, r = (f, Ret (a', failed e)) -> a' = a) as Back.
    { intros a' e. subst r. cbn [step]. rewrite Es. unfold getDecryptedData. destruct (decryptBody w a f) as [x|x| |]; cbn [try_].
      - unfold dret. cbn [bind noexcept]. intros [= _ X].
      - destruct (any_std ERR x); unfold dfail; cbn [bind noexcept]; [|discriminate]. intros [= <- _]. reflexivity.
      - discriminate.
      - discriminate. }
    unfold follows, agrees in S. cbn [act rounds] in S. rewrite En in S.
    set (body := match f (w_loc w p) with Some x => if w_read w p then dropN (header_size c') x else [] | None => [] end) in S.
    assert (lenN body = here) as Eb.
    { subst body here. unfold content. destruct (f (w_loc w p)) as [x|], (w_read w p); try reflexivity. apply lenN_dropN. }
    rewrite Eb in S. clearbody r. destruct r as [f1 o]. cbn [fst] in Ef. subst f1. split; [|split].
    - intros Lb Ln Lf. destruct S as [[_ S]|S]; [lia|]. destruct (N.leb_spec n here) as [_|X]; [|lia]. destruct (N.ltb_spec n limit) as [_|X]; [|unfold limit in X; change (2 ^ 31) with 2147483648 in Ln; lia].
      cbn [andb] in S. destruct o as [[a' y]| | |]; try contradiction. destruct S as (_ & S & R').
      destruct y as [|x|x|x|[[x|] [z|]]| |t e]; try discriminate; [|destruct t, e; discriminate]. cbn [seen] in S. injection S as -> Bz. exists a', z. split; [reflexivity|]. split; [|exact (rel_state H _ _ R')].
      rewrite Bz. destruct W as (_ & -> & _). rewrite (plain_len h pw) by apply (holds_ok _ _ Hd). rewrite lenN_takeN. lia.
    - intros L3 L4 Lb. destruct S as [[S _]|S]; [exact S|]. destruct (N.ltb_spec n limit) as [X|_]; [unfold limit in X; change (2 ^ 32) with 4294967296 in L3; lia|].
      rewrite (proj2 (forever_iff n) (conj L3 L4)) in S. rewrite andb_false_r in S. change (n mod 2 ^ 32) with (n mod 4294967296) in Lb. destruct (N.leb_spec (n mod 4294967296) here) as [_|X]; [|lia]. cbn [andb] in S.
      destruct o as [[a' y]| | |]; try contradiction. reflexivity.
    - intros L3 L4 Lf. destruct S as [[_ S]|S]; [lia|].
      assert ((n <=? here) && (n <? limit) = false) as C1.
      { apply not_true_iff_false. rewrite andb_true_iff, N.leb_le, N.ltb_lt. exact L3. }
      assert (forever n && (n mod 4294967296 <=? here) = false) as C2.
      { apply not_true_iff_false. rewrite andb_true_iff, forever_iff, N.leb_le. intros [[X Y] Z]. exact (L4 (conj X (conj Y Z))). }
      rewrite C1, C2 in S. destruct o as [[a' y]| | |]; try contradiction. destruct S as (_ & S & _). apply seen_err in S. subst y. rewrite (Back _ _ eq_refl). reflexivity.
  Qed.

  (** a file with any header and body, however long, can be brought to the state that offers decryption *)
  Lemma long_opens w f p h pw rest t : world_ok bd H w -> fs_ok f -> openable w f p (ser (hdr_len h + lenN rest) h ++ rest) ->
    header_ok h -> no_empty_block h -> opens H h pw -> t < 2 ^ 64 -> verify_in_time w t (iterations (h_ch1 h)) (iterations (h_ch2 h)) ->
    exists tr a, history bd H 1 tr a /\ a_state a = PASSWORD_VERIFIED /\ selected tr = Some (p, ser (hdr_len h + lenN rest) h ++ rest) /\
      sizes_fit (ser (hdr_len h + lenN rest) h ++ rest) (hdr_len h).
  Proof.
    intros W Hf O Hok Hne Hop Lt T. set (c := ser (hdr_len h + lenN rest) h ++ rest) in *.
    assert (lenN c = hdr_len h + lenN rest) as Lc by (subst c; rewrite lenN_app, ser_len by exact Hok; reflexivity).
    assert (lenN c < 2 ^ 63) as L63 by (destruct O as (_ & _ & F & _); exact (Hf _ _ F)). pose proof (lt63_two64 _ L63) as L64.
    assert (104 <= hdr_len h) as L104.
    { pose proof (hdr_len_bounds h Hok) as Lb. destruct Hok as (_ & Hm & _). destruct (digest_cases _ Hm) as [E|[E|E]]; rewrite E in Lb; lia. }
    assert (written_as c (hdr_len h) (lenN (snd (h_ch1 h))) (lenN (snd (h_ch2 h))) h rest) as Wr by (apply own_written; try assumption; rewrite Lc; reflexivity).
    assert (sizes_fit c (hdr_len h)) as Sf by (destruct (written_size _ _ _ _ _ _ Wr) as (r0 & E0); exists r0; split; [exact E0|split; [exact L104|apply Wr]]).
    pose proof (select_written bd H w f p c _ _ _ h rest W O Wr L104 L63 ltac:(auto)) as S1.
    assert (step w (fresh 1) f (OSelect p) = (f, Ret (mkApi FILE_SELECTED 1 None void None (Some (decoded (lenN c) h)) (Some (mkFH p (hdr_len h) (lenN c) false)), ROk))) as S1' by (cbn [step]; rewrite S1; reflexivity).
    destruct (verify_obj H HH bd _ w f c _ _ _ h rest (Some (mkFH p (hdr_len h) (lenN c) false)) pw t W Lt Wr L63 eq_refl) as [A _]. destruct (A T) as [A1 _]. destruct (A1 Hop) as (k & Bk & S2).
    eexists _, _. split; [|split; [|split; [|exact Sf]]].
    - eapply (hist_call _ _ _ _ _ _ _ (OVerify pw t)); [eapply (hist_call _ _ _ _ _ _ _ (OSelect p)); [apply hist_new; reflexivity|exact W|exact Hf|exact I|exact S1']|exact W|exact Hf|exact Lt|exact S2].
    - reflexivity.
    - cbn. unfold content. destruct O as (_ & _ & -> & _). reflexivity.
  Qed.
End Long.
