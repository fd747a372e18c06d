(** The outcomes of the calls of the API. *)
From Coq Require Import Strings.Byte.
From Verif Require Import Base BaseFacts BytesModel BytesFacts MiscModel MiscFacts CipherModel CipherSpec CipherFacts CipherFacts2 PwModel PwSpec PwFacts ChModel ChSpec ChFacts ChFacts2
  HeaderModel HeaderSpec HeaderFacts HeaderFacts2 HeaderFacts3 HeaderFacts4 HeaderFacts5 HeaderFacts8 HeaderFacts9 FileModel ApiModel ApiSpec FileFacts ApiFacts ApiFacts2 ApiFacts3.

Lemma lt63_two64 n : n < 2 ^ 63 -> n < two64.
Proof. intros L. unfold two64. change (2 ^ 63) with 9223372036854775808 in L. lia. Qed.
Lemma decode_ret bd rnd file d rest : (forall k, lenN (rnd k) = k) -> lenN file < two64 -> decode_stream bd rnd file = Ret (inr (d, rest)) ->
  exists hsz l1 l2 h, written_as file hsz l1 l2 h rest /\ d = decoded (lenN file) h /\ (bd = Debug -> hsz = hdr_len h).
Proof.
  intros R L E. destruct bd.
  - apply (decode_debug rnd R file d rest L) in E. destruct E as (h & Hh & Hn & E & ->). do 3 eexists. exists h. split; [apply own_written; eassumption|]. auto.
  - apply (decode_release rnd R file d rest L) in E. destruct E as (hsz & l1 & l2 & h & W & ->). exists hsz, l1, l2, h. split; [exact W|]. split; [reflexivity|discriminate].
Qed.
(** a file has only one header *)
Lemma written_unique file hsz l1 l2 h rest hsz' l1' l2' h' rest' : lenN file < two64 ->
  written_as file hsz l1 l2 h rest -> written_as file hsz' l1' l2' h' rest' -> h = h' /\ rest = rest'.
Proof.
  intros L W W'. set (rnd := fun n : N => repeat x00 (N.to_nat n)). assert (forall k, lenN (rnd k) = k) as R by (intros k; unfold rnd; rewrite lenN_repeat; lia).
  pose proof (proj2 (decode_release rnd R file (decoded (lenN file) h) rest L)) as E. pose proof (proj2 (decode_release rnd R file (decoded (lenN file) h') rest' L)) as E'.
  rewrite E in E' by (exists hsz, l1, l2, h; auto). assert (Ret (inr (decoded (lenN file) h, rest)) = Ret (inr (decoded (lenN file) h', rest')) :> dres (dheader * bytes)) as X by (apply E'; exists hsz', l1', l2', h'; auto).
  assert (contents (decoded (lenN file) h) = contents (decoded (lenN file) h') /\ rest = rest') as [Y Z] by (split; congruence).
  rewrite !decoded_contents in Y by (apply W || apply W'). split; congruence.
Qed.
Lemma written_size file hsz l1 l2 h rest : written_as file hsz l1 l2 h rest -> exists r, file = u64 (lenN file) ++ u64 hsz ++ r.
Proof. intros (_ & _ & _ & _ & _ & _ & _ & E). eexists. rewrite E at 1. unfold layout_with. rewrite <- !app_assoc. reflexivity. Qed.
(** ** selectFile *)
Lemma select_outcome bd H w f p : world_ok bd H w -> fs_ok f ->
  (openable w f p [] /\ selectFile w (fresh 1) f p = Ret (mkApi EMPTY_FILE_SELECTED 1 None (mkBytes [] 0) None None (Some (mkFH p 0 0 true)), ROk)) \/
  (exists c hsz l1 l2 h rest, openable w f p c /\ written_as c hsz l1 l2 h rest /\ 104 <= hsz /\ lenN c < 2 ^ 63 /\ (bd = Debug -> hsz = hdr_len h) /\
     selectFile w (fresh 1) f p = Ret (mkApi FILE_SELECTED 1 None (mkBytes [] 0) None (Some (decoded (lenN c) h)) (Some (mkFH p hsz (lenN c) false)), ROk)) \/
  (exists c, selectFile w (fresh 1) f p = Ret (fresh 1, failed c)) \/ (exists c, selectFile w (fresh 1) f p = Crash c).
Proof.
  intros (Wb & _ & R & _) Hf. unfold selectFile.
  destruct (handler_cases w f p Hf) as [(c & O & -> & E & _)|[(c & hsz & O & L & Lh & S & E & _)|[(c & e & O & _ & _ & _ & E & _)|[(_ & _ & _ & E & _)|(_ & c & E & _)]]]].
  - left. split; [exact O|]. rewrite E. reflexivity.
  - right. rewrite E. unfold dret. cbn [bind fh_empty]. unfold fh_getDataHeader. cbn [fh_path]. rewrite (openable_stream _ _ _ _ O), Wb.
    destruct (decode_no_throw (w_rnd w 0) (R 0%nat) bd c L) as [[[e|[d rest]] D]|[k D]]; rewrite D.
    + right. left. exists e. reflexivity.
    + left. destruct (decode_ret bd _ _ _ _ (R 0%nat) L D) as (hsz' & l1 & l2 & h & W & -> & Q).
      assert (hsz' = hsz).
      { destruct (written_size _ _ _ _ _ _ W) as (r1 & E1). destruct S as (r2 & E2 & _).
        assert (u64 (lenN c) ++ u64 hsz' ++ r1 = u64 (lenN c) ++ u64 hsz ++ r2) as X by congruence.
        apply u64_inj in X; [|exact L|exact L]. destruct X as [_ X]. apply u64_inj in X; [apply X| |exact Lh].
        destruct W as (_ & _ & W & _). lia. }
      subst hsz'. exists c, hsz, l1, l2, h, rest. spl; try assumption; try reflexivity.
      * destruct S as (_ & _ & S). lia.
      * destruct O as (_ & _ & O & _). exact (Hf _ _ O).
    + right. right. exists k. reflexivity.
  - right; right; left. exists ERR_FILEHANDLER_CREATION. rewrite E. reflexivity.
  - right; right; right. exists Terminate. rewrite E. reflexivity.
  - right; right; left. exists c. rewrite E. reflexivity.
Qed.
(** a file that can be selected *)
Lemma select_written bd H w f p c hsz l1 l2 h rest : world_ok bd H w -> openable w f p c -> written_as c hsz l1 l2 h rest -> 104 <= hsz -> lenN c < 2 ^ 63 ->
  (bd = Debug -> hsz = hdr_len h /\ l1 = lenN (snd (h_ch1 h)) /\ l2 = lenN (snd (h_ch2 h))) ->
  selectFile w (fresh 1) f p = Ret (mkApi FILE_SELECTED 1 None (mkBytes [] 0) None (Some (decoded (lenN c) h)) (Some (mkFH p hsz (lenN c) false)), ROk).
Proof.
  intros (Wb & _ & R & _) O W L1 L2 Q. unfold selectFile. apply lt63_two64 in L2.
  assert (hsz <= lenN c) as L3 by apply W. rewrite (handler_fit w f p c hsz O L2 ltac:(lia)).
  2: { destruct (written_size _ _ _ _ _ _ W) as (r & E). exists r. split; [exact E|lia]. }
  unfold dret. cbn [bind fh_empty]. unfold fh_getDataHeader. cbn [fh_path]. rewrite (openable_stream _ _ _ _ O), Wb.
  rewrite (decode_written (w_rnd w 0) (R 0%nat) bd c hsz l1 l2 h rest L2 W).
  2: { destruct bd; [right; apply Q; reflexivity|left; reflexivity]. }
  unfold final. destruct bd; [|reflexivity]. destruct (Q eq_refl) as (-> & _ & _). rewrite N.eqb_refl. reflexivity.
Qed.

Section Calls.
  Variable H : hashes.
  Hypothesis HH : hashes_ok H.
  (** ** getDecryptedData *)
  Lemma crypt_body w d h pw k : w_hashes w = H -> holds d h -> bdata k = key_of H h pw -> exists hf s,
    hash_ok hf /\ hfun hf = hash_of H (h_hmode h) /\ hsize hf = digest_len (h_hmode h) /\ getLen k = hsize hf /\ getLen s = hsize hf /\ bdata s = h_salt h /\
    (forall data, encryptBody w k data d = via_data hf (w_fuel w) Enc k s data) /\
    (forall a x f, a_dh a = Some d -> a_key a = k -> a_file a = Some x -> decryptBody w a f = via_stream hf (w_fuel w) Dec k s (fh_dataStream w f x) (fh_dataSize x)).
  Proof.
    intros EH Hd Bk. pose proof (holds_parts d h Hd) as P. destruct (holds_good d h Hd) as (v & s & G & Bv & Bs & L1 & L2). pose proof (holds_ok d h Hd) as Hok.
    destruct (hash_mode_ok H (h_hmode h) HH (g_range _ _ _ _ G)) as (hf & Hg & Hh & Hf). pose proof (getHash_size _ _ _ Hg) as [Hs _].
    exists hf, (copyBytes s). spl; try assumption.
    - unfold getLen. rewrite Bk. unfold key_of, chain_value. rewrite <- Hf. destruct Hh as (_ & _ & K). destruct (N.to_nat _); cbn [iterated]; apply K.
    - rewrite Hs. exact (g_slen _ _ _ _ G).
    - intros data. unfold encryptBody, via_data. rewrite P. cbn [bind]. unfold p_getHashMode, p_getSalt. rewrite (g_hmode _ _ _ _ G). cbn [bind]. rewrite EH, Hg. cbn [bind].
      rewrite (g_salt _ _ _ _ G). reflexivity.
    - intros a x f A1 A2 A3. unfold decryptBody, via_stream. rewrite A1, A2, A3. cbn [ptr bind]. rewrite P. cbn [bind]. unfold p_getHashMode, p_getSalt.
      rewrite (g_hmode _ _ _ _ G). cbn [bind]. rewrite EH, Hg. cbn [bind]. rewrite (g_salt _ _ _ _ G). reflexivity.
  Qed.
  Lemma plain_of_cipher h pw data : header_ok h -> plain_of H h pw (cipher_of H h pw data) = data.
  Proof.
    intros Hok. destruct (hash_mode_ok H (h_hmode h) HH ltac:(apply Hok)) as (hf & Hg & (Hp & Hl & Hn) & Hf). pose proof (getHash_size _ _ _ Hg) as [Hs _].
    unfold plain_of, cipher_of. rewrite <- Hf, <- Hs. rewrite <- (crypt_spec_enc hf Hp Hl Hn), <- (crypt_spec_dec hf Hp Hl Hn). apply (dec_enc hf Hp Hl Hn).
  Qed.
  Lemma cipher_len h pw data : header_ok h -> lenN (cipher_of H h pw data) = lenN data.
  Proof.
    intros Hok. destruct (hash_mode_ok H (h_hmode h) HH ltac:(apply Hok)) as (hf & Hg & (Hp & Hl & Hn) & Hf). pose proof (getHash_size _ _ _ Hg) as [Hs _].
    unfold cipher_of. rewrite <- Hf, <- Hs. rewrite <- (crypt_spec_enc hf Hp Hl Hn). apply (crypt_len hf Hp Hl Hn).
  Qed.
  (** ** encryptData *)
  Definition with_dh (d : dheader) (a : api) : api := mkApi (a_state a) (a_mode a) (a_fdata a) (a_key a) (a_enc a) (Some d) (a_file a).
  Lemma set_data_size d h n : holds d h -> exists d1, setDataSize n d = Ret d1 /\ holds d1 h /\ d_fsize d1 = Some (w32 (w32 n + hdr_len h)) /\ d_bytes d1 = clearBytes (d_bytes d).
  Proof.
    intros [I C]. unfold setDataSize. rewrite (proj2 (complete_contents _ _ I)) by eauto. cbn [negb].
    set (d' := mkDH (d_parts d) (d_hsize d) (clearBytes (d_bytes d)) (d_fsize d) (d_blen d)).
    assert (hinv (h_hmode h) d') as I' by (apply hinv_bytes; exact I).
    rewrite (header_length _ d' h I' C). cbn [bind]. eexists. split; [reflexivity|]. split; [split|split; reflexivity].
    - destruct I. constructor; try assumption. cbn. intros m [= <-]. unfold w32. pose proof (N.mod_lt (n mod two32 + hdr_len h) two32 ltac:(discriminate)) as X. unfold two64, two32 in *. lia.
    - exact C.
  Qed.
  Lemma calc_plain_bytes d h hs clk : holds d h -> forall n, d_fsize d = Some n ->
    (n < hdr_len h -> calcHeaderBytes hs clk (mkBytes [] 0) d = (d, Throw InvalidArgument)) /\
    (hdr_len h <= n -> calcHeaderBytes hs clk (mkBytes [] 0) d = (with_bytes (mkBytes (ser n h) (hdr_len h)) d, Ret tt)).
  Proof.
    intros [I C] n F. rewrite (calc_spec _ hs clk _ d h I C), F. split; intros L.
    - destruct (N.ltb_spec n (hdr_len h)); [reflexivity|lia].
    - destruct (N.ltb_spec n (hdr_len h)); [lia|]. reflexivity.
  Qed.
  Lemma holds_bytes d h b : holds d h -> holds (with_bytes b d) h.
  Proof. intros [I C]. split; [apply hinv_bytes; exact I|exact C]. Qed.
  Definition ready (h : header) (n : N) (d : dheader) : Prop :=
    holds d h /\ d_fsize d = Some (hdr_len h + n) /\ d_bytes d = mkBytes (ser (hdr_len h + n) h) (hdr_len h).
  Lemma encrypt_ok w a x d h pw data : w_hashes w = H -> a_mode a = 1 -> a_dh a = Some d -> holds d h -> bdata (a_key a) = key_of H h pw ->
    x = Some (mkFD (Some 1) (Some data)) -> getLen data < 2 ^ 31 -> (N.to_nat (getLen data) + 2 <= w_fuel w)%nat ->
    exists res d2, encryptData w a x = Ret (mkApi ENCRYPTED 1 (Some (mkFD (Some 1) None)) (a_key a) (Some res) (Some d2) (a_file a), ROk) /\
      bdata res = cipher_of H h pw (bdata data) /\ ready h (getLen data) d2.
  Proof.
    intros EH Em Ed Hd Bk -> L Hf. unfold encryptData. cbn [ptr bind fd_mode fd_data]. rewrite Em, Ed. cbn [N.eqb Pos.eqb negb ptr bind].
    destruct (set_data_size d h (getLen data) Hd) as (d1 & -> & Hd1 & F1 & B1). cbn [try_ dret bind].
    pose proof (hdr_len_small h (holds_ok _ _ Hd)) as Ls. change (2 ^ 31) with 2147483648 in L.
    rewrite w32_small in F1 by (rewrite (w32_small (getLen data)); unfold two32; lia). rewrite (w32_small (getLen data)) in F1 by (unfold two32; lia).
    destruct (calc_plain_bytes d1 h (w_hashes w) (w_clk1 w) Hd1 _ F1) as [_ ->]; [|lia].
    assert (getLen data + hdr_len h = hdr_len h + getLen data) as Ec by lia. rewrite Ec in *.
    set (d2 := with_bytes _ d1). assert (holds d2 h) as Hd2 by (apply holds_bytes; exact Hd1).
    destruct (crypt_body w d2 h pw (a_key a) EH Hd2 Bk) as (hf & s & Hh & Ef & Es & Lk & Lsa & Bs & Eb & _). cbn [bind]. rewrite Eb.
    destruct (via_data_ok hf Hh (w_fuel w) Enc (a_key a) s data Lk Lsa L Hf) as (res & -> & Br). cbn [try_ dret bind noexcept].
    exists res, d2. split; [reflexivity|]. split.
    - rewrite Br. cbn [spec_k]. rewrite Ef, Es, Bk, Bs. reflexivity.
    - split; [exact Hd2|]. split; [exact F1|reflexivity].
  Qed.
  Lemma encrypt_inv w a x d h pw a' r : w_hashes w = H -> a_mode a = 1 -> a_dh a = Some d -> holds d h -> bdata (a_key a) = key_of H h pw ->
    op_ok (OEncrypt x) -> encryptData w a x = Ret (a', r) ->
    (exists c, a' = a /\ r = failed c) \/
    (exists d1 c, holds d1 h /\ a' = with_dh d1 a /\ r = failed c) \/
    (exists data res d2, x = Some (mkFD (Some 1) (Some data)) /\ getLen data < 2 ^ 31 /\
       a' = mkApi ENCRYPTED 1 (Some (mkFD (Some 1) None)) (a_key a) (Some res) (Some d2) (a_file a) /\ r = ROk /\
       bdata res = cipher_of H h pw (bdata data) /\ ready h (getLen data) d2).
  Proof.
    intros EH Em Ed Hd Bk Ho E. unfold encryptData in E. destruct x as [[fm fd]|]; [|discriminate]. cbn [ptr bind fd_mode fd_data] in E.
    destruct fm as [m|]; [|left; injection E as <- <-; eauto]. rewrite Em in E.
    destruct (N.eqb_spec m 1) as [->|Nm]; cbn [negb] in E; [|left; injection E as <- <-; eauto].
    destruct fd as [data|]; [|discriminate]. cbn [ptr bind] in E. rewrite Ed in E. cbn [ptr bind] in E. specialize (Ho data eq_refl).
    destruct (set_data_size d h (getLen data) Hd) as (d1 & E1 & Hd1 & F1 & B1). rewrite E1 in E. cbn [try_ dret bind] in E.
    destruct (calc_plain_bytes d1 h (w_hashes w) (w_clk1 w) Hd1 _ F1) as [C1 C2].
    destruct (N.ltb_spec (w32 (w32 (getLen data) + hdr_len h)) (hdr_len h)) as [Lt|Ge].
    { rewrite (C1 Lt) in E. cbn in E. injection E as <- <-. right; left. exists d1, ERR. rewrite <- Em. spl; try reflexivity. exact Hd1. }
    rewrite (C2 Ge) in E. set (d2 := with_bytes _ d1) in *. assert (holds d2 h) as Hd2 by (apply holds_bytes; exact Hd1).
    destruct (crypt_body w d2 h pw (a_key a) EH Hd2 Bk) as (hf & s & Hh & Ef & Es & Lk & Lsa & Bs & Eb & _). cbn [bind] in E. rewrite Eb in E.
    destruct (via_data hf (w_fuel w) Enc (a_key a) s data) as [res|e|c|] eqn:V; cbn [try_ bind noexcept dret] in E; try discriminate.
    - destruct (via_data_inv hf Hh _ _ _ _ _ _ Ho V) as (_ & _ & L & Br). right; right. exists data, res, d2. injection E as <- <-.
      pose proof (hdr_len_small h (holds_ok _ _ Hd)) as Ls. pose proof L as L'. change (2 ^ 31) with 2147483648 in L'.
      rewrite w32_small in F1 by (rewrite (w32_small (getLen data)); unfold two32; lia). rewrite (w32_small (getLen data)) in F1 by (unfold two32; lia).
      spl; try assumption; try reflexivity.
      + rewrite Br. cbn [spec_k]. rewrite Ef, Es, Bk, Bs. reflexivity.
      + split; [exact Hd2|]. split; [rewrite N.add_comm; exact F1|]. subst d2. unfold with_bytes. cbn [d_bytes]. do 2 f_equal. rewrite w32_small by (rewrite (w32_small (getLen data)); unfold two32; lia). rewrite (w32_small (getLen data)) by (unfold two32; lia). lia.
    - destruct e; cbn [any_std dfail] in E; try discriminate; injection E as <- <-; right; left; exists d2, ERR; rewrite <- Em; spl; try reflexivity; exact Hd2.
  Qed.
End Calls.
