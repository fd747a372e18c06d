(** The stream decoder: the whole file. *)
From Coq Require Import Strings.Byte.
From Verif Require Import Base BaseFacts BytesModel BytesSpec BytesFacts BytesFacts2 CipherModel CipherFacts PwModel PwFacts
  MiscModel MiscFacts ChModel ChSpec ChFacts ChFacts2 HeaderModel HeaderSpec HeaderFacts HeaderFacts2 HeaderFacts3 HeaderFacts4.

(** ** the part up to the plain blocks *)
Definition start (rnd : N -> bytes) (hm : N) : dheader :=
  mkDH (mkParts (Some hm) None None (Some (mkBytes (rnd (digest_len hm)) (digest_len hm))) [] [] ch_default ch_default)
    (digest_len hm) (mkBytes [] 0) None 0.
Definition tail2 (bd : build) (file : bytes) (fs hsz : N) (d : dheader) (s : bytes) : dres (dheader * bytes) :=
  '(v, s) <~ need ERR_NOT_ENOUGH_DATA (readBytes (d_hsize d) (Z.of_N (d_hsize d)) s) ;;
  d <~ try_ (any_std ERR) (setValidPasswordHashBytes (mkBytes v (d_hsize d)) d) ;;
  '(sa, s) <~ need ERR_NOT_ENOUGH_DATA (readBytes (d_hsize d) (Z.of_N (d_hsize d)) s) ;;
  d <~ try_ (any_std ERR) (d_setEncSalt (mkBytes sa (d_hsize d)) d) ;;
  d <~ try_ (only_invalid ERR_FILESIZE_INVALID) (setFileSize fs d) ;;
  '(count, s) <~ need ERR_NOT_ENOUGH_DATA (read1 s) ;;
  '(d, s) <~ s_encs (N.to_nat count) d s ;;
  d <~ try_ (any_std ERR) (calc_plain d) ;;
  l <~ lift (getHeaderLength d) ;;
  _ <~ dassert bd (lenN file - lenN s =? l) ;;
  _ <~ dassert bd (l =? hsz) ;;
  dret (d, s).
Definition tail1 (bd : build) (file : bytes) (fs hsz : N) (d : dheader) (s : bytes) : dres (dheader * bytes) :=
  '(d, s) <~ s_chain bd ERR_CHAINHASH1_INVALID (set_of true) d s ;;
  '(d, s) <~ s_chain bd ERR_CHAINHASH2_INVALID (set_of false) d s ;;
  tail2 bd file fs hsz d s.
Definition tail0 (bd : build) (file : bytes) (fs hsz count : N) (d : dheader) (s : bytes) : dres (dheader * bytes) :=
  '(d, s) <~ s_blocks (N.to_nat count) d s ;; tail1 bd file fs hsz d s.

Lemma new_start rnd hm : (forall k, lenN (rnd k) = k) -> 1 <= hm <= 3 -> newDataHeader rnd hm = Ret (start rnd hm).
Proof. intros Hr V. destruct (new_ret rnd hm Hr V) as [d E]. destruct (new_inv rnd hm d Hr E) as [_ ->]. exact E. Qed.
Definition salt0 (rnd : N -> bytes) (hm : N) : Bytes := mkBytes (rnd (digest_len hm)) (digest_len hm).
Lemma decode_pre bd rnd file hsz hm n r : (forall k, lenN (rnd k) = k) ->
  pre_ok file hsz hm [] -> n < 256 -> file = pre (lenN file) hsz hm n [] ++ r ->
  decode_stream bd rnd file = noexcept (tail0 bd file (lenN file) hsz n (D hm None (salt0 rnd hm) [] [] ch_default ch_default None) r).
Proof.
  intros Hr (Hf & Hh & V & _) Hn E. unfold decode_stream. f_equal.
  transitivity ('(file_size, s) <~ read8 (pre (lenN file) hsz hm n [] ++ r) ;;
    '(header_size, s) <~ read8 s ;;
    if negb (lenN file =? file_size) then dfail ERR_FILESIZE_INVALID
    else if file_size <? header_size then dfail ERR_HEADERSIZE_FILESIZE_MISMATCH
    else
      '(fmode, s) <~ need ERR_NOT_ENOUGH_DATA (read1 s) ;;
      '(hmode, s) <~ need ERR_NOT_ENOUGH_DATA (read1 s) ;;
      d <~ try_ (only_invalid ERR_HASHMODE_INVALID) (newDataHeader rnd hmode) ;;
      d <~ try_ (only_invalid ERR_FILEMODE_INVALID) (d_setFileDataMode fmode d) ;;
      '(count, s) <~ need ERR_NOT_ENOUGH_DATA (read1 s) ;;
      tail0 bd file file_size header_size count d s).
  { rewrite <- E. reflexivity. }
  unfold pre. rewrite <- !app_assoc. rewrite read8_u64 by exact Hf. cbn [dbind dret]. rewrite read8_u64 by lia. cbn [dbind dret].
  rewrite N.eqb_refl. cbn [negb]. destruct (N.ltb_spec (lenN file) hsz); [lia|].
  rewrite read1_u8 by lia. cbn [need dbind dret]. rewrite read1_u8 by lia. cbn [need dbind dret]. rewrite (new_start rnd hm Hr V). cbn [try_ dbind dret].
  change (d_setFileDataMode 1 (start rnd hm)) with (Ret (D hm None (salt0 rnd hm) [] [] ch_default ch_default None)). cbn [try_ dbind dret].
  rewrite read1_u8 by exact Hn. reflexivity.
Qed.
Lemma decode_blocks bd rnd file hsz hm bs r : (forall k, lenN (rnd k) = k) ->
  pre_ok file hsz hm bs -> file = pre (lenN file) hsz hm (lenN bs) bs ++ r ->
  decode_stream bd rnd file = noexcept (tail1 bd file (lenN file) hsz (D hm None (salt0 rnd hm) bs [] ch_default ch_default None) r).
Proof.
  intros Hr (Hf & Hh & V & G & L) E. rewrite (decode_pre bd rnd file hsz hm (lenN bs) (concat (map ser_block bs) ++ r) Hr).
  - f_equal. unfold tail0. replace (N.to_nat (lenN bs)) with (length bs) by (unfold lenN; lia). rewrite (blocks_fwd hm None (salt0 rnd hm) _ _ None bs [] r G L). reflexivity.
  - repeat split; try assumption; try lia; try constructor. vm_compute. discriminate.
  - lia.
  - unfold pre in *. cbn [map concat]. rewrite app_nil_r. rewrite <- !app_assoc in *. exact E.
Qed.
Lemma decode_zero bd rnd file : (forall k, lenN (rnd k) = k) -> zero_block file -> decode_stream bd rnd file = Crash Terminate.
Proof.
  intros Hr (hsz & hm & n & bs & ty & r & (Hf & Hh & V & G & L) & Hn & Hn' & Ht & E).
  rewrite (decode_pre bd rnd file hsz hm n (concat (map ser_block bs) ++ u8 ty ++ u8 0 ++ r) Hr).
  - unfold tail0. rewrite (blocks_zero hm None (salt0 rnd hm) _ _ None bs _ [] ty r G L); [reflexivity| |exact Ht]. unfold lenN in Hn. lia.
  - repeat split; try assumption; try lia; try constructor. vm_compute. discriminate.
  - exact Hn'.
  - unfold pre in *. cbn [map concat]. rewrite app_nil_r. rewrite <- !app_assoc in *. exact E.
Qed.
Definition rejected (file : bytes) : Prop :=
  exists e, forall bd rnd, (forall k, lenN (rnd k) = k) -> decode_stream bd rnd file = Ret (inl e).
Lemma pre_cases file : lenN file < two64 ->
  (exists hsz hm bs r, pre_ok file hsz hm bs /\ file = pre (lenN file) hsz hm (lenN bs) bs ++ r) \/ zero_block file \/ rejected file.
Proof.
  intros Hf.
  destruct (read8_cases file) as [(fs & s1 & Hfs & E1)|[E _]].
  2:{ right; right. exists ERR_NOT_ENOUGH_DATA. intros. unfold decode_stream. rewrite E. reflexivity. }
  destruct (read8_cases s1) as [(hsz & s2 & Hhs & E2)|[E _]].
  2:{ right; right. exists ERR_NOT_ENOUGH_DATA. intros. unfold decode_stream. rewrite E1, read8_u64 by exact Hfs. cbn [dbind dret]. rewrite E. reflexivity. }
  subst s1.
  destruct (N.eqb_spec (lenN file) fs) as [Efs|Efs].
  2:{ right; right. exists ERR_FILESIZE_INVALID. intros. unfold decode_stream. rewrite E1 at 1. rewrite read8_u64 by exact Hfs. cbn [dbind dret].
      rewrite read8_u64 by exact Hhs. cbn [dbind dret]. destruct (N.eqb_spec (lenN file) fs); [congruence|reflexivity]. }
  destruct (N.leb_spec hsz fs) as [Hle|Hle].
  2:{ right; right. exists ERR_HEADERSIZE_FILESIZE_MISMATCH. intros. unfold decode_stream. rewrite E1 at 1. rewrite read8_u64 by exact Hfs. cbn [dbind dret].
      rewrite read8_u64 by exact Hhs. cbn [dbind dret]. rewrite Efs, N.eqb_refl. cbn [negb]. destruct (N.ltb_spec fs hsz); [reflexivity|lia]. }
  assert (forall bd rnd, decode_stream bd rnd file = noexcept (
      '(fmode, s) <~ need ERR_NOT_ENOUGH_DATA (read1 s2) ;;
      '(hmode, s) <~ need ERR_NOT_ENOUGH_DATA (read1 s) ;;
      d <~ try_ (only_invalid ERR_HASHMODE_INVALID) (newDataHeader rnd hmode) ;;
      d <~ try_ (only_invalid ERR_FILEMODE_INVALID) (d_setFileDataMode fmode d) ;;
      '(count, s) <~ need ERR_NOT_ENOUGH_DATA (read1 s) ;;
      tail0 bd file (lenN file) hsz count d s)) as K.
  { intros. transitivity (noexcept ('(file_size, s) <~ read8 (u64 fs ++ u64 hsz ++ s2) ;;
    '(header_size, s) <~ read8 s ;;
    if negb (lenN file =? file_size) then dfail ERR_FILESIZE_INVALID
    else if file_size <? header_size then dfail ERR_HEADERSIZE_FILESIZE_MISMATCH
    else
      '(fmode, s) <~ need ERR_NOT_ENOUGH_DATA (read1 s) ;;
      '(hmode, s) <~ need ERR_NOT_ENOUGH_DATA (read1 s) ;;
      d <~ try_ (only_invalid ERR_HASHMODE_INVALID) (newDataHeader rnd hmode) ;;
      d <~ try_ (only_invalid ERR_FILEMODE_INVALID) (d_setFileDataMode fmode d) ;;
      '(count, s) <~ need ERR_NOT_ENOUGH_DATA (read1 s) ;;
      tail0 bd file file_size header_size count d s)); [rewrite <- E1; reflexivity|].
    rewrite read8_u64 by exact Hfs. cbn [dbind dret]. rewrite read8_u64 by exact Hhs. cbn [dbind dret]. rewrite Efs, N.eqb_refl. cbn [negb].
    destruct (N.ltb_spec fs hsz); [lia|]. reflexivity. }
  destruct (read1_cases s2) as [(fm & s3 & Hfm & ->)| ->].
  2:{ right; right. exists ERR_NOT_ENOUGH_DATA. intros. rewrite K. reflexivity. }
  destruct (read1_cases s3) as [(hm & s4 & Hhm & ->)| ->].
  2:{ right; right. exists ERR_NOT_ENOUGH_DATA. intros. rewrite K, read1_u8 by exact Hfm. reflexivity. }
  destruct (hash_mode_valid hm) eqn:V.
  2:{ right; right. exists ERR_HASHMODE_INVALID. intros. rewrite K, read1_u8 by exact Hfm. cbn [need dbind dret]. rewrite read1_u8 by exact Hhm. cbn [need dbind dret].
      unfold newDataHeader, p_setHashMode. rewrite V. reflexivity. }
  apply hash_mode_valid_spec in V.
  destruct (N.eq_dec fm 1) as [->|Hf1].
  2:{ right; right. exists ERR_FILEMODE_INVALID. intros bd rnd Hr. rewrite K, read1_u8 by exact Hfm. cbn [need dbind dret]. rewrite read1_u8 by exact Hhm. cbn [need dbind dret].
      rewrite (new_start rnd hm Hr V). cbn [try_ dbind dret]. unfold d_setFileDataMode, p_setFileDataMode.
      destruct (file_mode_valid fm) eqn:F; [apply file_mode_valid_spec in F; congruence|reflexivity]. }
  destruct (read1_cases s4) as [(n & s5 & Hn & ->)| ->].
  2:{ right; right. exists ERR_NOT_ENOUGH_DATA. intros bd rnd Hr. rewrite K, read1_u8 by exact Hfm. cbn [need dbind dret]. rewrite read1_u8 by exact Hhm. cbn [need dbind dret].
      rewrite (new_start rnd hm Hr V). reflexivity. }
  destruct (blocks_cases (N.to_nat n) s5) as [(bs & r & Lb & G & ->)|[(bs & ty & r & Lb & G & Ht & ->)|F]].
  - left. exists hsz, hm, bs, r. assert (lenN bs = n) as Ln by (unfold lenN; lia). split.
    + repeat split; try assumption; lia.
    + rewrite Ln. unfold pre. rewrite <- !app_assoc. rewrite Efs. exact E1.
  - right; left. exists hsz, hm, n, bs, ty, r. assert (lenN bs < n) as Ln by (unfold lenN; lia). split; [repeat split; try assumption; lia|].
    spl; try assumption. unfold pre. rewrite <- !app_assoc. rewrite Efs. exact E1.
  - right; right. exists ERR_NOT_ENOUGH_DATA. intros bd rnd Hr. rewrite K, read1_u8 by exact Hfm. cbn [need dbind dret]. rewrite read1_u8 by exact Hhm. cbn [need dbind dret].
    rewrite (new_start rnd hm Hr V). cbn [try_ dbind dret].
    change (d_setFileDataMode 1 (start rnd hm)) with (Ret (D hm None (salt0 rnd hm) [] [] ch_default ch_default None)). cbn [try_ dbind dret].
    rewrite read1_u8 by exact Hn. cbn [need dbind dret]. unfold tail0. rewrite F; [reflexivity|constructor|]. change (lenN (@nil (N * bytes))) with 0. lia.
Qed.

(** ** the part behind the chain hashes *)
Definition full (hm : N) (bs : list (N * bytes)) (c1 c2 : N * N * bytes) (v s : bytes) (es : list (N * N * bytes)) : header :=
  mkHeader 1 hm bs c1 c2 v s es.
Definition obj (fs : option N) (h : header) : dheader :=
  D (h_hmode h) (Some (mkBytes (h_valid h) (digest_len (h_hmode h)))) (mkBytes (h_salt h) (digest_len (h_hmode h)))
    (h_blocks h) (h_encs h) (to_ch (h_ch1 h)) (to_ch (h_ch2 h)) fs.
(** the object that the decoders build *)
Definition decoded (fs : N) (h : header) : dheader := with_bytes (mkBytes (ser fs h) (hdr_len h)) (obj (Some fs) h).

Lemma plain_blocks_map bs : map (fun b => (db_type b, bdata (db_data b))) (map to_db bs) = bs.
Proof. rewrite map_map. rewrite <- (map_id bs) at 2. apply map_ext. intros []. reflexivity. Qed.
Lemma plain_encs_map es : map (fun e => (db_type (eb_block e), eb_len e, bdata (db_data (eb_block e)))) (map to_eb es) = es.
Proof. rewrite map_map. rewrite <- (map_id es) at 2. apply map_ext. intros [[] ?]. reflexivity. Qed.
Lemma obj_contents fs h : h_fmode h = 1 -> contents (obj fs h) = Some h.
Proof.
  intros Hf. unfold contents, obj, D. cbn [d_parts p_fmode p_hmode p_ch1 p_ch2 p_valid p_salt p_dec p_enc].
  rewrite plain_blocks_map, plain_encs_map. destruct h as [fm hm bs [[m1 i1] x1] [[m2 i2] x2] v s es]. cbn [h_fmode] in Hf. subst fm. reflexivity.
Qed.
Lemma obj_hinv fs h : header_ok h -> (forall n, fs = Some n -> n < two64) -> hinv (h_hmode h) (obj fs h).
Proof.
  intros (Hf & V & Nb & B & C1 & C2 & Lv & Ls & Ne & E) Hfs. unfold obj, D. constructor; unfold plain_blocks, plain_encs;
    cbn [d_parts p_fmode p_hmode p_ch1 p_ch2 p_valid p_salt p_dec p_enc d_hsize d_fsize d_blen]; rewrite ?plain_blocks_map, ?plain_encs_map; try assumption; try reflexivity.
  - intros m [= <-]. reflexivity.
  - intros b [= <-]. exact Lv.
  - eexists. split; [reflexivity|]. exact Ls.
  - apply to_ch_inv. exact C1.
  - apply to_ch_inv. exact C2.
Qed.
Lemma decoded_hinv fs h : header_ok h -> fs < two64 -> hinv (h_hmode h) (decoded fs h).
Proof. intros Hh Hf. apply hinv_bytes. apply obj_hinv; [exact Hh|]. intros n [= <-]. exact Hf. Qed.
Lemma decoded_contents fs h : header_ok h -> contents (decoded fs h) = Some h.
Proof. intros (Hf & _). apply (obj_contents (Some fs) h Hf). Qed.
Lemma decoded_bytes fs h : header_ok h -> bytes_ok (decoded fs h).
Proof. intros Hh. right. left. exists fs, h. split; [reflexivity|]. split; [apply decoded_contents; exact Hh|reflexivity]. Qed.

Lemma set_size_obj h fs : header_ok h -> setFileSize fs (obj None h) = if fs <? hdr_len h then Throw InvalidArgument else Ret (obj (Some fs) h).
Proof.
  intros Hh. pose proof (obj_hinv None h Hh ltac:(discriminate)) as I. pose proof (obj_contents None h (proj1 Hh)) as C.
  unfold setFileSize. assert (d_isComplete (obj None h) = true) as -> by (apply (complete_contents _ _ I); eauto). cbn [negb].
  rewrite (header_length _ _ h I C). reflexivity.
Qed.
Lemma calc_obj h fs : header_ok h -> hdr_len h <= fs -> fs < two64 -> calc_plain (obj (Some fs) h) = Ret (decoded fs h).
Proof.
  intros Hh L Hf. assert (hinv (h_hmode h) (obj (Some fs) h)) as I by (apply obj_hinv; [exact Hh|intros n [= <-]; exact Hf]).
  pose proof (obj_contents (Some fs) h (proj1 Hh)) as C. unfold calc_plain.
  rewrite (calc_spec _ _ _ _ _ h I C). cbn [obj D d_fsize]. destruct (N.ltb_spec fs (hdr_len h)); [lia|]. reflexivity.
Qed.
Definition final (bd : build) (hsz fs : N) (h : header) (rest : bytes) : dres (dheader * bytes) :=
  match bd with
  | Debug => if hdr_len h =? hsz then dret (decoded fs h, rest) else Crash AssertFail
  | Release => dret (decoded fs h, rest)
  end.
Definition no_encs (h : header) : header := mkHeader (h_fmode h) (h_hmode h) (h_blocks h) (h_ch1 h) (h_ch2 h) (h_valid h) (h_salt h) [].
Lemma no_encs_ok h : header_ok h -> header_ok (no_encs h).
Proof.
  intros (A1 & A2 & A3 & A4 & A5 & A6 & A7 & A8 & _ & _). unfold header_ok, no_encs.
  cbn [h_fmode h_hmode h_blocks h_ch1 h_ch2 h_valid h_salt h_encs]. spl; try assumption; try lia; try constructor. vm_compute. discriminate.
Qed.
Lemma no_encs_len h : hdr_len (no_encs h) <= hdr_len h.
Proof.
  unfold hdr_len, no_encs. cbn [h_hmode h_blocks h_ch1 h_ch2 h_encs]. change (lenN (@nil (N * N * bytes))) with 0. lia.
Qed.
Definition bare (h : header) (sa : Bytes) : dheader := D (h_hmode h) None sa (h_blocks h) [] (to_ch (h_ch1 h)) (to_ch (h_ch2 h)) None.
(** validator and salt *)
Lemma setValid_D hm v sa bs es c1 c2 fs x : getLen x = digest_len hm ->
  setValidPasswordHashBytes x (D hm v sa bs es c1 c2 fs) = Ret (D hm (Some (copyBytes x)) sa bs es c1 c2 fs).
Proof.
  intros L. unfold setValidPasswordHashBytes, p_setValid, p_getHashSize, D. cbn [d_parts p_hmode bind]. rewrite L, hash_size_digest, N.eqb_refl. reflexivity.
Qed.
Lemma read_pair bd file fs hsz h sa s : lenN (h_valid h) = digest_len (h_hmode h) -> lenN (h_salt h) = digest_len (h_hmode h) -> 1 <= h_hmode h <= 3 ->
  tail2 bd file fs hsz (bare h sa) (h_valid h ++ h_salt h ++ s) =
  (d <~ try_ (only_invalid ERR_FILESIZE_INVALID) (setFileSize fs (obj None (no_encs h))) ;;
  '(count, s) <~ need ERR_NOT_ENOUGH_DATA (read1 s) ;;
  '(d, s) <~ s_encs (N.to_nat count) d s ;;
  d <~ try_ (any_std ERR) (calc_plain d) ;;
  l <~ lift (getHeaderLength d) ;;
  _ <~ dassert bd (lenN file - lenN s =? l) ;;
  _ <~ dassert bd (l =? hsz) ;;
  dret (d, s)).
Proof.
  intros Lv Ls V. unfold tail2. change (d_hsize (bare h sa)) with (digest_len (h_hmode h)).
  assert (digest_len (h_hmode h) < two32) as Hd by (unfold two32; destruct (digest_cases _ V) as [->|[->| ->]]; lia).
  rewrite readBytes_N by exact Hd. rewrite read_n_eq by lia. cbn [need dbind dret].
  unfold setValidPasswordHashBytes, p_setValid, p_getHashSize. cbn [bare D d_parts p_hmode bind]. rewrite hash_size_digest. unfold getLen. cbn [bdata].
  rewrite Lv, N.eqb_refl. cbn [try_ dbind dret]. unfold d_with. cbn [d_hsize bind].
  cbn [try_ dbind dret d_hsize]. change (d_hsize (bare h sa)) with (digest_len (h_hmode h)). rewrite readBytes_N by exact Hd. rewrite read_n_eq by lia. cbn [need dbind dret].
  unfold d_setEncSalt, p_setSalt, p_getHashSize. cbn [d_parts p_hmode bind]. rewrite hash_size_digest. unfold getLen. cbn [bdata].
  rewrite Ls, N.eqb_refl. reflexivity.
Qed.
Lemma tail2_fwd bd file fs hsz h sa rest : header_ok h -> hdr_len h <= fs -> fs < two64 -> lenN file = hdr_len h + lenN rest ->
  tail2 bd file fs hsz (bare h sa) (h_valid h ++ h_salt h ++ u8 (lenN (h_encs h)) ++ concat (map ser_enc (h_encs h)) ++ rest) = final bd hsz fs h rest.
Proof.
  intros Hh L Hf Hl. pose proof Hh as (A1 & A2 & A3 & A4 & A5 & A6 & A7 & A8 & A9 & A10).
  rewrite (read_pair bd file fs hsz h sa _ A7 A8 A2), (set_size_obj _ fs (no_encs_ok h Hh)). pose proof (no_encs_len h).
  destruct (N.ltb_spec fs (hdr_len (no_encs h))); [lia|]. cbn [try_ dbind dret]. rewrite read1_u8 by lia. cbn [need dbind dret].
  replace (N.to_nat (lenN (h_encs h))) with (length (h_encs h)) by (unfold lenN; lia).
  unfold obj at 1. rewrite (encs_fwd _ _ _ _ _ _ _ (conj A4 A3) (h_encs h) [] rest A10 A9). cbn [dbind dret].
  change (calc_plain _) with (calc_plain (obj (Some fs) h)). rewrite (calc_obj h fs Hh L Hf). cbn [try_ dbind dret].
  rewrite (header_length _ _ h (decoded_hinv fs h Hh Hf) (decoded_contents fs h Hh)). unfold lift. cbn [bind dbind dret].
  replace (lenN file - lenN rest) with (hdr_len h) by lia. rewrite N.eqb_refl. unfold dassert, assertC, final.
  destruct bd; cbn [dbind dret]; [|reflexivity]. destruct (hdr_len h =? hsz); reflexivity.
Qed.
Definition no_tail (hm : N) (bs : list (N * bytes)) (c1 c2 : N * N * bytes) : Prop :=
  1 <= hm <= 3 /\ lenN bs <= 255 /\ Forall block_ok bs /\ chain_ok c1 /\ chain_ok c2.
Lemma tail2_cases hm bs c1 c2 file fs s : no_tail hm bs c1 c2 ->
  (exists h rest, header_ok h /\ h_hmode h = hm /\ h_blocks h = bs /\ h_ch1 h = c1 /\ h_ch2 h = c2 /\
     s = h_valid h ++ h_salt h ++ u8 (lenN (h_encs h)) ++ concat (map ser_enc (h_encs h)) ++ rest) \/
  (exists e, forall bd hsz sa, tail2 bd file fs hsz (D hm None sa bs [] (to_ch c1) (to_ch c2) None) s = dfail e).
Proof.
  intros (V & Nb & B & C1 & C2).
  assert (digest_len hm < two32) as Hd by (unfold two32; destruct (digest_cases _ V) as [->|[->| ->]]; lia).
  destruct (read_n_cases (digest_len hm) (digest_len hm) s ltac:(lia)) as [(v & s1 & Lv & ->)|[E _]].
  2:{ right. exists ERR_NOT_ENOUGH_DATA. intros. unfold tail2. cbn [D d_hsize]. rewrite readBytes_N by exact Hd. rewrite E. reflexivity. }
  destruct (read_n_cases (digest_len hm) (digest_len hm) s1 ltac:(lia)) as [(sa & s2 & Ls & ->)|[E _]].
  2:{ right. exists ERR_NOT_ENOUGH_DATA. intros. unfold tail2. cbn [D d_hsize]. rewrite readBytes_N by exact Hd. rewrite read_n_eq by lia. cbn [need dbind dret].
      fold (D hm None sa bs [] (to_ch c1) (to_ch c2) None). rewrite setValid_D by exact Lv. cbn [try_ dbind dret D d_hsize]. rewrite readBytes_N by exact Hd. rewrite E. reflexivity. }
  set (h0 := mkHeader 1 hm bs c1 c2 v sa []).
  assert (header_ok h0) as H0.
  { unfold header_ok, h0. cbn [h_fmode h_hmode h_blocks h_ch1 h_ch2 h_valid h_salt h_encs]. spl; try assumption; try lia; try apply V; try constructor. vm_compute. discriminate. }
  assert (forall bd hsz sa0, tail2 bd file fs hsz (D hm None sa0 bs [] (to_ch c1) (to_ch c2) None) (v ++ sa ++ s2) = 
    (d <~ try_ (only_invalid ERR_FILESIZE_INVALID) (setFileSize fs (obj None h0)) ;;
    '(count, s) <~ need ERR_NOT_ENOUGH_DATA (read1 s2) ;;
    '(d, s) <~ s_encs (N.to_nat count) d s ;;
    d <~ try_ (any_std ERR) (calc_plain d) ;;
    l <~ lift (getHeaderLength d) ;;
    _ <~ dassert bd (lenN file - lenN s =? l) ;;
    _ <~ dassert bd (l =? hsz) ;;
    dret (d, s))) as K.
  { intros. exact (read_pair bd file fs hsz h0 sa0 s2 Lv Ls V). }
  rewrite (set_size_obj h0 fs H0) in K.
  destruct (fs <? hdr_len h0); [right; exists ERR_FILESIZE_INVALID; intros; rewrite K; reflexivity|]. cbn [try_ dbind dret] in K.
  destruct (read1_cases s2) as [(n & s3 & Hn & ->)| ->]; [|right; exists ERR_NOT_ENOUGH_DATA; intros; rewrite K; reflexivity].
  rewrite read1_u8 in K by exact Hn. cbn [need dbind dret] in K.
  destruct (encs_cases (N.to_nat n) s3) as [(es & rest & Le & E & ->)|F].
  - left. exists (mkHeader 1 hm bs c1 c2 v sa es), rest. cbn [h_fmode h_hmode h_blocks h_ch1 h_ch2 h_valid h_salt h_encs].
    assert (lenN es = n) as Ln by (unfold lenN; lia). rewrite Ln. spl; try reflexivity.
    unfold header_ok. cbn [h_fmode h_hmode h_blocks h_ch1 h_ch2 h_valid h_salt h_encs]. spl; try assumption; try lia; try apply V.
  - right. exists ERR_NOT_ENOUGH_DATA. intros. rewrite K. unfold obj at 1. cbn [h_encs h0 h_blocks].
    rewrite F; [reflexivity|split; assumption|]. change (lenN (@nil (N * N * bytes))) with 0. lia.
Qed.

(** ** the whole file *)
Lemma layout_pre fs hsz l1 l2 h rest : h_fmode h = 1 ->
  layout_with fs hsz l1 l2 h ++ rest =
  pre fs hsz (h_hmode h) (lenN (h_blocks h)) (h_blocks h) ++ ser_chain l1 (h_ch1 h) ++ ser_chain l2 (h_ch2 h) ++
  h_valid h ++ h_salt h ++ u8 (lenN (h_encs h)) ++ concat (map ser_enc (h_encs h)) ++ rest.
Proof. intros E. unfold layout_with, pre. rewrite E, <- !app_assoc. reflexivity. Qed.
Lemma chain_res_ok bd code c lb d' r : chain_ok c -> bd = Release \/ lb = lenN (snd c) -> chain_res bd code c lb d' r = dret (d', r).
Proof.
  intros (_ & Hi & _) Hb. unfold chain_res. apply iters_ok_spec in Hi. rewrite Hi. destruct bd; [|reflexivity].
  destruct Hb as [Hb|Hb]; [discriminate|]. rewrite Hb, N.eqb_refl. reflexivity.
Qed.
Lemma chain_res_bad code c lb d' r : lb <> lenN (snd c) -> chain_res Debug code c lb d' r = Crash AssertFail.
Proof. intros Hb. unfold chain_res. destruct (N.eqb_spec (lenN (snd c)) lb); [congruence|reflexivity]. Qed.
Lemma shape_of c lb : chain_ok c -> lb_ok (fst (fst c)) (snd c) lb -> lb < 256 -> chain_shape c lb.
Proof. intros (A & B & C) L L'. unfold chain_shape. spl; try assumption; try apply A. unfold two64. lia. Qed.
Lemma shape_own c : chain_ok c -> chain_shape c (lenN (snd c)).
Proof.
  intros Hc. apply shape_of; [exact Hc|intros _; reflexivity|]. destruct Hc as (_ & _ & F). apply data_fits_len in F. lia.
Qed.
Lemma good_blocks h : header_ok h -> no_empty_block h -> Forall good (h_blocks h).
Proof.
  intros (_ & _ & _ & B & _) E. unfold no_empty_block in E. rewrite Forall_forall in *. intros x Hx. split; auto.
Qed.
Lemma chain_res_cases bd code c lb d' r : chain_shape c lb ->
  (bd = Debug /\ lb <> lenN (snd c)) \/ chain_res bd code c lb d' r = dfail code \/
  (chain_ok c /\ (bd = Debug -> lb = lenN (snd c)) /\ chain_res bd code c lb d' r = dret (d', r)).
Proof.
  intros (S1 & S2 & S3 & S4 & S5). unfold chain_res. destruct (iters_ok (snd (fst c))) eqn:Ei.
  - apply iters_ok_spec in Ei. assert (chain_ok c) as Hc by (split; [|split]; assumption).
    destruct bd; [|right; right; spl; [exact Hc|discriminate|reflexivity]].
    destruct (N.eqb_spec (lenN (snd c)) lb); [right; right; auto|left; auto].
  - destruct bd; [|auto]. destruct (N.eqb_spec (lenN (snd c)) lb); auto.
Qed.
Section Whole.
Variable rnd : N -> bytes.
Hypothesis Hr : forall k, lenN (rnd k) = k.
Lemma decode_written bd file hsz l1 l2 h rest : lenN file < two64 -> written_as file hsz l1 l2 h rest ->
  bd = Release \/ (l1 = lenN (snd (h_ch1 h)) /\ l2 = lenN (snd (h_ch2 h))) ->
  decode_stream bd rnd file = noexcept (final bd hsz (lenN file) h rest).
Proof using Hr.
  intros Hf (Hh & Hne & Hs & L1 & L1' & L2 & L2' & E) Hb. pose proof Hh as (A1 & A2 & A3 & A4 & A5 & A6 & A7 & A8 & A9 & A10).
  assert (lenN file = hdr_len h + lenN rest) as Hl by (rewrite E at 1; rewrite lenN_app, layout_len by exact Hh; reflexivity).
  rewrite (layout_pre _ _ _ _ _ _ A1) in E.
  erewrite (decode_blocks bd rnd file hsz (h_hmode h) (h_blocks h) _ Hr); [|repeat split; try assumption; try apply A2; apply good_blocks; assumption|exact E].
  f_equal. unfold tail1.
  rewrite (chain_fwd bd _ true _ (h_ch1 h) l1) by (apply shape_of; assumption).
  rewrite chain_res_ok; [|exact A5|destruct Hb as [Hb|[Hb _]]; auto]. cbn [dbind dret].
  rewrite (chain_fwd bd _ false _ (h_ch2 h) l2) by (apply shape_of; assumption).
  rewrite chain_res_ok; [|exact A6|destruct Hb as [Hb|[_ Hb]]; auto]. cbn [dbind dret].
  change (with_chain false (to_ch (h_ch2 h)) _) with (bare h (salt0 rnd (h_hmode h))).
  apply tail2_fwd; [exact Hh|lia|exact Hf|exact Hl].
Qed.
Lemma decode_bad1 file : bad_length1 file -> decode_stream Debug rnd file = Crash AssertFail.
Proof using Hr.
  intros (hsz & hm & bs & c & lb & r & P & S & Hl & E). rewrite (decode_blocks Debug rnd file hsz hm bs _ Hr P E). unfold tail1.
  rewrite (chain_fwd Debug _ true _ c lb _ S), chain_res_bad by exact Hl. reflexivity.
Qed.
Lemma decode_bad2 file : bad_length2 file -> decode_stream Debug rnd file = Crash AssertFail.
Proof using Hr.
  intros (hsz & hm & bs & c1 & c & lb & r & P & C1 & S & Hl & E). rewrite (decode_blocks Debug rnd file hsz hm bs _ Hr P E). unfold tail1.
  rewrite (chain_fwd Debug _ true _ c1 _ _ (shape_own c1 C1)), chain_res_ok by auto. cbn [dbind dret].
  rewrite (chain_fwd Debug _ false _ c lb _ S), chain_res_bad by exact Hl. reflexivity.
Qed.
Lemma decode_bad_size file : lenN file < two64 -> bad_size file -> decode_stream Debug rnd file = Crash AssertFail.
Proof using Hr.
  intros Hf (hsz & h & rest & W & Hs). rewrite (decode_written Debug file _ _ _ h rest Hf W) by auto. unfold final.
  destruct (N.eqb_spec (hdr_len h) hsz); [congruence|reflexivity].
Qed.
Lemma decode_master bd file : lenN file < two64 ->
  zero_block file \/ (exists e, decode_stream bd rnd file = Ret (inl e)) \/
  (bd = Debug /\ (bad_length1 file \/ bad_length2 file \/ bad_size file)) \/
  (exists hsz l1 l2 h rest, written_as file hsz l1 l2 h rest /\
     (bd = Debug -> hsz = hdr_len h /\ l1 = lenN (snd (h_ch1 h)) /\ l2 = lenN (snd (h_ch2 h)))).
Proof using Hr.
  intros Hf. destruct (pre_cases file Hf) as [(hsz & hm & bs & r & P & E)|[Z|[e R]]]; [|left; exact Z|right; left; exists e; apply R; exact Hr].
  pose proof (decode_blocks bd rnd file hsz hm bs r Hr P E) as K. unfold tail1 in K.
  destruct (chain_cases r) as [(c1 & l1 & r1 & S1 & ->)|[e F]].
  2:{ right; left. exists e. rewrite K, F. reflexivity. }
  rewrite (chain_fwd bd _ true _ c1 l1 _ S1) in K.
  destruct (chain_res_cases bd ERR_CHAINHASH1_INVALID c1 l1 (with_chain true (to_ch c1) (D hm None (salt0 rnd hm) bs [] ch_default ch_default None)) r1 S1)
    as [[-> B1]|[F|(C1 & B1 & F)]].
  { right; right; left. split; [reflexivity|]. left. exists hsz, hm, bs, c1, l1, r1. auto. }
  { right; left. rewrite K, F. eexists. reflexivity. }
  rewrite F in K. cbn [dbind dret] in K.
  destruct (chain_cases r1) as [(c2 & l2 & r2 & S2 & ->)|[e F2]].
  2:{ right; left. exists e. rewrite K, F2. reflexivity. }
  rewrite (chain_fwd bd _ false _ c2 l2 _ S2) in K.
  match type of K with context [with_chain false (to_ch c2) ?d] =>
    destruct (chain_res_cases bd ERR_CHAINHASH2_INVALID c2 l2 (with_chain false (to_ch c2) d) r2 S2) as [[-> B2]|[F2|(C2 & B2 & F2)]] end.
  { right; right; left. split; [reflexivity|]. right; left. exists hsz, hm, bs, c1, c2, l2, r2. rewrite <- (B1 eq_refl). auto. }
  { right; left. rewrite K, F2. eexists. reflexivity. }
  rewrite F2 in K. cbn [dbind dret] in K. destruct P as (_ & Ph & V & G & Nb).
  destruct (tail2_cases hm bs c1 c2 file (lenN file) r2) as [(h & rest & Hh & <- & <- & <- & <- & ->)|[e T]].
  { split; [exact V|]. split; [exact Nb|]. split; [apply good_ok; exact G|]. auto. }
  2:{ right; left. exists e. rewrite K.
      change (with_chain false _ _) with (D hm None (salt0 rnd hm) bs [] (to_ch c1) (to_ch c2) None). rewrite T. reflexivity. }
  assert (no_empty_block h) as Hne.
  { unfold no_empty_block. eapply Forall_impl; [|exact G]. intros b [_ Hb]. exact Hb. }
  assert (written_as file hsz l1 l2 h rest) as W.
  { unfold written_as. destruct S1 as (_ & _ & _ & S1 & S1'). destruct S2 as (_ & _ & _ & S2 & S2'). spl; try assumption.
    rewrite layout_pre by apply Hh. exact E. }
  destruct bd.
  - destruct (N.eq_dec hsz (hdr_len h)) as [Es|Es].
    + right; right; right. exists hsz, l1, l2, h, rest. auto.
    + right; right; left. split; [reflexivity|]. right; right. exists hsz, h, rest. rewrite <- (B1 eq_refl), <- (B2 eq_refl). auto.
  - right; right; right. exists hsz, l1, l2, h, rest. split; [exact W|discriminate].
Qed.

(** ** consequences *)
Lemma decode_release file d rest : lenN file < two64 ->
  (decode_stream Release rnd file = Ret (inr (d, rest)) <->
   exists hsz l1 l2 h, written_as file hsz l1 l2 h rest /\ d = decoded (lenN file) h).
Proof using Hr.
  intros Hf. split.
  - intros E. destruct (decode_master Release file Hf) as [Z|[[e R]|[[B _]|(hsz & l1 & l2 & h & r & W & _)]]]; try discriminate.
    + rewrite (decode_zero _ _ _ Hr Z) in E. discriminate.
    + congruence.
    + rewrite (decode_written Release file _ _ _ h r Hf W) in E by auto. cbn in E. injection E as <- <-. eauto 6.
  - intros (hsz & l1 & l2 & h & W & ->). rewrite (decode_written Release file _ _ _ h rest Hf W) by auto. reflexivity.
Qed.
Lemma own_written file h rest : lenN file < two64 -> header_ok h -> no_empty_block h -> file = ser (lenN file) h ++ rest ->
  written_as file (hdr_len h) (lenN (snd (h_ch1 h))) (lenN (snd (h_ch2 h))) h rest.
Proof using.
  intros Hf Hh Hn E. pose proof Hh as (_ & _ & _ & _ & (_ & _ & F1) & (_ & _ & F2) & _). apply data_fits_len in F1, F2.
  unfold written_as. spl; try assumption; try (intros _; reflexivity); try lia.
  rewrite E at 1. rewrite lenN_app, ser_len by exact Hh. lia.
Qed.
Lemma decode_debug file d rest : lenN file < two64 ->
  (decode_stream Debug rnd file = Ret (inr (d, rest)) <->
   exists h, header_ok h /\ no_empty_block h /\ file = ser (lenN file) h ++ rest /\ d = decoded (lenN file) h).
Proof using Hr.
  intros Hf. split.
  - intros E. destruct (decode_master Debug file Hf) as [Z|[[e R]|[[_ B]|(hsz & l1 & l2 & h & r & W & C)]]].
    + rewrite (decode_zero _ _ _ Hr Z) in E. discriminate.
    + congruence.
    + destruct B as [B|[B|B]]; [rewrite (decode_bad1 _ B) in E|rewrite (decode_bad2 _ B) in E|rewrite (decode_bad_size _ Hf B) in E]; discriminate.
    + destruct (C eq_refl) as (-> & -> & ->). rewrite (decode_written Debug file _ _ _ h r Hf W) in E by auto. unfold final in E. rewrite N.eqb_refl in E.
      cbn in E. injection E as <- <-. destruct W as (W1 & W2 & _ & _ & _ & _ & _ & W3). exists h. spl; auto.
  - intros (h & Hh & Hn & E & ->). rewrite (decode_written Debug file _ _ _ h rest Hf (own_written file h rest Hf Hh Hn E)) by auto.
    unfold final. rewrite N.eqb_refl. reflexivity.
Qed.
Lemma decode_ser bd fs h rest : header_ok h -> no_empty_block h -> fs = hdr_len h + lenN rest -> fs < two64 ->
  decode_stream bd rnd (ser fs h ++ rest) = Ret (inr (decoded fs h, rest)).
Proof using Hr.
  intros Hh Hn E Hf. assert (lenN (ser fs h ++ rest) = fs) as L by (rewrite lenN_app, ser_len by exact Hh; lia).
  assert (lenN (ser fs h ++ rest) < two64) as Hf' by lia.
  destruct bd; [apply decode_debug|apply decode_release]; try exact Hf'; rewrite L.
  - exists h. auto.
  - do 3 eexists. exists h. split; [apply own_written|]; try assumption; try reflexivity. rewrite L. reflexivity.
Qed.
Lemma decode_crash bd file c : lenN file < two64 ->
  (decode_stream bd rnd file = Crash c <->
   (c = Terminate /\ zero_block file) \/
   (bd = Debug /\ c = AssertFail /\ (bad_length1 file \/ bad_length2 file \/ bad_size file))).
Proof using Hr.
  intros Hf. split.
  - intros E. destruct (decode_master bd file Hf) as [Z|[[e R]|[[-> B]|(hsz & l1 & l2 & h & r & W & C)]]].
    + rewrite (decode_zero _ _ _ Hr Z) in E. left. split; [congruence|exact Z].
    + congruence.
    + right. spl; try assumption; try reflexivity. destruct B as [B|[B|B]]; [rewrite (decode_bad1 _ B) in E|rewrite (decode_bad2 _ B) in E|rewrite (decode_bad_size _ Hf B) in E]; congruence.
    + exfalso. destruct bd.
      * destruct (C eq_refl) as (-> & -> & ->). rewrite (decode_written Debug file _ _ _ h r Hf W) in E by auto. unfold final in E. rewrite N.eqb_refl in E. discriminate.
      * rewrite (decode_written Release file _ _ _ h r Hf W) in E by auto. discriminate.
  - intros [[-> Z]|(-> & -> & B)]; [apply decode_zero; assumption|].
    destruct B as [B|[B|B]]; [apply decode_bad1|apply decode_bad2|apply decode_bad_size]; assumption.
Qed.
Lemma decode_no_throw bd file : lenN file < two64 -> (exists r, decode_stream bd rnd file = Ret r) \/ (exists c, decode_stream bd rnd file = Crash c).
Proof using Hr.
  intros Hf. destruct (decode_master bd file Hf) as [Z|[[e R]|[[-> B]|(hsz & l1 & l2 & h & r & W & C)]]].
  - right. eexists. apply decode_zero; assumption.
  - left. eauto.
  - right. exists AssertFail. apply decode_crash; auto.
  - left. destruct bd.
    + destruct (C eq_refl) as (-> & -> & ->). rewrite (decode_written Debug file _ _ _ h r Hf W) by auto. unfold final. rewrite N.eqb_refl. eexists. reflexivity.
    + rewrite (decode_written Release file _ _ _ h r Hf W) by auto. eexists. reflexivity.
Qed.
End Whole.
