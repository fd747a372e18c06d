(** Proofs that the objects of the header code answer as their sheets do. *)
From Verif Require Import Base BaseFacts BytesModel BytesSpec BytesFacts BytesFacts2 MiscModel MiscFacts CipherModel CipherFacts PwModel PwSpec PwFacts ChModel ChSpec ChFacts ChFacts2
  HeaderModel HeaderSpec HeaderFacts HeaderFacts2 HeaderFacts3 HeaderFacts4 HeaderFacts5 HeaderFacts6 HeaderFacts7 HeaderFacts8 HeaderFacts9 HeaderFacts10 HeaderFacts11 ObjSpec.
Ltac Zify.zify_post_hook ::= Z.div_mod_to_equations.

(** ** DataHeaderParts *)
Record p_agree (p : dhparts) (past : list part_op) : Prop := mkAgree {
  a_file : p_fmode p = file_mode past;
  a_hash : p_hmode p = hash_mode past;
  a_valid : option_map bdata (p_valid p) = validator past;
  a_salt : option_map bdata (p_salt p) = the_salt past;
  a_ch1 : ch_val (p_ch1 p) = chain1 past;
  a_ch2 : ch_val (p_ch2 p) = chain2 past;
  a_inv1 : ch_inv (p_ch1 p);
  a_inv2 : ch_inv (p_ch2 p) }.
Lemma isSome_map {A B} (f : A -> B) o : isSome (option_map f o) = isSome o.
Proof. destruct o; reflexivity. Qed.
Lemma assign_invalid this c : ch_val c = false -> ch_assign this c = Throw RuntimeError.
Proof. intros V. unfold ch_assign, ch_getMode. rewrite V. reflexivity. Qed.
Lemma file_valid_eq m : file_mode_valid m = (m =? 1).
Proof. unfold file_mode_valid. destruct (N.eqb_spec m 1) as [->|Hn]; [reflexivity|]. destruct (N.leb_spec 1 m); [|reflexivity]. destruct (N.leb_spec m 1); [lia|reflexivity]. Qed.
Lemma part_one bd p past o : p_agree p past -> part_op_ok bd o ->
  snd (part_step p o) = part_answer past o /\ p_agree (fst (part_step p o)) (o :: past).
Proof.
  intros A Ho. pose proof A as A0. destruct A0 as [Af Ah Av As A1 A2 I1 I2].
  destruct o as [m|m|b|b|c|c| | | | | |n]; cbn [part_step part_answer part_op_ok] in *.
  - unfold p_setFileDataMode. rewrite file_valid_eq. destruct (m =? 1) eqn:E; cbn [part_set fst snd accept_if]; (split; [reflexivity|]);
      constructor; cbn [file_mode hash_mode validator the_salt chain1 chain2]; rewrite ?E; cbn; assumption || reflexivity.
  - unfold p_setHashMode, hash_mode_valid. destruct ((1 <=? m) && (m <=? 3)) eqn:E; cbn [part_set fst snd accept_if]; (split; [reflexivity|]);
      constructor; cbn [file_mode hash_mode validator the_salt chain1 chain2]; rewrite ?E; cbn; assumption || reflexivity.
  - unfold p_setValid, p_getHashSize, set_bytes. rewrite Ah. destruct (hash_mode past) as [m|] eqn:E.
    + cbn [bind]. rewrite hash_size_digest. unfold getLen. rewrite N.eqb_sym.
      assert (right_length past b = (lenN (bdata b) =? digest_len m)) as R by (unfold right_length; rewrite E; reflexivity).
      rewrite R. destruct (lenN (bdata b) =? digest_len m) eqn:L; cbn [part_set fst snd accept_if]; (split; [reflexivity|]);
      constructor; cbn [file_mode hash_mode validator the_salt chain1 chain2]; rewrite ?R; cbn; try assumption; try reflexivity; congruence.
    + cbn [bind part_set fst snd]. split; [reflexivity|].
      assert (right_length past b = false) as R by (unfold right_length; rewrite E; reflexivity).
      constructor; cbn [file_mode hash_mode validator the_salt chain1 chain2]; rewrite ?R; try assumption; congruence.
  - unfold p_setSalt, p_getHashSize, set_bytes. rewrite Ah. destruct (hash_mode past) as [m|] eqn:E.
    + cbn [bind]. rewrite hash_size_digest. unfold getLen. rewrite N.eqb_sym.
      assert (right_length past b = (lenN (bdata b) =? digest_len m)) as R by (unfold right_length; rewrite E; reflexivity).
      rewrite R. destruct (lenN (bdata b) =? digest_len m) eqn:L; cbn [part_set fst snd accept_if]; (split; [reflexivity|]);
      constructor; cbn [file_mode hash_mode validator the_salt chain1 chain2]; rewrite ?R; cbn; try assumption; try reflexivity; congruence.
    + cbn [bind part_set fst snd]. split; [reflexivity|].
      assert (right_length past b = false) as R by (unfold right_length; rewrite E; reflexivity).
      constructor; cbn [file_mode hash_mode validator the_salt chain1 chain2]; rewrite ?R; try assumption; congruence.
  - apply built_inv in Ho. destruct (ch_val c) eqn:V.
    + rewrite (assign_same _ c Ho V). cbn [bind part_set fst snd accept_if]. split; [reflexivity|].
      constructor; cbn [file_mode hash_mode validator the_salt chain1 chain2]; rewrite ?V; cbn; assumption || reflexivity.
    + rewrite (assign_invalid _ c V). cbn [bind part_set fst snd accept_if]. split; [reflexivity|].
      constructor; cbn [file_mode hash_mode validator the_salt chain1 chain2]; rewrite ?V; cbn; assumption || reflexivity.
  - apply built_inv in Ho. destruct (ch_val c) eqn:V.
    + rewrite (assign_same _ c Ho V). cbn [bind part_set fst snd accept_if]. split; [reflexivity|].
      constructor; cbn [file_mode hash_mode validator the_salt chain1 chain2]; rewrite ?V; cbn; assumption || reflexivity.
    + rewrite (assign_invalid _ c V). cbn [bind part_set fst snd accept_if]. split; [reflexivity|].
      constructor; cbn [file_mode hash_mode validator the_salt chain1 chain2]; rewrite ?V; cbn; assumption || reflexivity.
  - cbn [part_get fst snd]. split; [|constructor; assumption]. unfold p_getFileDataMode. rewrite Af. destruct (file_mode past); reflexivity.
  - cbn [part_get fst snd]. split; [|constructor; assumption]. unfold p_getHashMode. rewrite Ah. destruct (hash_mode past); reflexivity.
  - cbn [part_get fst snd]. split; [|constructor; assumption]. unfold p_getHashSize. rewrite Ah. destruct (hash_mode past); reflexivity.
  - cbn [part_get fst snd]. split; [|constructor; assumption]. unfold p_getValid. rewrite <- Av. destruct (p_valid p); reflexivity.
  - cbn [part_get fst snd]. split; [|constructor; assumption]. unfold p_getSalt. rewrite <- As. destruct (p_salt p); reflexivity.
  - cbn [part_get fst snd]. split; [|constructor; assumption]. unfold p_isComplete. rewrite Af, Ah, A1, A2, <- Av, <- As, !isSome_map.
    f_equal. f_equal. destruct (chain1 past), (chain2 past), (isSome (p_valid p)), (isSome (file_mode past)), (isSome (p_salt p)); cbn [andb]; try reflexivity;
      destruct (hash_mode past); cbn; rewrite ?andb_true_r, ?andb_false_r; try reflexivity; rewrite hash_size_digest; reflexivity.
Qed.
Lemma parts_all bd ops : forall p past, p_agree p past -> Forall (part_op_ok bd) ops -> part_answers p ops = part_expected past ops.
Proof.
  induction ops as [|o ops IH]; intros p past A Ho; [reflexivity|]. inversion Ho as [|x y H1 H2]; subst. cbn [part_answers part_expected].
  destruct (part_one bd p past o A H1) as [E A']. rewrite E. f_equal. apply IH; assumption.
Qed.
Lemma parts_calls bd ops : Forall (part_op_ok bd) ops -> part_answers parts_empty ops = part_expected [] ops.
Proof. intros Ho. apply (parts_all bd); [|exact Ho]. constructor; try reflexivity; apply ch_default_inv. Qed.

(** ** DataHeader *)
Record h_agree (mode : N) (d : dheader) (s : sheet) : Prop := mkHA {
  g_inv : hinv mode d;
  g_mode : sh_hmode s = mode;
  g_fmode : p_fmode (d_parts d) = sh_fmode s;
  g_c1 : chain_of (p_ch1 (d_parts d)) = sh_c1 s;
  g_c2 : chain_of (p_ch2 (d_parts d)) = sh_c2 s;
  g_valid : option_map bdata (p_valid (d_parts d)) = sh_valid s;
  g_salt : option_map bdata (p_salt (d_parts d)) = Some (sh_salt s);
  g_blocks : plain_blocks d = sh_blocks s;
  g_encs : plain_encs d = sh_encs s;
  g_size : d_fsize d = sh_size s;
  g_done : if sh_done s then exists h n, whole s = Some h /\ sh_size s = Some n /\ bdata (d_bytes d) = ser n h else bdata (d_bytes d) = [] }.
Lemma agree_contents mode d s : h_agree mode d s -> contents d = whole s.
Proof.
  intros A. unfold contents, whole. rewrite (g_fmode _ _ _ A), (i_hmode _ _ (g_inv _ _ _ A)), (g_c1 _ _ _ A), (g_c2 _ _ _ A), <- (g_valid _ _ _ A).
  pose proof (g_salt _ _ _ A) as Es. pose proof (g_blocks _ _ _ A) as Eb. pose proof (g_encs _ _ _ A) as Ee. unfold plain_blocks in Eb. unfold plain_encs in Ee.
  rewrite Eb, Ee, <- (g_mode _ _ _ A).
  destruct (p_salt (d_parts d)) as [x|]; [|discriminate]. injection Es as Es. rewrite Es.
  destruct (sh_fmode s); [|reflexivity]. destruct (sh_c1 s); [|reflexivity]. destruct (sh_c2 s); [|reflexivity]. destruct (p_valid (d_parts d)); reflexivity.
Qed.
Lemma chain_none c : ch_inv c -> ch_val c = false -> chain_of c = None.
Proof. intros _ V. unfold chain_of. rewrite V. reflexivity. Qed.
Lemma set1_spec c d : ch_inv c ->
  setChainHash1 c d = match chain_of c with Some _ => Ret (d_with (p_setCh1 c (d_parts d)) d) | None => Throw InvalidArgument end.
Proof.
  intros I. unfold setChainHash1. destruct (ch_val c) eqn:V; cbn [negb].
  - rewrite (assign_same _ c I V). destruct (chain_of_valid c I V) as [x ->]. reflexivity.
  - rewrite (chain_none c I V). reflexivity.
Qed.
Lemma set2_spec c d : ch_inv c ->
  setChainHash2 c d = match chain_of c with Some _ => Ret (d_with (p_setCh2 c (d_parts d)) d) | None => Throw InvalidArgument end.
Proof.
  intros I. unfold setChainHash2. destruct (ch_val c) eqn:V; cbn [negb].
  - rewrite (assign_same _ c I V). destruct (chain_of_valid c I V) as [x ->]. reflexivity.
  - rewrite (chain_none c I V). reflexivity.
Qed.
Lemma complete_whole mode d s : h_agree mode d s -> d_isComplete d = isSome (whole s).
Proof.
  intros A. pose proof (complete_contents mode d (g_inv _ _ _ A)) as C. rewrite (agree_contents mode d s A) in C.
  destruct (whole s); cbn [isSome].
  - apply C. eauto.
  - destruct (d_isComplete d); [|reflexivity]. destruct (proj1 C eq_refl) as [h E]. discriminate.
Qed.
Lemma header_one bd H clk mode d s o : h_agree mode d s -> hashes_ok H -> hop_ok bd o -> direct o ->
  snd (h_step bd H clk d o) = snd (sheet_step H s o) /\ h_agree mode (fst (h_step bd H clk d o)) (fst (sheet_step H s o)).
Proof.
  intros A HH Ho Hd. pose proof (step_hinv bd mode H clk d o (g_inv _ _ _ A) Ho) as I'.
  pose proof (agree_contents mode d s A) as C. pose proof (complete_whole mode d s A) as K.
  pose proof A as A0. destruct A0 as [I M Gf G1 G2 Gv Gs Gb Ge Gn Gd].
  destruct o as [c|c|m|b|b| |b|e|n|n|pw|x|x]; cbn [h_step sheet_step hop_ok direct] in *; try contradiction.
  - pose proof (built_inv bd c Ho) as J. rewrite (set1_spec c d J) in *. unfold with_chain. destruct (chain_of c) as [x|] eqn:E; cbn [keep fst snd] in *; (split; [reflexivity|]); [|exact A].
    constructor; try assumption. reflexivity.
  - pose proof (built_inv bd c Ho) as J. rewrite (set2_spec c d J) in *. unfold with_chain. destruct (chain_of c) as [x|] eqn:E; cbn [keep fst snd] in *; (split; [reflexivity|]); [|exact A].
    constructor; try assumption. reflexivity.
  - unfold d_setFileDataMode, p_setFileDataMode in *. rewrite file_valid_eq in *. unfold only_if. destruct (m =? 1); cbn [bind keep fst snd] in *; (split; [reflexivity|]); [|exact A].
    constructor; try assumption; reflexivity.
  - unfold setValidPasswordHashBytes, p_setValid, p_getHashSize, only_if in *. rewrite (i_hmode _ _ I), hash_size_digest in *. cbn [bind] in *. unfold getLen in *. rewrite N.eqb_sym in *.
    rewrite M. destruct (lenN (bdata b) =? digest_len mode); cbn [bind keep fst snd] in *; (split; [reflexivity|]); [|exact A].
    constructor; try assumption; reflexivity.
  - unfold d_setEncSalt, p_setSalt, p_getHashSize, only_if in *. rewrite (i_hmode _ _ I), hash_size_digest in *. cbn [bind] in *. unfold getLen in *. rewrite N.eqb_sym in *.
    rewrite M. destruct (lenN (bdata b) =? digest_len mode); cbn [bind keep fst snd] in *; (split; [reflexivity|]); [|exact A].
    constructor; try assumption; reflexivity.
  - split; [reflexivity|]. constructor; try assumption; reflexivity.
  - unfold addDataBlock, only_if in *. assert (lenN (p_dec (d_parts d)) = lenN (sh_blocks s)) as L by (rewrite <- Gb; unfold plain_blocks; rewrite lenN_map; reflexivity).
    rewrite L in *. rewrite N.leb_antisym in *. destruct (lenN (sh_blocks s) <? 255); cbn [negb keep fst snd] in *; (split; [reflexivity|]); [|exact A].
    constructor; try assumption; try reflexivity. unfold plain_blocks in *. cbn. rewrite map_app, Gb. reflexivity.
  - unfold addEncDataBlock, only_if in *. assert (lenN (p_enc (d_parts d)) = lenN (sh_encs s)) as L by (rewrite <- Ge; unfold plain_encs; rewrite lenN_map; reflexivity).
    rewrite L in *. rewrite N.leb_antisym in *. destruct (lenN (sh_encs s) <? 255); cbn [negb keep fst snd] in *; (split; [reflexivity|]); [|exact A].
    constructor; try assumption; try reflexivity. unfold plain_encs in *. cbn. rewrite map_app, Ge. reflexivity.
  - unfold setFileSize in *. rewrite K in *. destruct (whole s) as [h|] eqn:W; cbn [isSome negb keep fst snd] in *; [|split; [reflexivity|exact A]].
    rewrite (header_length mode d h I C) in *. cbn [bind] in *. unfold only_if. rewrite N.leb_antisym. destruct (n <? hdr_len h); cbn [negb keep fst snd] in *; (split; [reflexivity|]); [exact A|].
    constructor; try assumption; reflexivity.
  - unfold setDataSize in *. rewrite K in *. destruct (whole s) as [h|] eqn:W; cbn [isSome negb keep fst snd] in *; [|split; [reflexivity|exact A]].
    pose proof (header_length mode _ h (hinv_bytes mode d (clearBytes (d_bytes d)) I)) as L. rewrite contents_bytes in L. rewrite (L C) in *. cbn [bind keep fst snd] in *.
    split; [reflexivity|]. constructor; try assumption; try reflexivity. cbn. unfold w32. change two32 with (2 ^ 32). f_equal. apply N.add_mod_idemp_l. discriminate.
  - destruct (whole s) as [h|] eqn:W.
    + rewrite (calc_spec mode H clk pw d h I C) in *. rewrite Gn in *. destruct (sh_size s) as [n|] eqn:Sz; [|cbn [fst snd]; split; [reflexivity|]; exact A].
      unfold only_if. rewrite N.leb_antisym. destruct (n <? hdr_len h) eqn:Ln; cbn [negb andb fst snd] in *; [split; [reflexivity|exact A]|].
      assert (checkPwHash H clk pw (d_parts d) = if (lenN (bdata pw) =? 0) || eqb_bytes (h_valid h) (chain_value (hash_of H (h_hmode h)) (h_ch2 h) (bdata pw)) then Ret tt else Throw InvalidArgument) as P.
      { destruct (N.eqb_spec (lenN (bdata pw)) 0) as [Z|Z]; cbn [orb].
        - unfold checkPwHash, isEmpty, getLen. rewrite Z. reflexivity.
        - destruct Hd as [L1 L2]. apply (check_spec mode H clk pw d h I C HH); [|exact L1|exact L2]. intros E. apply Z. rewrite E. reflexivity. }
      rewrite P in *. destruct ((lenN (bdata pw) =? 0) || _); cbn [fst snd] in *; (split; [reflexivity|]); [|exact A].
      constructor; try assumption; try reflexivity; cbn; [rewrite Gn; symmetry; exact Sz|]. exists h, n. split; [exact W|]. split; [exact Sz|]. reflexivity.
    + rewrite (calc_incomplete mode H clk pw d I C) in *. cbn [fst snd]. split; [reflexivity|exact A].
Qed.
Lemma header_all bd H clk mode ops : hashes_ok H -> forall d s, h_agree mode d s -> Forall (hop_ok bd) ops -> Forall direct ops ->
  h_answers bd H clk d ops = sheet_answers H s ops /\ h_agree mode (h_run bd H clk d ops) (sheet_run H s ops).
Proof.
  intros HH. induction ops as [|o ops IH]; intros d s A Ho Hd; [split; [reflexivity|exact A]|].
  inversion Ho as [|x y H1 H2]; subst. inversion Hd as [|x y D1 D2]; subst. cbn [h_answers sheet_answers h_run sheet_run].
  destruct (header_one bd H clk mode d s o A HH H1 D1) as [E A']. rewrite E. destruct (IH _ _ A' H2 D2) as [E' A'']. rewrite E'. split; [reflexivity|exact A''].
Qed.
Lemma agree_answers mode d s : h_agree mode d s -> answers_as d s.
Proof.
  intros A. pose proof (agree_contents mode d s A) as C. pose proof (complete_whole mode d s A) as K. pose proof A as A0.
  destruct A0 as [I M Gf G1 G2 Gv Gs Gb Ge Gn Gd].
  assert (getHeaderLength d = Ret (sheet_len s)) as L.
  { unfold sheet_len. destruct (sh_c1 s) as [x|] eqn:E1, (sh_c2 s) as [y|] eqn:E2; [rewrite (header_length_chains mode d x y I G1 G2)| | |].
    1: { f_equal. rewrite M, (i_blen _ _ I), ser_blocks_len, Gb, Ge. lia. }
    all: unfold getHeaderLength.
    all: assert (ch_val (p_ch1 (d_parts d)) && ch_val (p_ch2 (d_parts d)) = false) as ->.
    1,3,5: apply andb_false_iff.
    1: right. 2: left. 3: left.
    1: destruct (ch_val (p_ch2 (d_parts d))) eqn:V; [|reflexivity]; destruct (chain_of_valid _ (i_ch2 _ _ I) V) as [z Z]; congruence.
    1,2: destruct (ch_val (p_ch1 (d_parts d))) eqn:V; [|reflexivity]; destruct (chain_of_valid _ (i_ch1 _ _ I) V) as [z Z]; congruence.
    all: assert (bdata (d_bytes d) = []) as B by (destruct (sh_done s); [destruct Gd as (h & n & W & _); unfold whole in W; rewrite E1 in W; try rewrite E2 in W; destruct (sh_fmode s); discriminate|exact Gd]).
    all: unfold getLen; rewrite B; reflexivity. }
  split; [exact L|]. split; [exact Gn|]. split.
  - unfold getDataHeaderParts. rewrite K. destruct (whole s) as [h|] eqn:W; [|reflexivity]. cbn [isSome].
    destruct (contents_parts d h C) as (v & sl & Ef & Eh & E1 & E2 & Ev & Bv & Es & Bs & Eb & Ee). exists (d_parts d). split; [reflexivity|].
    unfold p_getFileDataMode, p_getHashMode, p_getHashSize, p_getValid, p_getSalt. rewrite Ef, Eh, Ev, Es.
    split; [reflexivity|]. split; [reflexivity|]. split; [reflexivity|]. split; [exists (copyBytes v); split; [reflexivity|exact Bv]|].
    split; [exists (copyBytes sl); split; [reflexivity|exact Bs]|]. repeat (split; [assumption|]). assumption.
  - destruct (sh_done s).
    + destruct Gd as (h & n & W & Z & B). rewrite W, Z. unfold getHeaderBytes. rewrite W in C. rewrite (header_length mode d h I C). cbn [bind].
      assert (header_ok h) as Hh by apply (contents_ok mode d h I C). pose proof (hdr_len_bounds h Hh). destruct (N.eqb_spec (hdr_len h) 0); [lia|].
      unfold getLen. rewrite B, (ser_len n h Hh), N.eqb_refl. cbn [negb]. eexists. split; [reflexivity|]. exact B.
    + unfold getHeaderBytes. rewrite L. cbn [bind]. destruct (N.eqb_spec (sheet_len s) 0); [reflexivity|]. unfold getLen. rewrite Gd.
      change (lenN (@nil byte)) with 0. destruct (N.eqb_spec (sheet_len s) 0); [contradiction|reflexivity].
Qed.
Lemma new_agree rnd mode d : (forall k, lenN (rnd k) = k) -> newDataHeader rnd mode = Ret d -> h_agree mode d (new_sheet mode (rnd (digest_len mode))).
Proof.
  intros Hr E. pose proof (new_hinv rnd mode d Hr E) as [I _]. destruct (new_inv rnd mode d Hr E) as [R ->].
  constructor; try reflexivity. exact I.
Qed.
Lemma header_calls bd H clk rnd mode ops d : (forall k, lenN (rnd k) = k) -> hashes_ok H -> newDataHeader rnd mode = Ret d ->
  Forall (hop_ok bd) ops -> Forall direct ops ->
  h_answers bd H clk d ops = sheet_answers H (new_sheet mode (rnd (digest_len mode))) ops /\
  answers_as (h_run bd H clk d ops) (sheet_run H (new_sheet mode (rnd (digest_len mode))) ops).
Proof.
  intros Hr HH E Ho Hd. destruct (header_all bd H clk mode ops HH _ _ (new_agree rnd mode d Hr E) Ho Hd) as [A B].
  split; [exact A|]. exact (agree_answers mode _ _ B).
Qed.
(** ** objects that were read *)
Lemma new_refused rnd mode : ~ 1 <= mode <= 3 -> newDataHeader rnd mode = Throw InvalidArgument.
Proof.
  intros Hm. unfold newDataHeader, p_setHashMode. destruct (hash_mode_valid mode) eqn:V; [|reflexivity].
  apply hash_mode_valid_spec in V. contradiction.
Qed.
Lemma shows_agree fs h : header_ok h -> fs < two64 -> h_agree (h_hmode h) (decoded fs h) (read_sheet fs h).
Proof.
  intros Hh Hf. pose proof (decoded_hinv fs h Hh Hf) as I. pose proof (decoded_contents fs h Hh) as C. pose proof (decoded_bytes fs h Hh) as B.
  destruct (contents_parts _ h C) as (v & sl & Ef & Eh & E1 & E2 & Ev & Bv & Es & Bs & Eb & Ee).
  constructor; cbn [read_sheet sh_hmode sh_fmode sh_c1 sh_c2 sh_valid sh_salt sh_blocks sh_encs sh_size sh_done]; try assumption; try reflexivity.
  exists h, fs. split; [destruct h; reflexivity|]. split; [reflexivity|]. reflexivity.
Qed.
Lemma decoded_eq bd rnd file d rest : (forall k, lenN (rnd k) = k) -> lenN file < two64 -> decode_stream bd rnd file = Ret (inr (d, rest)) ->
  exists h, header_ok h /\ d = decoded (lenN file) h /\ shows d (lenN file) h.
Proof.
  intros Hr Hl E. assert (exists h, header_ok h /\ d = decoded (lenN file) h) as (h & Hh & ->).
  { destruct bd.
    - apply (decode_debug rnd Hr file d rest Hl) in E. destruct E as (h & Hh & _ & _ & ->). eauto.
    - apply (decode_release rnd Hr file d rest Hl) in E. destruct E as (? & ? & ? & h & (Hh & _) & ->). eauto. }
  exists h. split; [exact Hh|]. split; [reflexivity|]. split; [apply decoded_contents; exact Hh|]. split; [reflexivity|].
  pose proof (agree_answers _ _ _ (shows_agree (lenN file) h Hh Hl)) as (_ & _ & _ & B). cbn in B.
  destruct h; exact B.
Qed.
Lemma read_calls bd H clk rnd file d rest ops : (forall k, lenN (rnd k) = k) -> hashes_ok H -> lenN file < two64 ->
  decode_stream bd rnd file = Ret (inr (d, rest)) -> Forall (hop_ok bd) ops -> Forall direct ops ->
  exists h, shows d (lenN file) h /\
    h_answers bd H clk d ops = sheet_answers H (read_sheet (lenN file) h) ops /\
    answers_as (h_run bd H clk d ops) (sheet_run H (read_sheet (lenN file) h) ops).
Proof.
  intros Hr HH Hl E Ho Hd. destruct (decoded_eq bd rnd file d rest Hr Hl E) as (h & Hh & -> & Sh). exists h. split; [exact Sh|].
  destruct (header_all bd H clk (h_hmode h) ops HH _ _ (shows_agree (lenN file) h Hh Hl) Ho Hd) as [A B].
  split; [exact A|]. exact (agree_answers _ _ _ B).
Qed.

(** ** ChainHashTimed *)
Lemma timed_ctor bd mode rt d : (forall x, d = Some x -> made bd x) ->
  (1 <= mode <= 5 -> exists c, newChainHashTimed mode rt d = Ret c /\ timed_of c = (Some mode, Some rt, d) /\ (ct_val c = true <-> tusable c)) /\
  (~ 1 <= mode <= 5 -> newChainHashTimed mode rt d = Throw InvalidArgument).
Proof.
  intros Hd. unfold newChainHashTimed. split; intros Hm.
  - pose proof Hm as V. apply ch_mode_valid_spec in V. rewrite V.
    destruct (ct_revalidate (mkCHT (Some mode) d (Some rt) false)) as [c|e|c|] eqn:E.
    + exists c. split; [reflexivity|]. pose proof (ct_revalidate_inv (mkCHT (Some mode) d (Some rt) false) c (good_some mode Hm) (made_good bd d Hd) E) as [_ U]. split; [|exact U].
      unfold ct_revalidate in E. cbn [ct_mode ct_data ct_time] in E. apply bind_ret_inv in E. destruct E as (v & _ & E). injection E as <-. reflexivity.
    + exfalso. unfold ct_revalidate, ct_check in E. cbn [ct_mode ct_data ct_time] in E. destruct d; discriminate.
    + exfalso. unfold ct_revalidate, ct_check in E. cbn [ct_mode ct_data ct_time] in E. destruct d; discriminate.
    + exfalso. unfold ct_revalidate, ct_check in E. cbn [ct_mode ct_data ct_time] in E. destruct d; discriminate.
  - destruct (ch_mode_valid mode) eqn:V; [|reflexivity]. apply ch_mode_valid_spec in V. contradiction.
Qed.
Lemma mode5_eq m : ch_mode_valid m = (1 <=? m) && (m <=? 5).
Proof. reflexivity. Qed.
(** a revalidated object: its values, or undefined behaviour because of the missing run time *)
Lemma reval_spec c : good_mode (ct_mode c) -> good_data (ct_data c) ->
  (ct_time c = None /\ ct_mode c <> None /\ ct_data c <> None /\ ct_revalidate c = Crash Undefined) \/
  (~ (ct_time c = None /\ ct_mode c <> None /\ ct_data c <> None) /\
   exists c', ct_revalidate c = Ret c' /\ timed_of c' = timed_of c /\ (ct_val c' = true <-> tusable c')).
Proof.
  intros Hm Hd. destruct (ct_revalidate c) as [c'|e|x|] eqn:E.
  - right. pose proof (ct_revalidate_inv c c' Hm Hd E) as [_ U]. unfold ct_revalidate in E. apply bind_ret_inv in E. destruct E as (v & Ev & E). injection E as <-.
    split.
    + intros (A & B & D). unfold ct_check in Ev. rewrite A in Ev. destruct (ct_mode c); [|congruence]. destruct (ct_data c); [|congruence]. discriminate.
    + eexists. split; [reflexivity|]. split; [reflexivity|exact U].
  - exfalso. unfold ct_revalidate, ct_check in E. destruct (ct_mode c), (ct_data c), (ct_time c); discriminate.
  - left. unfold ct_revalidate, ct_check in E. destruct (ct_mode c), (ct_data c), (ct_time c); try discriminate. injection E as <-. spl; congruence.
  - exfalso. unfold ct_revalidate, ct_check in E. destruct (ct_mode c), (ct_data c), (ct_time c); discriminate.
Qed.
Lemma timed_setters bd c o : tbuilt bd c -> top_built bd o -> timed_setter o ->
  match timed_refused o with
  | Some e => ct_step bd c o = Throw e
  | None =>
      let '(m, t, d) := timed_after c o in
      (t = None /\ m <> None /\ d <> None /\ ct_step bd c o = Crash Undefined) \/
      (~ (t = None /\ m <> None /\ d <> None) /\
       exists c', ct_step bd c o = Ret c' /\ timed_of c' = (m, t, d) /\ (ct_val c' = true <-> tusable c'))
  end.
Proof.
  intros Hb Ho Hs. pose proof (tbuilt_inv bd c Hb) as (Hm & Hd & _). destruct o as [n|m|d|src|o]; cbn [timed_setter timed_refused timed_after ct_step] in *; [| | | |contradiction].
  - exact (reval_spec (mkCHT (ct_mode c) (ct_data c) (Some n) (ct_val c)) Hm Hd).
  - unfold ct_setMode. rewrite <- mode5_eq. destruct (ch_mode_valid m) eqn:V; [|reflexivity]. apply ch_mode_valid_spec in V.
    exact (reval_spec (mkCHT (Some m) (ct_data c) (ct_time c) (ct_val c)) (good_some m V) Hd).
  - assert (good_data d) as Gd by (inversion Ho; subst; apply (made_good bd); assumption).
    exact (reval_spec (mkCHT (ct_mode c) d (ct_time c) (ct_val c)) Hm Gd).
  - assert (tbuilt bd src) as Hb' by (inversion Ho; assumption). pose proof (tbuilt_inv bd src Hb') as (Sm & Sd & Sv).
    unfold ct_assign, ct_getMode, ct_getTime. destruct (ct_val src) eqn:V; [|reflexivity]. destruct (Sv eq_refl) as (mode & x & t & E1 & E2 & E3 & R & _).
    rewrite E1, E3, E2. cbn [bind]. rewrite (proj2 (ch_mode_valid_spec mode) R). cbn [bind ct_mode ct_val].
    rewrite E2 in Sd. exact (reval_spec (mkCHT (Some mode) (Some x) (Some t) (ct_val c)) (good_some mode R) Sd).
Qed.
Lemma timed_getters bd c : tbuilt bd c ->
  (ct_val c = true -> tusable c /\ exists m t d, timed_of c = (Some m, Some t, Some d) /\
      ct_getMode c = Ret m /\ ct_getTime c = Ret t /\ ct_getData c = Ret (Some d)) /\
  (ct_val c = false -> ct_getMode c = Throw RuntimeError /\ ct_getTime c = Throw RuntimeError /\ ct_getData c = Throw RuntimeError).
Proof.
  intros Hb. pose proof (tbuilt_inv bd c Hb) as (_ & _ & Hv). unfold ct_getMode, ct_getTime, ct_getData, timed_of. split; intros V; rewrite V; [|auto].
  pose proof (Hv V) as U. split; [exact U|]. destruct U as (m & d & t & E1 & E2 & E3 & _). rewrite E1, E2, E3. exists m, t, d. auto.
Qed.
(** ** settings *)
Lemma settings_get bound ops i o : nth_error (slots (set_run bound ops)) i = Some o ->
  (forall v, last_set bound ops i v -> set_get o = Ret v) /\ ((forall v, ~ last_set bound ops i v) -> set_get o = Throw RuntimeError).
Proof.
  intros E. split.
  - intros v L. apply slots_run in L. rewrite E in L. injection L as ->. reflexivity.
  - intros L. destruct o as [v|]; [|reflexivity]. exfalso. apply (L v). apply slots_run. exact E.
Qed.

(** ** Bytes: what a refused call throws *)
Lemma bytes_throw b o : within b -> bop_ok b o = true -> bmax b < two64 -> spec_step (repr b) o = None ->
  model_step b o = Throw (raised o).
Proof.
  intros Hw Hok Hm E. destruct b as [l cap]. unfold within, getLen in Hw. unfold repr in E. cbn [bdata bmax] in *.
  destruct o as [r|r|r|r|r|n|r|r|n|x|r]; cbn [spec_step model_step raised bop_ok] in *; unfold replace_content in E;
    try (match type of E with (if ?c then _ else _) = None => destruct c eqn:C; [discriminate|]; apply N.leb_gt in C end).
  all: try discriminate.
  - exfalso. rewrite lenN_app, lenN_takeN in C. lia.
  - apply N.ltb_lt in Hok. rewrite lenN_app in C. unfold addrandom, getLen. cbn [bdata bmax].
    repeat match goal with |- context [if ?c then _ else _] => destruct c eqn:?; rewrite ?N.ltb_lt, ?N.ltb_ge, ?N.leb_le, ?N.leb_gt in * end; try lia; reflexivity.
  - unfold setBytes, getLen. cbn [bdata bmax].
    repeat match goal with |- context [if ?c then _ else _] => destruct c eqn:?; rewrite ?N.ltb_lt, ?N.ltb_ge, ?N.leb_le, ?N.leb_gt in * end; try lia; reflexivity.
  - rewrite lenN_app in C. unfold addBytes, getLen. cbn [bdata bmax].
    repeat match goal with |- context [if ?c then _ else _] => destruct c eqn:?; rewrite ?N.ltb_lt, ?N.ltb_ge, ?N.leb_le, ?N.leb_gt in * end; try lia; reflexivity.
  - unfold consumeBytes, getLen. cbn [bdata bmax].
    repeat match goal with |- context [if ?c then _ else _] => destruct c eqn:?; rewrite ?N.ltb_lt, ?N.ltb_ge, ?N.leb_le, ?N.leb_gt in * end; try lia; reflexivity.
  - unfold getLen in Hok. cbn [bdata] in Hok. apply N.leb_le in Hok. lia.
  - unfold copyToBytes, fromArray, getLen. cbn [bdata bmax].
    repeat match goal with |- context [if ?c then _ else _] => destruct c eqn:?; rewrite ?N.ltb_lt, ?N.ltb_ge, ?N.leb_le, ?N.leb_gt in * end; try lia; reflexivity.
  - rewrite lenN_app in C. unfold addcopyToBytes, fromArray, getLen. cbn [bdata bmax].
    repeat match goal with |- context [if ?c then _ else _] => destruct c eqn:?; rewrite ?N.ltb_lt, ?N.ltb_ge, ?N.leb_le, ?N.leb_gt in * end; try lia; reflexivity.
  - rewrite lenN_app in C. change (lenN [x]) with 1 in C. unfold addByte, getLen. cbn [bdata bmax].
    repeat match goal with |- context [if ?c then _ else _] => destruct c eqn:?; rewrite ?N.ltb_lt, ?N.ltb_ge, ?N.leb_le, ?N.leb_gt in * end; try lia; reflexivity.
  - rewrite lenN_app in C. unfold addStringToBytes, getLen. cbn [bdata bmax].
    assert (sub64 cap (lenN l) = cap - lenN l) as ->.
    { unfold sub64. replace (cap + two64 - lenN l) with (cap - lenN l + 1 * two64) by lia.
      rewrite N.mod_add by (unfold two64; lia). apply N.mod_small. lia. }
    repeat match goal with |- context [if ?c then _ else _] => destruct c eqn:?; rewrite ?N.ltb_lt, ?N.ltb_ge, ?N.leb_le, ?N.leb_gt in * end; try lia; reflexivity.
Qed.
