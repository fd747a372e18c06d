(** Facts about headers as the API uses them: chain hashes with a clock, new headers, copies of headers. *)
From Coq Require Import Strings.Byte.
From Verif Require Import Base BaseFacts BytesModel BytesFacts MiscModel MiscFacts CipherModel CipherFacts PwModel PwSpec PwFacts ChModel ChSpec ChFacts ChFacts2
  HeaderModel HeaderSpec HeaderFacts HeaderFacts2 HeaderFacts3 HeaderFacts4 HeaderFacts5 HeaderFacts8 HeaderFacts9 FileModel ApiModel ApiSpec.

Definition iters_of (c : N * N * bytes) : N := snd (fst c).
Lemma perform_s c x h clk pw t : ch_inv c -> chain_of c = Some x -> hash_ok h ->
  (reached clk t (readings_string (iters_of x)) -> performChainHash_s h clk c pw t = Ret TimedOut) /\
  (~ reached clk t (readings_string (iters_of x)) -> exists b, performChainHash_s h clk c pw t = Ret (Done b) /\
     bdata b = chain_value (hfun h) x pw /\ getLen b = hsize h /\ hsize h <= bmax b <= 530).
Proof.
  intros Hc E Hh. pose proof (chain_of_val _ _ E) as V.
  destruct (usable_rep c Hc V) as (mode & d & ps & E1 & E2 & H1 & Hr & Hl & Hi). unfold chain_of in E. rewrite V, E1, E2 in E. injection E as <-.
  unfold chain_value, iters_of. cbn [fst snd]. destruct (rep_block _ _ _ Hr) as [Ed _]. rewrite Ed. cbn [bdata].
  rewrite (perform_s_dispatch c mode d ps V E1 E2 H1 Hr Hl h clk pw t).
  pose proof (described_fits h mode ps d Hh H1 Hr Hl) as Hf.
  assert (salt_len (described mode (concat ps)) <= 275) as Ls by (apply (described_wf mode ps d); assumption).
  destruct (call_string_ok h clk (described mode (concat ps)) pw (ch_iters c) t Hf ltac:(lia)) as [A B]. split; [exact A|].
  intros N. rewrite (B N). eexists. split; [reflexivity|]. cbn [bdata bmax]. split; [reflexivity|]. destruct Hh as (P & L & K).
  split; [|lia]. unfold getLen. cbn [bdata]. destruct (N.to_nat (ch_iters c - 1)); cbn [iterated]; apply K.
Qed.
Lemma perform_b c x h clk data t : ch_inv c -> chain_of c = Some x -> hash_ok h -> getLen data <= bmax data -> bmax data <= 530 ->
  (reached clk t (readings_bytes (iters_of x)) -> performChainHash_b h clk c data t = Ret TimedOut) /\
  (~ reached clk t (readings_bytes (iters_of x)) -> exists b, performChainHash_b h clk c data t = Ret (Done b) /\
     bdata b = chain_value (hfun h) x (bdata data) /\ getLen b = hsize h).
Proof.
  intros Hc E Hh L1 L2. pose proof (chain_of_val _ _ E) as V.
  destruct (usable_rep c Hc V) as (mode & d & ps & E1 & E2 & H1 & Hr & Hl & Hi). unfold chain_of in E. rewrite V, E1, E2 in E. injection E as <-.
  unfold chain_value, iters_of. cbn [fst snd]. destruct (rep_block _ _ _ Hr) as [Ed _]. rewrite Ed. cbn [bdata].
  rewrite (perform_b_dispatch c mode d ps V E1 E2 H1 Hr Hl h clk data t).
  pose proof (described_fits h mode ps d Hh H1 Hr Hl) as Hf.
  assert (salt_len (described mode (concat ps)) <= 275) as Ls by (apply (described_wf mode ps d); assumption).
  destruct (call_bytes_ok h clk (described mode (concat ps)) data (ch_iters c) t Hf ltac:(lia) L1 ltac:(lia)) as (A & B & _). split; [exact A|].
  intros N. rewrite (B N) by lia. eexists. split; [reflexivity|]. cbn [bdata bmax]. split; [reflexivity|]. destruct Hh as (P & L & K).
  unfold getLen. cbn [bdata]. destruct (N.to_nat (ch_iters c - 1)); cbn [iterated]; apply K.
Qed.

(** ** random chain hash data *)
Lemma mode_size_fits m x : 1 <= m <= 5 -> lenN x = mode_size m -> data_fits m x.
Proof. intros Hm. pattern m. apply modes5; [exact Hm|..]; cbn [mode_size data_fits]; intros ->; lia. Qed.
Lemma generate_eq m rnd : 1 <= m <= 5 -> (forall k, lenN (rnd k) = k) -> cd_generate rnd (newChd m) = Ret (to_chd m (rnd (mode_size m))).
Proof.
  intros Hm R. assert (rnd 0 = []) as R0 by (apply lenN_0, R). pattern m. apply modes5; [exact Hm|..]; cbn [mode_size].
  all: unfold cd_generate, newChd; cbn [isEmpty cd_block cd_star cd_size cd_mode negb star_of].
  - rewrite R0. cbn. unfold addrandom. cbn. unfold random_bytes. rewrite R0. reflexivity.
  - cbn. rewrite fillrandom_ok by (try exact R; reflexivity). reflexivity.
  - cbn. rewrite addrandom_ok by (try exact R; reflexivity || discriminate). reflexivity.
  - cbn. rewrite fillrandom_ok by (try exact R; reflexivity). reflexivity.
  - cbn. rewrite addrandom_ok by (try exact R; reflexivity || discriminate). reflexivity.
Qed.
Definition new_chain_of (w : world) (i : nat) (m n : N) : N * N * bytes := (m, n, w_rnd w i (mode_size m)).
Lemma new_chain_of_ok w i m n : (forall i k, lenN (w_rnd w i k) = k) -> 1 <= m <= 5 -> 1 <= n <= 1000000000 -> chain_ok (new_chain_of w i m n).
Proof. intros R Hm Hn. unfold chain_ok, new_chain_of. cbn [fst snd]. spl; try lia. apply mode_size_fits; [exact Hm|apply R]. Qed.
Lemma chain_of_to_ch c : chain_of (to_ch c) = Some c.
Proof. destruct c as [[m n] x]. reflexivity. Qed.
Lemma new_chains_eq w ds m1 n1 m2 n2 : (forall i k, lenN (w_rnd w i k) = k) ->
  s_ch1 ds = Some m1 -> s_n1 ds = Some n1 -> s_ch2 ds = Some m2 -> s_n2 ds = Some n2 ->
  1 <= m1 <= 5 -> 1 <= n1 <= 1000000000 -> 1 <= m2 <= 5 -> 1 <= n2 <= 1000000000 ->
  newChains w ds = Ret (to_ch (new_chain_of w 0 m1 n1), to_ch (new_chain_of w 1 m2 n2)).
Proof.
  intros R E1 E2 E3 E4 H1 H2 H3 H4. unfold newChains. rewrite E1, E2, E3, E4. cbn [set_get bind]. unfold newFormat.
  rewrite !(proj2 (ch_mode_valid_spec _)) by assumption. cbn [bind]. rewrite !generate_eq by (assumption || (intros; apply R)). cbn [bind].
  pose proof (new_chain_of_ok w 0 m1 n1 R H1 H2) as K1. pose proof (new_chain_of_ok w 1 m2 n2 R H3 H4) as K2.
  rewrite newChain_eq by (assumption || apply K1). rewrite newChain_eq by (assumption || apply K2). cbn [bind].
  assert (iters_ok n1 = true) as -> by (apply iters_ok_spec; exact H2). assert (iters_ok n2 = true) as -> by (apply iters_ok_spec; exact H4).
  change (mkCH (Some m1) (Some (to_chd m1 (w_rnd w 0 (mode_size m1)))) n1 true) with (to_ch (new_chain_of w 0 m1 n1)).
  change (mkCH (Some m2) (Some (to_chd m2 (w_rnd w 1 (mode_size m2)))) n2 true) with (to_ch (new_chain_of w 1 m2 n2)).
  rewrite !assign_same; try reflexivity; try (apply to_ch_inv; assumption). cbn [bind].
  rewrite (chain_len (to_ch (new_chain_of w 0 m1 n1)) _ (to_ch_inv _ K1) (chain_of_to_ch _)). cbn [bind].
  rewrite (chain_len (to_ch (new_chain_of w 1 m2 n2)) _ (to_ch_inv _ K2) (chain_of_to_ch _)). cbn [bind].
  assert (forall m x, data_fits m x -> cd_len (to_chd m x) = lenN x) as CL.
  { intros m x F. apply data_fits_len in F. unfold cd_len, to_chd, getLen. cbn [cd_block bdata]. apply N.mod_small. lia. }
  rewrite (CL m1) by apply K1. rewrite (CL m2) by apply K2. rewrite !N.eqb_refl. reflexivity.
Qed.

(** ** setHeaderParts *)
Definition db_plain (b : datablock) : N * bytes := (db_type b, bdata (db_data b)).
Definition eb_plain (e : encblock) : N * N * bytes := (db_type (eb_block e), eb_len e, bdata (db_data (eb_block e))).
Definition blen_of (bs : list datablock) (es : list encblock) : N := lenN (concat (map ser_block (map db_plain bs))) + 257 * lenN es.
Definition wrap (hm : N) (p : dhparts) (blen : N) : dheader := mkDH p (digest_len hm) (mkBytes [] 0) None blen.
Lemma addBlock_wrap hm p blen b : lenN (p_dec p) < 255 -> getLen (db_data b) <= 255 -> blen + 257 < two32 ->
  addDataBlock b (wrap hm p blen) = Ret (wrap hm (p_setDec (p_dec p ++ [b]) p) (blen + (2 + getLen (db_data b)))).
Proof.
  intros L F B. unfold addDataBlock, wrap. cbn [d_parts d_hsize d_bytes d_fsize d_blen]. destruct (N.leb_spec 255 (lenN (p_dec p))); [lia|].
  rewrite w32_small by lia. reflexivity.
Qed.
Lemma addEnc_wrap hm p blen b : lenN (p_enc p) < 255 -> getLen (db_data (eb_block b)) = 255 -> blen + 257 < two32 ->
  addEncDataBlock b (wrap hm p blen) = Ret (wrap hm (p_setEnc (p_enc p ++ [b]) p) (blen + 257)).
Proof.
  intros L F B. unfold addEncDataBlock, wrap. cbn [d_parts d_hsize d_bytes d_fsize d_blen]. destruct (N.leb_spec 255 (lenN (p_enc p))); [lia|].
  rewrite w32_small by lia. rewrite F. reflexivity.
Qed.
Lemma addAll_eq hm l : forall p blen, lenN (p_dec p) + lenN l <= 255 -> Forall (fun b => getLen (db_data b) <= 255) l -> blen + 257 * lenN l < two32 ->
  addAll l (wrap hm p blen) = Ret (wrap hm (p_setDec (p_dec p ++ l) p) (blen + lenN (concat (map ser_block (map db_plain l))))).
Proof.
  induction l as [|b l IH]; intros p blen L F B; cbn [addAll map concat].
  - rewrite app_nil_r. change (lenN (@nil byte)) with 0. rewrite N.add_0_r. destruct p. reflexivity.
  - inversion F as [|? ? F1 F2]; subst. cbv beta in F1. rewrite lenN_cons in L, B. rewrite addBlock_wrap by lia. cbn [bind].
    rewrite IH; [|cbn [p_setDec p_dec]; rewrite lenN_app; change (lenN [b]) with 1; lia|exact F2|lia].
    cbn [p_setDec p_dec p_hmode p_fmode p_valid p_salt p_enc p_ch1 p_ch2]. rewrite <- app_assoc. cbn [app]. do 2 f_equal.
    rewrite lenN_app, ser_block_len. unfold db_plain at 2, getLen. cbn [snd]. lia.
Qed.
Lemma addAllEnc_eq hm l : forall p blen, lenN (p_enc p) + lenN l <= 255 -> Forall (fun b => getLen (db_data (eb_block b)) = 255) l -> blen + 257 * lenN l < two32 ->
  addAllEnc l (wrap hm p blen) = Ret (wrap hm (p_setEnc (p_enc p ++ l) p) (blen + 257 * lenN l)).
Proof.
  induction l as [|b l IH]; intros p blen L F B; cbn [addAllEnc].
  - rewrite app_nil_r. change (lenN (@nil encblock)) with 0. rewrite N.mul_0_r, N.add_0_r. destruct p. reflexivity.
  - inversion F as [|? ? F1 F2]; subst. cbv beta in F1. rewrite lenN_cons in L, B |- *. rewrite addEnc_wrap by lia. cbn [bind].
    rewrite IH; [|cbn [p_setEnc p_enc]; rewrite lenN_app; change (lenN [b]) with 1; lia|exact F2|lia].
    cbn [p_setEnc p_dec p_hmode p_fmode p_valid p_salt p_enc p_ch1 p_ch2]. rewrite <- app_assoc. cbn [app]. do 2 f_equal. lia.
Qed.
Lemma addAll_big l : forall d, 255 < lenN (p_dec (d_parts d)) + lenN l -> lenN (p_dec (d_parts d)) <= 255 -> addAll l d = Throw LengthError.
Proof.
  induction l as [|b l IH]; intros d L1 L2; cbn [addAll]; [change (lenN (@nil datablock)) with 0 in L1; lia|]. rewrite lenN_cons in L1.
  unfold addDataBlock. destruct (N.leb_spec 255 (lenN (p_dec (d_parts d)))); [reflexivity|]. cbn [bind].
  apply IH; cbn [d_parts p_setDec p_dec]; rewrite lenN_app; change (lenN [b]) with 1; lia.
Qed.
Lemma addAllEnc_big l : forall d, 255 < lenN (p_enc (d_parts d)) + lenN l -> lenN (p_enc (d_parts d)) <= 255 -> addAllEnc l d = Throw LengthError.
Proof.
  induction l as [|b l IH]; intros d L1 L2; cbn [addAllEnc]; [change (lenN (@nil encblock)) with 0 in L1; lia|]. rewrite lenN_cons in L1.
  unfold addEncDataBlock. destruct (N.leb_spec 255 (lenN (p_enc (d_parts d)))); [reflexivity|]. cbn [bind].
  apply IH; cbn [d_parts p_setEnc p_enc]; rewrite lenN_app; change (lenN [b]) with 1; lia.
Qed.
Record pgood (m : N) (p : dhparts) (v s : Bytes) : Prop := mkPgood {
  g_hmode : p_hmode p = Some m; g_range : 1 <= m <= 3; g_fmode : p_fmode p = Some 1;
  g_valid : p_valid p = Some v; g_vlen : getLen v = digest_len m; g_salt : p_salt p = Some s; g_slen : getLen s = digest_len m;
  g_ch1 : ch_inv (p_ch1 p); g_val1 : ch_val (p_ch1 p) = true; g_ch2 : ch_inv (p_ch2 p); g_val2 : ch_val (p_ch2 p) = true;
  g_dec : Forall block_ok (map db_plain (p_dec p)); g_enc : Forall enc_ok (map eb_plain (p_enc p)) }.
Lemma lenN_map' {A B} (f : A -> B) l : lenN (map f l) = lenN l.
Proof. apply lenN_map. Qed.
Lemma set_parts m p v s rnd : pgood m p v s -> (forall k, lenN (rnd k) = k) ->
  (lenN (p_dec p) <= 255 -> lenN (p_enc p) <= 255 -> setHeaderParts rnd p = dret (wrap m p (blen_of (p_dec p) (p_enc p)))) /\
  (~ (lenN (p_dec p) <= 255 /\ lenN (p_enc p) <= 255) -> setHeaderParts rnd p = dfail ERR).
Proof.
  intros G R. destruct p as [hm fm vv ss dec enc c1 c2]. destruct G as [G1 Hm G2 G3 Lv G4 Ls I1 V1 I2 V2 FD FE]. cbn [p_hmode p_fmode p_valid p_salt p_dec p_enc p_ch1 p_ch2] in *. subst hm fm vv ss.
  assert (Forall (fun b => getLen (db_data b) <= 255) dec) as FD'.
  { pose proof (proj1 (Forall_map _ _ _) FD) as F0. eapply Forall_impl; [|exact F0]. intros b [_ K]. exact K. }
  assert (Forall (fun b => getLen (db_data (eb_block b)) = 255) enc) as FE'.
  { pose proof (proj1 (Forall_map _ _ _) FE) as F0. eapply Forall_impl; [|exact F0]. intros b (_ & _ & K). exact K. }
  assert (forall k, setHeaderParts rnd (mkParts (Some m) (Some 1) (Some v) (Some s) dec enc c1 c2) = k ->
    noexcept (try_ (any_std ERR) (d <- addAll dec (wrap m (mkParts (Some m) (Some 1) (Some v) (Some s) [] [] c1 c2) 0) ;; addAllEnc enc d)) = k) as S.
  { intros k <-. unfold setHeaderParts. cbn [p_getHashMode p_hmode bind p_getFileDataMode p_fmode]. rewrite (new_start rnd m R Hm). cbn [bind].
    unfold start, d_setFileDataMode, p_setFileDataMode. cbn [file_mode_valid N.leb N.compare Pos.compare Pos.compare_cont andb bind d_parts p_hmode p_fmode p_valid p_salt p_dec p_enc p_ch1 p_ch2].
    unfold d_with at 1. cbn [d_hsize d_bytes d_fsize d_blen]. change (clearBytes (mkBytes [] 0)) with (mkBytes [] 0).
    unfold setChainHash1. cbn [p_ch1 d_parts]. rewrite V1. cbn [negb]. rewrite assign_same by assumption. cbn [bind].
    unfold d_with at 1, p_setCh1. cbn [d_parts d_hsize d_bytes d_fsize d_blen p_hmode p_fmode p_valid p_salt p_dec p_enc p_ch1 p_ch2].
    unfold setChainHash2. cbn [p_ch2 d_parts]. rewrite V2. cbn [negb]. rewrite assign_same by assumption. cbn [bind].
    unfold d_with at 1, p_setCh2. cbn [d_parts d_hsize d_bytes d_fsize d_blen p_hmode p_fmode p_valid p_salt p_dec p_enc p_ch1 p_ch2].
    cbn [p_getValid p_valid bind]. unfold setValidPasswordHashBytes, p_setValid. cbn [d_parts p_getHashSize p_hmode bind]. change (hash_size_of m) with (digest_len m).
    assert (digest_len m =? getLen (copyBytes v) = true) as -> by (apply N.eqb_eq; symmetry; exact Lv). cbn [bind].
    unfold d_with at 1. cbn [d_parts d_hsize d_bytes d_fsize d_blen p_hmode p_fmode p_valid p_salt p_dec p_enc p_ch1 p_ch2].
    cbn [p_getSalt p_salt bind]. unfold d_setEncSalt, p_setSalt. cbn [d_parts p_getHashSize p_hmode bind]. change (hash_size_of m) with (digest_len m).
    assert (digest_len m =? getLen (copyBytes s) = true) as -> by (apply N.eqb_eq; symmetry; exact Ls). cbn [bind].
    unfold d_with at 1. cbn [d_parts d_hsize d_bytes d_fsize d_blen p_hmode p_fmode p_valid p_salt p_dec p_enc p_ch1 p_ch2].
    change (clearBytes (clearBytes (clearBytes (clearBytes (mkBytes [] 0))))) with (mkBytes [] 0). unfold wrap. destruct v, s. reflexivity. }
  split.
  - intros L1 L2. rewrite <- (S _ eq_refl).
    rewrite addAll_eq; [|exact L1|exact FD'|unfold two32; lia]. cbn [bind p_setDec p_hmode p_fmode p_valid p_salt p_dec p_enc p_ch1 p_ch2 app].
    assert (lenN (concat (map ser_block (map db_plain dec))) <= 257 * 255) as LB.
    { pose proof (blocks_len_bound _ FD) as K. rewrite lenN_map in K. lia. }
    rewrite addAllEnc_eq; [|exact L2|exact FE'|unfold two32; lia]. reflexivity.
  - intros Hn. rewrite <- (S _ eq_refl). destruct (N.leb_spec (lenN dec) 255) as [L1|L1].
    + rewrite addAll_eq; [|exact L1|exact FD'|unfold two32; lia]. cbn [bind p_setDec p_hmode p_fmode p_valid p_salt p_dec p_enc p_ch1 p_ch2 app].
      rewrite addAllEnc_big; [reflexivity| |]; unfold wrap; cbn [d_parts p_enc p_setDec]; change (lenN (@nil encblock)) with 0; lia.
    + rewrite addAll_big; [reflexivity| |]; unfold wrap; cbn [d_parts p_dec]; change (lenN (@nil datablock)) with 0; lia.
Qed.
