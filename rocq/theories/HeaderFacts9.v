(** Proofs about the whole life of a header: consequences for the properties. *)
From Verif Require Import Base BaseFacts BytesModel BytesFacts MiscModel MiscFacts CipherModel CipherFacts PwModel PwSpec PwFacts ChModel ChSpec ChFacts ChFacts2
  HeaderModel HeaderSpec HeaderFacts HeaderFacts2 HeaderFacts3 HeaderFacts4 HeaderFacts5 HeaderFacts6 HeaderFacts7.
Ltac Zify.zify_post_hook ::= Z.div_mod_to_equations.

(** ** invariant of every object *)
Lemma hbuilt_inv bd d : hbuilt bd d -> exists mode, hinv mode d /\ bytes_ok d.
Proof.
  induction 1 as [rnd mode d Hr E|rnd file d rest Hr E Hl|rnd f d Hr E|H clk d o _ (mode & I & B) Ho].
  - exists mode. exact (new_hinv rnd mode d Hr E).
  - assert (exists h, header_ok h /\ d = decoded (lenN file) h) as (h & Hh & ->).
    { destruct bd.
      - apply (decode_debug rnd Hr file d rest Hl) in E. destruct E as (h & Hh & _ & _ & ->). eauto.
      - apply (decode_release rnd Hr file d rest Hl) in E. destruct E as (? & ? & ? & h & (Hh & _) & ->). eauto. }
    exists (h_hmode h). split; [apply decoded_hinv; assumption|apply decoded_bytes; assumption].
  - destruct (mem_inv bd rnd f d Hr E) as (fs & hsz & l1 & l2 & h & Hf & _ & Hh & _ & _ & -> & _).
    exists (h_hmode h). split; [apply decoded_hinv; assumption|apply decoded_bytes; assumption].
  - exists mode. split; [apply step_hinv; assumption|eapply step_bytes; eassumption].
Qed.
Lemma get_bytes_spec mode d : hinv mode d -> bytes_ok d ->
  getHeaderBytes d = Throw LogicError \/
  exists h n b, contents d = Some h /\ d_fsize d = Some n /\ getHeaderBytes d = Ret b /\ bdata b = ser n h.
Proof.
  intros I B. unfold getHeaderBytes. destruct B as [B|[(n & h & F & C & B)|(h & C & B)]].
  - left. unfold getHeaderLength. assert (getLen (d_bytes d) = 0) as L0 by (unfold getLen; rewrite B; reflexivity). rewrite L0.
    destruct (ch_val (p_ch1 (d_parts d)) && ch_val (p_ch2 (d_parts d))) eqn:V; [|reflexivity]. apply andb_true_iff in V. destruct V as [V1 V2].
    destruct (chain_of_valid _ (i_ch1 _ _ I) V1) as [x X]. destruct (chain_of_valid _ (i_ch2 _ _ I) V2) as [y Y].
    rewrite (chain_len _ _ (i_ch1 _ _ I) X), (chain_len _ _ (i_ch2 _ _ I) Y). cbn [bind noexcept].
    match goal with |- (if ?a then _ else _) = _ => destruct a; reflexivity end.
  - right. exists h, n. rewrite (header_length mode d h I C). cbn [bind]. assert (header_ok h) as Hh by apply (contents_ok mode d h I C).
    pose proof (hdr_len_bounds h Hh). destruct (N.eqb_spec (hdr_len h) 0); [lia|]. unfold getLen. rewrite B, (ser_len n h Hh), N.eqb_refl. cbn [negb].
    eexists. spl; try assumption; try reflexivity. cbn [copyBytes bdata]. exact B.
  - left. rewrite (header_length mode d h I C). cbn [bind]. destruct (N.eqb_spec (hdr_len h) 0); [reflexivity|].
    unfold getLen. destruct (N.eqb_spec (hdr_len h) (lenN (bdata (d_bytes d)))); [lia|reflexivity].
Qed.
(** C23 *)
Lemma never_stale bd d : hbuilt bd d ->
  getHeaderBytes d = Throw LogicError \/
  exists h n b, contents d = Some h /\ d_fsize d = Some n /\ getHeaderBytes d = Ret b /\ bdata b = ser n h.
Proof. intros Hd. destruct (hbuilt_inv bd d Hd) as (mode & I & B). exact (get_bytes_spec mode d I B). Qed.

(** C20 *)
Lemma built_complete bd d : hbuilt bd d -> (d_isComplete d = true <-> exists h, contents d = Some h).
Proof. intros Hd. destruct (hbuilt_inv bd d Hd) as (mode & I & _). exact (complete_contents mode d I). Qed.
Lemma built_length bd d h : hbuilt bd d -> contents d = Some h -> header_ok h /\ getHeaderLength d = Ret (hdr_len h) /\
  72 + 32 * h_hmode h <= hdr_len h <= 131652 + 32 * h_hmode h.
Proof.
  intros Hd C. destruct (hbuilt_inv bd d Hd) as (mode & I & _). pose proof (contents_ok mode d h I C) as [Hh M].
  split; [exact Hh|]. split; [exact (header_length mode d h I C)|]. pose proof (hdr_len_bounds h Hh) as L.
  assert (digest_len (h_hmode h) = 16 + 16 * h_hmode h) as D. { rewrite M. pose proof (i_range _ _ I). assert (mode = 1 \/ mode = 2 \/ mode = 3) as [->|[->| ->]] by lia; reflexivity. }
  lia.
Qed.
Lemma any_header_built bd h : header_ok h -> no_empty_block h -> exists d, hbuilt bd d /\ contents d = Some h.
Proof.
  intros Hh Hn. set (rnd := fun k => repeat x00 (N.to_nat k)). assert (forall k, lenN (rnd k) = k) as Hr by (intros k; unfold rnd, lenN; rewrite repeat_length; lia).
  pose proof (hdr_len_small h Hh) as Hs. pose proof (decode_ser rnd Hr bd (hdr_len h) h [] Hh Hn) as E. change (lenN (@nil byte)) with 0 in E.
  assert (hdr_len h < two64) as H64 by (unfold two64; lia). specialize (E ltac:(lia) H64).
  exists (decoded (hdr_len h) h). split; [|apply decoded_contents; exact Hh].
  eapply (hb_stream bd rnd); [exact Hr|exact E|]. rewrite app_nil_r, (ser_len _ _ Hh). exact H64.
Qed.
Definition zeros (n : N) : bytes := repeat x00 (N.to_nat n).
Definition small_header (m : N) : header := mkHeader 1 m [] (1, 1, []) (1, 1, []) (zeros (digest_len m)) (zeros (digest_len m)) [].
Definition large_header (m : N) : header := mkHeader 1 m (repeat (1, zeros 255) 255) (2, 1000000000, zeros 255) (4, 1, zeros 255)
  (zeros (digest_len m)) (zeros (digest_len m)) (repeat (0, 0, zeros 255) 255).
Lemma zeros_len n : lenN (zeros n) = n.
Proof. unfold zeros, lenN. rewrite repeat_length. lia. Qed.
Lemma Forall_repeat {A} (P : A -> Prop) x n : P x -> Forall P (repeat x n).
Proof. intros Hx. induction n; constructor; assumption. Qed.
Lemma small_ok m : 1 <= m <= 3 -> header_ok (small_header m) /\ no_empty_block (small_header m) /\ hdr_len (small_header m) = 72 + 32 * m.
Proof.
  intros Hm. assert (m = 1 \/ m = 2 \/ m = 3) as X by lia. spl.
  - unfold header_ok, small_header. cbn [h_fmode h_hmode h_blocks h_ch1 h_ch2 h_valid h_salt h_encs]. unfold chain_ok. cbn [fst snd data_fits]. change (lenN (@nil byte)) with 0.
    rewrite !zeros_len. spl; try lia; try constructor; vm_compute; discriminate.
  - constructor.
  - unfold hdr_len, small_header. cbn [h_hmode h_blocks h_ch1 h_ch2 h_encs snd map]. destruct X as [->|[->| ->]]; reflexivity.
Qed.
Lemma large_ok m : 1 <= m <= 3 -> header_ok (large_header m) /\ no_empty_block (large_header m) /\ hdr_len (large_header m) = 131652 + 32 * m.
Proof.
  intros Hm. assert (m = 1 \/ m = 2 \/ m = 3) as X by lia. spl.
  - unfold header_ok, large_header. cbn [h_fmode h_hmode h_blocks h_ch1 h_ch2 h_valid h_salt h_encs]. unfold chain_ok. cbn [fst snd data_fits].
    rewrite !zeros_len. spl; try lia; try (apply Forall_repeat); try (vm_compute; discriminate).
    + split; cbn [fst snd]; [reflexivity|rewrite zeros_len; lia].
    + split; cbn [fst snd]; [reflexivity|split; [reflexivity|apply zeros_len]].
  - apply Forall_repeat. cbn [snd]. discriminate.
  - unfold hdr_len, large_header. cbn [h_hmode h_blocks h_ch1 h_ch2 h_encs snd]. rewrite !zeros_len. destruct X as [->|[->| ->]]; vm_compute; reflexivity.
Qed.
Lemma bounds_attained bd m : 1 <= m <= 3 ->
  (exists d h, hbuilt bd d /\ contents d = Some h /\ h_hmode h = m /\ getHeaderLength d = Ret (72 + 32 * m)) /\
  (exists d h, hbuilt bd d /\ contents d = Some h /\ h_hmode h = m /\ getHeaderLength d = Ret (131652 + 32 * m)).
Proof.
  intros Hm. split.
  - destruct (small_ok m Hm) as (A & B & C). destruct (any_header_built bd _ A B) as (d & Hd & E). exists d, (small_header m). spl; try assumption; try reflexivity.
    rewrite <- C. exact (proj1 (proj2 (built_length bd d _ Hd E))).
  - destruct (large_ok m Hm) as (A & B & C). destruct (any_header_built bd _ A B) as (d & Hd & E). exists d, (large_header m). spl; try assumption; try reflexivity.
    rewrite <- C. exact (proj1 (proj2 (built_length bd d _ Hd E))).
Qed.
Lemma calc_bytes bd H clk pw d d' : hbuilt bd d -> calcHeaderBytes H clk pw d = (d', Ret tt) ->
  exists h n b, contents d = Some h /\ contents d' = Some h /\ d_fsize d = Some n /\ d_fsize d' = Some n /\ hdr_len h <= n /\
    getHeaderBytes d' = Ret b /\ bdata b = ser n h /\ lenN (bdata b) = hdr_len h.
Proof.
  intros Hd E. destruct (hbuilt_inv bd d Hd) as (mode & I & B). destruct (contents d) as [h|] eqn:C.
  2:{ rewrite (calc_incomplete mode H clk pw d I C) in E. discriminate. }
  rewrite (calc_spec mode H clk pw d h I C) in E. destruct (d_fsize d) as [n|] eqn:F; [|discriminate]. destruct (N.ltb_spec n (hdr_len h)); [discriminate|].
  destruct (checkPwHash _ _ _ _); try discriminate. injection E as <-. assert (header_ok h) as Hh by apply (contents_ok mode d h I C).
  pose proof (hdr_len_bounds h Hh).
  assert (getHeaderLength (with_bytes (mkBytes (ser n h) (hdr_len h)) d) = Ret (hdr_len h)) as L.
  { apply (header_length mode); [apply hinv_bytes; exact I|]. exact C. }
  exists h, n, (copyBytes (mkBytes (ser n h) (hdr_len h))). spl; try assumption; try reflexivity.
  - unfold getHeaderBytes. rewrite L. cbn [bind]. destruct (N.eqb_spec (hdr_len h) 0); [lia|]. unfold getLen. cbn [with_bytes d_bytes bdata].
    rewrite (ser_len n h Hh), N.eqb_refl. reflexivity.
  - apply ser_len. exact Hh.
Qed.

(** C21 *)
Lemma set_size_complete mode d h n : hinv mode d -> contents d = Some h ->
  setFileSize n d = if n <? hdr_len h then Throw InvalidArgument else Ret (mkDH (d_parts d) (d_hsize d) (clearBytes (d_bytes d)) (Some n) (d_blen d)).
Proof.
  intros I C. unfold setFileSize. assert (d_isComplete d = true) as -> by (apply (complete_contents mode d I); eauto). cbn [negb].
  rewrite (header_length mode d h I C). reflexivity.
Qed.
Lemma decoded_view fs h : header_ok h -> fs < two64 ->
  contents (decoded fs h) = Some h /\ d_fsize (decoded fs h) = Some fs /\ exists b, getHeaderBytes (decoded fs h) = Ret b /\ bdata b = ser fs h.
Proof.
  intros Hh Hf. split; [apply decoded_contents; exact Hh|]. split; [reflexivity|].
  destruct (get_bytes_spec _ _ (decoded_hinv fs h Hh Hf) (decoded_bytes fs h Hh)) as [E|(h' & n & b & C & F & E & B)].
  - exfalso. unfold getHeaderBytes in E. rewrite (header_length _ _ h (decoded_hinv fs h Hh Hf) (decoded_contents fs h Hh)) in E. cbn [bind] in E.
    pose proof (hdr_len_bounds h Hh). destruct (N.eqb_spec (hdr_len h) 0); [lia|].
    change (getLen (d_bytes (decoded fs h))) with (lenN (ser fs h)) in E. rewrite (ser_len _ _ Hh), N.eqb_refl in E. discriminate.
  - rewrite (decoded_contents fs h Hh) in C. injection C as <-. injection F as <-. eauto.
Qed.
Lemma write_read bd d h body : hbuilt bd d -> contents d = Some h -> no_empty_block h -> hdr_len h + lenN body < two64 ->
  exists d1 d2 b, setFileSize (hdr_len h + lenN body) d = Ret d1 /\
    (forall H clk, calcHeaderBytes H clk (mkBytes [] 0) d1 = (d2, Ret tt)) /\ getHeaderBytes d2 = Ret b /\
    forall bd' rnd, (forall k, lenN (rnd k) = k) ->
      exists d3 b3, decode_stream bd' rnd (bdata b ++ body) = Ret (inr (d3, body)) /\
        contents d3 = Some h /\ d_fsize d3 = Some (hdr_len h + lenN body) /\ getHeaderBytes d3 = Ret b3 /\ bdata b3 = bdata b.
Proof.
  intros Hd C Hn L. destruct (hbuilt_inv bd d Hd) as (mode & I & _). pose proof (contents_ok mode d h I C) as [Hh _].
  set (fs := hdr_len h + lenN body) in *. exists (mkDH (d_parts d) (d_hsize d) (clearBytes (d_bytes d)) (Some fs) (d_blen d)).
  assert (setFileSize fs d = Ret (mkDH (d_parts d) (d_hsize d) (clearBytes (d_bytes d)) (Some fs) (d_blen d))) as E1.
  { rewrite (set_size_complete mode d h fs I C). destruct (N.ltb_spec fs (hdr_len h)); [lia|reflexivity]. }
  assert (hbuilt bd (mkDH (d_parts d) (d_hsize d) (clearBytes (d_bytes d)) (Some fs) (d_blen d))) as Hd1.
  { pose proof (hb_step bd (mkHashes (fun x => x) (fun x => x) (fun x => x)) (fun _ => 0) d (HFileSize fs) Hd L) as X. cbn [h_step] in X. rewrite E1 in X. exact X. }
  set (d1 := mkDH (d_parts d) (d_hsize d) (clearBytes (d_bytes d)) (Some fs) (d_blen d)) in *.
  assert (contents d1 = Some h) as C1 by exact C.
  destruct (hbuilt_inv bd d1 Hd1) as (mode1 & I1 & _).
  assert (forall H clk, calcHeaderBytes H clk (mkBytes [] 0) d1 = (with_bytes (mkBytes (ser fs h) (hdr_len h)) d1, Ret tt)) as E2.
  { intros H clk. rewrite (calc_spec mode1 H clk _ d1 h I1 C1). cbn [d1 d_fsize]. destruct (N.ltb_spec fs (hdr_len h)); [lia|]. reflexivity. }
  exists (with_bytes (mkBytes (ser fs h) (hdr_len h)) d1).
  destruct (calc_bytes bd (mkHashes (fun x => x) (fun x => x) (fun x => x)) (fun _ => 0) _ d1 _ Hd1 (E2 _ _)) as (h' & n & b & X1 & _ & X2 & _ & _ & X3 & X4 & _).
  assert (h' = h) by congruence. subst h'. injection X2 as <-. exists b. spl; try assumption.
  intros bd' rnd Hr. rewrite X4. exists (decoded fs h). destruct (decoded_view fs h Hh L) as (V1 & V2 & b3 & V3 & V4). exists b3.
  rewrite (decode_ser rnd Hr bd' fs h body Hh Hn eq_refl L). spl; try assumption; reflexivity.
Qed.
(** a header with an empty block cannot be read back *)
Lemma first_empty (bs : list (N * bytes)) : Forall block_ok bs -> ~ Forall (fun b => snd b <> []) bs ->
  exists a ty c, bs = a ++ (ty, []) :: c /\ Forall good a /\ ty < 256.
Proof.
  induction 1 as [|b bs Hb Hbs IH]; intros Hn; [exfalso; apply Hn; constructor|]. destruct b as [ty x]. destruct x as [|x0 x].
  - exists [], ty, bs. split; [reflexivity|]. split; [constructor|apply Hb].
  - destruct IH as (a & ty' & c & -> & Ga & Ht). { intros F. apply Hn. constructor; [discriminate|exact F]. }
    exists ((ty, x0 :: x) :: a), ty', c. split; [reflexivity|]. split; [constructor; [split; [exact Hb|discriminate]|exact Ga]|exact Ht].
Qed.
Lemma empty_block_kills bd rnd fs h rest : (forall k, lenN (rnd k) = k) -> header_ok h -> ~ no_empty_block h -> fs = hdr_len h + lenN rest -> fs < two64 ->
  decode_stream bd rnd (ser fs h ++ rest) = Crash Terminate.
Proof.
  intros Hr Hh Hn -> Hf. set (fs := hdr_len h + lenN rest) in *. apply decode_zero; [exact Hr|].
  pose proof Hh as (A1 & A2 & A3 & A4 & _). destruct (first_empty _ A4 Hn) as (a & ty & c & E & Ga & Ht).
  assert (lenN (ser fs h ++ rest) = fs) as L by (rewrite lenN_app, (ser_len _ _ Hh); reflexivity).
  assert (lenN (h_blocks h) = lenN a + 1 + lenN c) as Lb by (rewrite E, lenN_app, lenN_cons; lia).
  exists (hdr_len h), (h_hmode h), (lenN (h_blocks h)), a, ty. eexists. unfold pre_ok. rewrite L. spl; try assumption; try lia.
  unfold ser. rewrite (layout_pre fs (hdr_len h) _ _ h rest A1). unfold pre. rewrite E at 2. rewrite map_app, concat_app. cbn [map concat]. unfold ser_block at 2. cbn [fst snd].
  change (lenN (@nil byte)) with 0. rewrite <- !app_assoc. cbn [app]. reflexivity.
Qed.

(** C24 *)
Lemma hash_mode_ok H m : hashes_ok H -> 1 <= m <= 3 -> exists h, getHash H m = Ret h /\ hash_ok h /\ hfun h = hash_of H m.
Proof.
  intros (A & B & C) Hm. assert (m = 1 \/ m = 2 \/ m = 3) as [->|[->| ->]] by lia; eexists; (split; [reflexivity|]); (split; [|reflexivity]);
    unfold hash_ok; cbn [hsize hfun]; spl; auto; lia.
Qed.
Lemma chain_bytes c x h clk data : ch_inv c -> chain_of c = Some x -> hash_ok h -> getLen data <= bmax data -> bmax data + 275 < 2 ^ 64 ->
  exists b, performChainHash_b h clk c data 0 = Ret (Done b) /\ bdata b = chain_value (hfun h) x (bdata data).
Proof.
  intros Hc E Hh L1 L2. pose proof (chain_of_val _ _ E) as V.
  destruct (usable_rep c Hc V) as (mode & d & ps & E1 & E2 & H1 & Hr & Hl & Hi). unfold chain_of in E. rewrite V, E1, E2 in E. injection E as <-.
  unfold chain_value. cbn [fst snd]. destruct (rep_block _ _ _ Hr) as [Ed _]. rewrite Ed. cbn [bdata].
  rewrite (perform_b_dispatch c mode d ps V E1 E2 H1 Hr Hl h clk data 0).
  pose proof (described_fits h mode ps d Hh H1 Hr Hl) as Hf.
  assert (salt_len (described mode (concat ps)) <= 275) as Ls by (apply (described_wf mode ps d); assumption).
  destruct (bytes_agree h clk clk (described mode (concat ps)) data (ch_iters c) Hf ltac:(lia) L1 ltac:(lia)) as (b & B1 & B2).
  exists b. split; [exact B1|]. destruct (string_documented h clk (described mode (concat ps)) (bdata data) (ch_iters c) Hf ltac:(lia)) as (b' & B3 & B4). congruence.
Qed.
Lemma eqBytes_iff a b : eqBytes a b = true <-> bdata a = bdata b.
Proof.
  unfold eqBytes. destruct (N.eqb_spec (getLen a) (getLen b)) as [L|L]; cbn [negb andb].
  - apply eqb_bytes_spec.
  - split; [discriminate|]. intros E. exfalso. apply L. unfold getLen. rewrite E. reflexivity.
Qed.
