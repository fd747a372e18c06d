(** Proofs about encrypted data blocks and header settings. *)
From Verif Require Import Base BaseFacts BytesModel BytesFacts MiscModel MiscFacts CipherModel CipherSpec CipherFacts PwModel PwSpec PwFacts ChModel ChSpec ChFacts ChFacts2 HeaderModel HeaderSpec HeaderFacts HeaderFacts2.
Ltac Zify.zify_post_hook ::= Z.div_mod_to_equations.

(** ** encrypted blocks *)
Lemma pad_len H n : forall key s k, (forall x, lenN (H x) = k) -> lenN (pad H n key s) = N.of_nat n * k.
Proof. induction n as [|n IH]; intros key s k Hk; [reflexivity|]. cbn [pad]. rewrite lenN_app, Hk, (IH _ _ k Hk). lia. Qed.
Lemma w16_s n : n < 65536 -> w16 n = n.
Proof. intros Hn. apply N.mod_small. exact Hn. Qed.
Lemma hash_ret h x : hash_ok h -> do_hash h x 0 = Ret (mkBytes (hfun h x) (hsize h)).
Proof.
  intros (H1 & H2 & H3). unfold do_hash. change (w32 0) with 0. rewrite N.add_0_r.
  assert (w32 (hsize h) = hsize h) as -> by (apply N.mod_small; unfold two32; lia). rewrite N.ltb_irrefl. reflexivity.
Qed.
Lemma copySub_ok b i j : i <= j -> j <= getLen b -> copySubBytes i j b = Ret (mkBytes (takeN (j - i) (dropN i (bdata b))) (j - i)).
Proof.
  intros L1 L2. unfold copySubBytes. destruct (N.ltb_spec j i); [lia|]. destruct (N.ltb_spec (getLen b) j); [lia|].
  unfold sliceN. reflexivity.
Qed.
Lemma drop_cut {A} (l : list A) i n : dropN i l = takeN n (dropN i l) ++ dropN (n + i) l.
Proof. rewrite <- dropN_dropN. symmetry. apply takeN_dropN. Qed.
Lemma zipb_app_take f (x k : bytes) n y : lenN x <= n -> lenN k = n -> zipb f x (k ++ y) = zipb f x (takeN (lenN x) k).
Proof.
  intros Hx Hk. rewrite <- (zipb_firstn_r f x (k ++ y)). f_equal. unfold takeN. rewrite firstn_app.
  replace (length x - length k)%nat with 0%nat by (unfold lenN in *; lia). cbn [firstn]. rewrite app_nil_r. f_equal. unfold lenN. lia.
Qed.
Lemma len_dropN {A} n (l : list A) : lenN (dropN n l) = lenN l - n.
Proof. unfold dropN, lenN. rewrite skipn_length. lia. Qed.
Lemma zipb_nil f y : zipb f [] y = [].
Proof. reflexivity. Qed.

Lemma enc_loop_spec h : hash_ok h -> forall fuel data pwh salt w acc,
  getLen pwh = hsize h -> getLen salt = hsize h -> getLen data <= 255 -> getLen acc = w -> w <= getLen data -> getLen data <= bmax acc ->
  getLen data - w <= N.of_nat fuel * hsize h ->
  enc_loop fuel h data pwh salt w acc =
  Ret (mkBytes (bdata acc ++ zipb addb (dropN w (bdata data)) (pad (hfun h) fuel (bdata pwh) (bdata salt))) (bmax acc)).
Proof.
  intros Hh. destruct Hh as (H1 & H2 & H3) eqn:Eh. clear Eh. induction fuel as [|fuel IH]; intros data pwh salt w acc Lp Ls Ld Lw Lwd Lb Lf; cbn [enc_loop].
  - assert (w = getLen data) as -> by lia. rewrite Lw, N.eqb_refl. rewrite dropN_all by (unfold getLen; lia). rewrite zipb_nil, app_nil_r. destruct acc; reflexivity.
  - destruct (N.eqb_spec (getLen acc) (getLen data)) as [Ee|Ee].
    { rewrite dropN_all by (unfold getLen in *; lia). rewrite zipb_nil, app_nil_r. destruct acc; reflexivity. }
    unfold minusBytes at 1. rewrite Ls, Lp, N.eqb_refl. cbn [bind bdata]. rewrite hash_ret by (split; [|split]; assumption). cbn [bind].
    set (s' := hfun h (zipb subb (bdata salt) (bdata pwh))). assert (lenN s' = hsize h) as Ls' by apply H3.
    assert (getLen (mkBytes s' (hsize h)) = hsize h) as G by exact Ls'. rewrite G. set (e := N.min (w + hsize h) (getLen data)).
    assert (w16 e = e) as -> by (apply w16_s; lia).
    rewrite copySub_ok by lia. cbn [bind]. rewrite copySub_ok by lia. cbn [bind bdata]. rewrite dropN_0, N.sub_0_r.
    unfold plusBytes. cbn [bdata bmax]. assert (getLen (mkBytes (takeN (e - w) (dropN w (bdata data))) (e - w)) = e - w) as ->.
    { unfold getLen. cbn [bdata]. rewrite lenN_takeN, len_dropN. unfold getLen in *. lia. }
    assert (getLen (mkBytes (takeN (e - w) s') (e - w)) = e - w) as -> by (unfold getLen; cbn [bdata]; rewrite lenN_takeN; lia).
    rewrite N.eqb_refl. cbn [bind]. set (z := zipb addb (takeN (e - w) (dropN w (bdata data))) (takeN (e - w) s')).
    assert (lenN z = e - w) as Lz. { unfold z. rewrite lenN_zipb, !lenN_takeN, len_dropN. unfold getLen in *. lia. }
    assert (addcopyToBytes (mkBytes z (e - w)) acc = Ret (mkBytes (bdata acc ++ z) (bmax acc))) as ->.
    { apply (addcopy_ok (mkBytes z (e - w)) (bdata acc) (bmax acc)) ; unfold getLen in *; cbn [bdata]; rewrite Lz; lia. }
    cbn [bind]. rewrite IH; try assumption.
    + cbn [bdata bmax pad]. rewrite bdiff_zipb. fold s'. do 2 f_equal. rewrite <- app_assoc. f_equal. rewrite (drop_cut _ w (e - w)). replace (e - w + w) with e by lia.
      destruct (N.le_gt_cases (w + hsize h) (getLen data)) as [Lc|Lc].
      * assert (e - w = hsize h) as Ew by lia. unfold z. rewrite Ew. rewrite (takeN_all _ s') by lia. symmetry. apply zipb_app.
        assert (lenN (takeN (hsize h) (dropN w (bdata data))) = lenN s') as L. { rewrite lenN_takeN, len_dropN. unfold getLen in *. lia. }
        unfold lenN in L. lia.
      * rewrite (dropN_all e) by (unfold getLen in *; lia). rewrite zipb_nil, !app_nil_r. unfold z.
        assert (lenN (takeN (e - w) (dropN w (bdata data))) = e - w) as L. { rewrite lenN_takeN, len_dropN. unfold getLen in *. lia. }
        rewrite (zipb_app_take addb _ s' (hsize h)) by lia. rewrite L. reflexivity.
    + unfold getLen. cbn [bdata]. rewrite lenN_app, Lz. unfold getLen in *. lia.
    + lia.
    + lia.
Qed.
Lemma dec_loop_spec h : hash_ok h -> forall fuel data pwh salt len w acc,
  getLen pwh = hsize h -> getLen salt = hsize h -> len <= 255 -> len <= getLen data -> getLen acc = w -> w <= len -> len <= bmax acc ->
  len - w <= N.of_nat fuel * hsize h ->
  dec_loop fuel h data pwh salt len w acc =
  Ret (mkBytes (bdata acc ++ zipb subb (takeN (len - w) (dropN w (bdata data))) (pad (hfun h) fuel (bdata pwh) (bdata salt))) (bmax acc)).
Proof.
  intros Hh. destruct Hh as (H1 & H2 & H3) eqn:Eh. clear Eh. induction fuel as [|fuel IH]; intros data pwh salt len w acc Lp Ls Ld Ldd Lw Lwd Lb Lf; cbn [dec_loop].
  - assert (w = len) as -> by lia. rewrite Lw, N.ltb_irrefl. cbn [negb]. rewrite N.sub_diag, takeN_0, zipb_nil, app_nil_r. destruct acc; reflexivity.
  - destruct (N.ltb_spec (getLen acc) len) as [Ee|Ee]; cbn [negb].
    2:{ replace (len - w) with 0 by lia. rewrite takeN_0, zipb_nil, app_nil_r. destruct acc; reflexivity. }
    unfold minusBytes at 1. rewrite Ls, Lp, N.eqb_refl. cbn [bind bdata]. rewrite hash_ret by (split; [|split]; assumption). cbn [bind].
    set (s' := hfun h (zipb subb (bdata salt) (bdata pwh))). assert (lenN s' = hsize h) as Ls' by apply H3.
    assert (getLen (mkBytes s' (hsize h)) = hsize h) as G by exact Ls'. rewrite G. set (e := N.min (w + hsize h) len).
    assert (w16 e = e) as -> by (apply w16_s; lia).
    rewrite copySub_ok by lia. cbn [bind]. rewrite copySub_ok by lia. cbn [bind bdata]. rewrite dropN_0, N.sub_0_r.
    unfold minusBytes. cbn [bdata bmax]. assert (getLen (mkBytes (takeN (e - w) (dropN w (bdata data))) (e - w)) = e - w) as ->.
    { unfold getLen. cbn [bdata]. rewrite lenN_takeN, len_dropN. unfold getLen in *. lia. }
    assert (getLen (mkBytes (takeN (e - w) s') (e - w)) = e - w) as -> by (unfold getLen; cbn [bdata]; rewrite lenN_takeN; lia).
    rewrite N.eqb_refl. cbn [bind]. set (z := zipb subb (takeN (e - w) (dropN w (bdata data))) (takeN (e - w) s')).
    assert (lenN z = e - w) as Lz. { unfold z. rewrite lenN_zipb, !lenN_takeN, len_dropN. unfold getLen in *. lia. }
    assert (addcopyToBytes (mkBytes z (e - w)) acc = Ret (mkBytes (bdata acc ++ z) (bmax acc))) as ->.
    { destruct acc as [ad am]. apply addcopy_ok. unfold getLen in *; cbn [bdata bmax] in *; rewrite Lz; lia. }
    cbn [bind]. rewrite IH; try assumption.
    + cbn [bdata bmax pad]. rewrite bdiff_zipb. fold s'. do 2 f_equal. rewrite <- app_assoc. f_equal.
      replace (len - w) with ((e - w) + (len - e)) by lia. rewrite takeN_split, dropN_dropN. replace (e - w + w) with e by lia.
      destruct (N.le_gt_cases (w + hsize h) len) as [Lc|Lc].
      * assert (e - w = hsize h) as Ew by lia. unfold z. rewrite Ew. rewrite (takeN_all _ s') by lia. symmetry. apply zipb_app.
        assert (lenN (takeN (hsize h) (dropN w (bdata data))) = lenN s') as L. { rewrite lenN_takeN, len_dropN. unfold getLen in *. lia. }
        unfold lenN in L. lia.
      * replace (len - e) with 0 by lia. rewrite takeN_0, zipb_nil, !app_nil_r. unfold z.
        assert (lenN (takeN (e - w) (dropN w (bdata data))) = e - w) as L. { rewrite lenN_takeN, len_dropN. unfold getLen in *. lia. }
        rewrite (zipb_app_take subb _ s' (hsize h)) by lia. rewrite L. reflexivity.
    + unfold getLen. cbn [bdata]. rewrite lenN_app, Lz. unfold getLen in *. lia.
    + lia.
    + lia.
Qed.
Lemma key_byte i b : i < getLen b -> exists x, nth_error (bdata b) (N.to_nat i) = Some x /\ keyByte i b = Ret (b2n x).
Proof.
  intros Hi. unfold keyByte. rewrite copySub_ok by lia. cbn [bind]. replace (i + 1 - i) with 1 by lia.
  unfold getLen, lenN in Hi. destruct (nth_error (bdata b) (N.to_nat i)) as [x|] eqn:E; [|apply nth_error_None in E; lia].
  exists x. split; [reflexivity|]. unfold takeN, dropN. assert (skipn (N.to_nat i) (bdata b) = x :: skipn (S (N.to_nat i)) (bdata b)) as ->.
  { clear -E. revert E. generalize (N.to_nat i). induction (bdata b) as [|y l IH]; intros [|n] E; try discriminate; [injection E as ->; reflexivity|]. apply IH. exact E. }
  change (N.to_nat 1) with 1%nat. cbn [firstn]. unfold toLong, getLen. cbn [bdata]. change (8 <? lenN [x]) with false. cbn [rev app le_val]. f_equal. lia.
Qed.

(** C28 *)
Lemma enc_block_build fuel rnd h b pwhash salt : (forall k, lenN (rnd k) = k) -> hash_ok h -> 2 <= hsize h -> getLen salt = hsize h ->
  getLen (db_data b) <= 255 -> 255 <= N.of_nat fuel ->
  (getLen (db_data b) <> 255 -> newEncDataBlock fuel rnd h b pwhash salt = Throw InvalidArgument) /\
  (getLen (db_data b) = 255 -> exists e k, newEncDataBlock fuel rnd h b pwhash salt = Ret e /\
     nth_error (hfun h (bdata pwhash)) 1 = Some k /\ eb_len e = (255 + b2n k) mod 256 /\ db_type (eb_block e) = db_type b /\
     bdata (db_data (eb_block e)) = zipb addb (bdata (db_data b)) (pad (hfun h) fuel (hfun h (bdata pwhash)) (bdata salt))).
Proof.
  intros Hr Hh H2 Ls Ld Lf. pose proof Hh as (H0 & _ & H3). unfold newEncDataBlock. rewrite (hash_ret h _ Hh). cbn [bind].
  set (pwh := mkBytes (hfun h (bdata pwhash)) (hsize h)). assert (getLen pwh = hsize h) as Lp by apply H3.
  destruct (key_byte 0 pwh) as (k0 & _ & ->); [lia|]. destruct (key_byte 1 pwh) as (k1 & N1 & ->); [lia|]. cbn [bind].
  rewrite (enc_loop_spec h Hh) by (try assumption; try reflexivity; cbn [bmax]; change (getLen (mkBytes [] 255)) with 0; nia). cbn [bind app bdata bmax]. rewrite dropN_0.
  set (x := zipb addb (bdata (db_data b)) (pad (hfun h) fuel (bdata pwh) (bdata salt))).
  assert (lenN x = getLen (db_data b)) as Lx. { unfold x. rewrite lenN_zipb, (pad_len _ _ _ _ _ H3). unfold getLen in *. nia. }
  assert (getLen (mkBytes x 255) = getLen (db_data b)) as -> by exact Lx.
  rewrite fillrandom_ok by (try exact Hr; unfold addSize; cbn [bmax]; lia). cbn [bind].
  set (y := filled rnd (addSize (255 - getLen (db_data b)) (mkBytes x 255))).
  assert (getLen y = 510 - getLen (db_data b)) as Ly.
  { unfold y. rewrite fillrandom_len; [unfold addSize; cbn [bmax]; lia|exact Hr|]. unfold addSize, getLen in *. cbn [bdata bmax]. lia. }
  split; intros L.
  - unfold db_setData. rewrite Ly. destruct (N.leb_spec (510 - getLen (db_data b)) 255); [lia|]. rewrite andb_false_r. reflexivity.
  - unfold db_setData. rewrite Ly, L. change ((0 <? 510 - 255) && (510 - 255 <=? 255)) with true. cbn [bind]. eexists. exists k1. split; [reflexivity|].
    cbn [eb_len eb_block db_type db_data]. spl; try reflexivity; [exact N1|].
    unfold y, filled, addSize, copyBytes. cbn [bdata bmax]. rewrite L. change (255 - 255) with 0. rewrite N.add_0_r.
    assert (getLen (mkBytes x 255) = 255) as -> by (unfold getLen; cbn [bdata]; lia). change (255 - 255) with 0.
    assert (rnd 0 = []) as -> by (specialize (Hr 0); destruct (rnd 0); [reflexivity|rewrite lenN_cons in Hr; lia]). apply app_nil_r.
Qed.
Lemma enc_block_sum fuel rnd h b pwhash salt : (forall k, lenN (rnd k) = k) -> hash_ok h -> 2 <= hsize h -> getLen salt = hsize h ->
  getLen (db_data b) <= 255 -> 255 <= N.of_nat fuel ->
  (getLen (db_data b) <> 255 -> newEncDataBlock fuel rnd h b pwhash salt = Throw InvalidArgument) /\
  (getLen (db_data b) = 255 -> exists e k, newEncDataBlock fuel rnd h b pwhash salt = Ret e /\
     nth_error (hfun h (bdata pwhash)) 1 = Some k /\ eb_len e = (255 + b2n k) mod 256 /\ db_type (eb_block e) = db_type b /\
     bdata (db_data (eb_block e)) = bsum (bdata (db_data b)) (pad (hfun h) fuel (hfun h (bdata pwhash)) (bdata salt))).
Proof. rewrite bsum_zipb. apply enc_block_build. Qed.
Lemma enc_block_round_trip fuel rnd h b pwhash salt e : (forall k, lenN (rnd k) = k) -> hash_ok h -> 2 <= hsize h -> getLen salt = hsize h ->
  getLen (db_data b) <= 255 -> 255 <= N.of_nat fuel ->
  newEncDataBlock fuel rnd h b pwhash salt = Ret e ->
  exists r, getDec fuel h pwhash salt e = Ret r /\ bdata r = bdata (db_data b).
Proof.
  intros Hr Hh H2 Ls Ld Lf E. pose proof Hh as (H0 & _ & H3).
  destruct (enc_block_build fuel rnd h b pwhash salt Hr Hh H2 Ls Ld Lf) as [A B].
  destruct (N.eq_dec (getLen (db_data b)) 255) as [L|L]; [|rewrite A in E by exact L; discriminate].
  destruct (B L) as (e' & k & E' & Nk & El & _ & Ed). assert (e' = e) by congruence. subst e'. clear E' A B.
  unfold getDec. rewrite (hash_ret h _ Hh). cbn [bind]. set (pwh := mkBytes (hfun h (bdata pwhash)) (hsize h)).
  assert (getLen pwh = hsize h) as Lp by apply H3. destruct (key_byte 1 pwh) as (k1 & N1 & ->); [lia|]. cbn [bind].
  assert (k1 = k) as -> by (cbn [pwh bdata] in N1; change (N.to_nat 1) with 1%nat in N1; congruence).
  assert (w8 (eb_len e + 256 - b2n k) = 255) as ->.
  { rewrite El. unfold w8. pose proof (b2n_lt k). destruct (N.le_gt_cases (b2n k) 0) as [Z|Z].
    - assert (b2n k = 0) as -> by lia. reflexivity.
    - replace ((255 + b2n k) mod 256) with (b2n k - 1) by (apply (N.mod_unique _ _ 1); lia). replace (b2n k - 1 + 256 - b2n k) with 255 by lia. reflexivity. }
  assert (lenN (bdata (db_data (eb_block e))) = 255) as Le. { rewrite Ed, lenN_zipb, (pad_len _ _ _ _ _ H3). unfold getLen in *. nia. }
  rewrite (dec_loop_spec h Hh) by (try assumption; try reflexivity; try lia; cbn [bmax]; change (getLen (mkBytes [] 255)) with 0; unfold getLen; try nia; vm_compute; discriminate).
  cbn [noexcept]. eexists. split; [reflexivity|]. cbn [bdata app]. change (255 - 0) with 255. rewrite dropN_0, takeN_all by lia. rewrite Ed.
  apply zipb_inv; [apply addb_subb|]. assert (lenN (bdata (db_data b)) <= lenN (pad (hfun h) fuel (hfun h (bdata pwhash)) (bdata salt))) as X.
  { rewrite (pad_len _ _ _ _ _ H3). unfold getLen in *. nia. }
  unfold lenN in X. cbn [pwh bdata]. lia.
Qed.
Lemma enc_block_type h pwhash e : hash_ok h -> db_type (eb_block e) < 256 ->
  exists k, nth_error (hfun h (bdata pwhash)) 0 = Some k /\
    getDecType h pwhash e = Ret ((db_type (eb_block e) + 256 - b2n k) mod 256) /\
    (getDecType h pwhash e = Ret (db_type (eb_block e)) <-> k = x00).
Proof.
  intros Hh Ht. pose proof Hh as (H0 & _ & H3). unfold getDecType. rewrite (hash_ret h _ Hh). cbn [bind].
  destruct (key_byte 0 (mkBytes (hfun h (bdata pwhash)) (hsize h))) as (k & Nk & ->). { unfold getLen. cbn [bdata]. rewrite H3. exact H0. }
  exists k. cbn [bind noexcept]. split; [exact Nk|]. split; [reflexivity|]. pose proof (b2n_lt k) as Lk. unfold w8. split.
  - intros E. assert ((db_type (eb_block e) + 256 - b2n k) mod 256 = db_type (eb_block e)) as E' by congruence.
    assert (b2n k = 0) as Z by lia. apply (f_equal n2b) in Z. rewrite n2b_b2n in Z. exact Z.
  - intros ->. f_equal. change (b2n x00) with 0. lia.
Qed.

(** ** settings *)
Lemma set_step_iff bound s o : (in_range bound o -> exists s', set_step bound s o = Ret s') /\ (~ in_range bound o -> set_step bound s o = Throw InvalidArgument).
Proof.
  destruct o as [m|m|m|m|n|n]; cbn [in_range set_step].
  - destruct (file_mode_valid m) eqn:V; [apply file_mode_valid_spec in V|assert (m <> 1) by (intros X; apply file_mode_valid_spec in X; congruence)]; split; intros; try contradiction; eauto.
  - destruct (hash_mode_valid m) eqn:V; [apply hash_mode_valid_spec in V|assert (~ 1 <= m <= 3) by (intros X; apply hash_mode_valid_spec in X; congruence)]; split; intros; try contradiction; eauto.
  - destruct (ch_mode_valid m) eqn:V; [apply ch_mode_valid_spec in V|assert (~ 1 <= m <= 5) by (intros X; apply ch_mode_valid_spec in X; congruence)]; split; intros; try contradiction; eauto.
  - destruct (ch_mode_valid m) eqn:V; [apply ch_mode_valid_spec in V|assert (~ 1 <= m <= 5) by (intros X; apply ch_mode_valid_spec in X; congruence)]; split; intros; try contradiction; eauto.
  - destruct (N.ltb_spec 0 n), (N.leb_spec n bound); cbn [andb]; split; intros; try lia; eauto.
  - destruct (N.ltb_spec 0 n), (N.leb_spec n bound); cbn [andb]; split; intros; try lia; eauto.
Qed.
Lemma set_step_slots bound s o s' : set_step bound s o = Ret s' ->
  in_range bound o /\ forall i, nth_error (slots s') i = (if Nat.eqb i (slot_of o) then Some (Some (value_of o)) else nth_error (slots s) i).
Proof.
  intros E. assert (in_range bound o) as R.
  { destruct (set_step_iff bound s o) as [_ B]. destruct o as [m|m|m|m|n|n]; cbn [in_range set_step] in *.
    - destruct (file_mode_valid m) eqn:V; [apply file_mode_valid_spec in V; exact V|discriminate].
    - destruct (hash_mode_valid m) eqn:V; [apply hash_mode_valid_spec in V; exact V|discriminate].
    - destruct (ch_mode_valid m) eqn:V; [apply ch_mode_valid_spec in V; exact V|discriminate].
    - destruct (ch_mode_valid m) eqn:V; [apply ch_mode_valid_spec in V; exact V|discriminate].
    - destruct (N.ltb_spec 0 n), (N.leb_spec n bound); cbn [andb] in E; try discriminate; lia.
    - destruct (N.ltb_spec 0 n), (N.leb_spec n bound); cbn [andb] in E; try discriminate; lia. }
  split; [exact R|]. intros i. destruct o as [m|m|m|m|n|n]; cbn [set_step] in E;
    match type of E with (if ?c then _ else _) = _ => destruct c; [|discriminate] end; injection E as <-;
    unfold slots; cbn [s_fmode s_hmode s_ch1 s_ch2 s_n1 s_n2 slot_of value_of]; destruct i as [|[|[|[|[|[|i]]]]]]; reflexivity.
Qed.
Lemma slots_run bound ops : forall i v, nth_error (slots (set_run bound ops)) i = Some (Some v) <-> last_set bound ops i v.
Proof.
  induction ops as [|o ops IH] using rev_ind; intros i v.
  - cbn [set_run fold_left]. split.
    + intros E. destruct i as [|[|[|[|[|[|i]]]]]]; cbn in E; try discriminate. destruct i; discriminate.
    + intros (a & o & b & E & _). destruct a; discriminate.
  - unfold set_run. rewrite fold_left_app. cbn [fold_left]. fold (set_run bound ops). unfold set_run1.
    assert (forall x, last_set bound (ops ++ [o]) i x <-> (slot_of o = i /\ in_range bound o /\ value_of o = x) \/ (~ (slot_of o = i /\ in_range bound o) /\ last_set bound ops i x)) as LS.
    { intros x. split.
      - intros (a & o' & b & E & S1 & S2 & S3 & S4). destruct b as [|y b _] using rev_ind.
        + apply app_inj_tail in E. destruct E as [_ <-]. left. auto.
        + right. change (o' :: b ++ [y]) with ((o' :: b) ++ [y]) in E. rewrite app_assoc in E. apply app_inj_tail in E. destruct E as [-> ->].
          apply Forall_app in S4. destruct S4 as [S4 S5]. inversion S5; subst. split; [tauto|]. exists a, o', b. auto.
      - intros [(S1 & S2 & S3)|[Hn (a & o' & b & -> & S1 & S2 & S3 & S4)]].
        + exists ops, o, []. auto.
        + exists a, o', (b ++ [o]). rewrite <- app_assoc. split; [reflexivity|]. spl; try assumption. apply Forall_app. split; [exact S4|]. constructor; [tauto|constructor]. }
    rewrite LS, <- IH. destruct (set_step bound (set_run bound ops) o) as [s'|e|c|] eqn:E.
    + apply set_step_slots in E. destruct E as [R E]. rewrite E. destruct (Nat.eqb_spec i (slot_of o)) as [->|Hn].
      * split; [intros [= <-]; left; auto|]. intros [(_ & _ & <-)|[Hn _]]; [reflexivity|tauto].
      * split; [intros X; right; split; [intros [X1 _]; congruence|exact X]|]. intros [(X & _ & _)|[_ X]]; [congruence|exact X].
    + assert (~ in_range bound o) as Hn. { intros R. apply (proj1 (set_step_iff bound (set_run bound ops) o)) in R. destruct R as [s' R]. congruence. }
      split; [intros X; right; split; [tauto|exact X]|]. intros [(_ & X & _)|[_ X]]; [contradiction|exact X].
    + exfalso. destruct o; cbn [set_step] in E; match type of E with (if ?c then _ else _) = _ => destruct c; discriminate end.
    + exfalso. destruct o; cbn [set_step] in E; match type of E with (if ?c then _ else _) = _ => destruct c; discriminate end.
Qed.
(** C56 *)
Lemma settings_complete bound ops :
  set_isComplete (set_run bound ops) = true <-> forall i, (i < 6)%nat -> exists v, last_set bound ops i v.
Proof.
  assert (forall i, (exists v, last_set bound ops i v) <-> exists v, nth_error (slots (set_run bound ops)) i = Some (Some v)) as A.
  { intros i. split; intros [v Hv]; exists v; apply slots_run; exact Hv. }
  unfold set_isComplete. rewrite !andb_true_iff. split.
  - intros (((((B1 & B2) & B3) & B4) & B5) & B6) i Hi. apply A. unfold slots. unfold isSome in *.
    destruct (s_fmode _), (s_hmode _), (s_ch1 _), (s_ch2 _), (s_n1 _), (s_n2 _); try discriminate.
    destruct i as [|[|[|[|[|[|i]]]]]]; cbn [nth_error]; try lia; eauto.
  - intros B. assert (forall i, (i < 6)%nat -> exists v, nth_error (slots (set_run bound ops)) i = Some (Some v)) as C by (intros i Hi; apply A, B, Hi).
    unfold slots in C. destruct (C 0%nat) as [? C0]; [lia|]. destruct (C 1%nat) as [? C1]; [lia|]. destruct (C 2%nat) as [? C2]; [lia|].
    destruct (C 3%nat) as [? C3]; [lia|]. destruct (C 4%nat) as [? C4]; [lia|]. destruct (C 5%nat) as [? C5]; [lia|]. cbn [nth_error] in *.
    injection C0 as ->. injection C1 as ->. injection C2 as ->. injection C3 as ->. injection C4 as ->. injection C5 as ->. cbn [isSome]. tauto.
Qed.
Lemma last_set_range bound ops i v : last_set bound ops i v -> exists o, slot_of o = i /\ value_of o = v /\ in_range bound o.
Proof. intros (a & o & b & _ & S1 & S2 & S3 & _). exists o. auto. Qed.
