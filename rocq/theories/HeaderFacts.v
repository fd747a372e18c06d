(** Lemmas about the header model: lengths, the invariant of header objects, the encoder. *)
From Verif Require Import Base BaseFacts BytesModel BytesSpec BytesFacts BytesFacts2 CipherModel CipherFacts PwModel PwFacts
  ChModel ChSpec ChFacts ChFacts2 HeaderModel HeaderSpec.

Ltac spl := repeat match goal with |- _ /\ _ => split end.

(** ** lengths *)
Lemma u64_be8 v : u64 v = be8 v.
Proof. rewrite be8_list. reflexivity. Qed.
Lemma u64_len v : lenN (u64 v) = 8.
Proof. reflexivity. Qed.
Lemma u64_val v : v < two64 -> be_val (u64 v) = v.
Proof. rewrite u64_be8. apply be8_val. Qed.
Lemma u8_len v : lenN (u8 v) = 1.
Proof. reflexivity. Qed.
Lemma sum_app a b : sum (a ++ b) = sum a + sum b.
Proof. induction a as [|x a IH]; cbn [sum fold_right app] in *; [reflexivity|]. unfold sum in *. lia. Qed.
Lemma ser_block_len b : lenN (ser_block b) = 2 + lenN (snd b).
Proof. unfold ser_block. rewrite !lenN_app, !u8_len. lia. Qed.
Lemma ser_blocks_len bs : lenN (concat (map ser_block bs)) = 2 * lenN bs + sum (map (fun b => lenN (snd b)) bs).
Proof.
  induction bs as [|b bs IH]; [reflexivity|]. cbn [map concat]. rewrite lenN_app, ser_block_len, IH, lenN_cons.
  cbn [sum fold_right]. unfold sum. lia.
Qed.
Lemma ser_enc_len e : enc_ok e -> lenN (ser_enc e) = 257.
Proof. intros (_ & _ & H). unfold ser_enc. rewrite !lenN_app, !u8_len. lia. Qed.
Lemma ser_encs_len es : Forall enc_ok es -> lenN (concat (map ser_enc es)) = 257 * lenN es.
Proof.
  induction 1 as [|e es He _ IH]; [reflexivity|]. cbn [map concat]. rewrite lenN_app, ser_enc_len, IH, lenN_cons by assumption. lia.
Qed.
Lemma ser_chain_len lb c : lenN (ser_chain lb c) = 10 + lenN (snd c).
Proof. unfold ser_chain. rewrite !lenN_app, !u8_len, u64_len. lia. Qed.
Lemma layout_len fs hs l1 l2 h : header_ok h -> lenN (layout_with fs hs l1 l2 h) = hdr_len h.
Proof.
  intros (_ & _ & _ & _ & _ & _ & Hv & Hs & _ & He). unfold layout_with, hdr_len.
  rewrite !lenN_app, !u64_len, !u8_len, !ser_chain_len, ser_blocks_len, ser_encs_len by exact He. lia.
Qed.
Lemma ser_len fs h : header_ok h -> lenN (ser fs h) = hdr_len h.
Proof. intros Hh. unfold ser. apply layout_len. exact Hh. Qed.
Lemma sum_bound (f : N * bytes -> N) k bs : Forall (fun b => f b <= k) bs -> sum (map f bs) <= k * lenN bs.
Proof.
  induction 1 as [|b bs Hb _ IH]; [cbn; unfold lenN; cbn; lia|]. cbn [map sum fold_right]. rewrite lenN_cons. unfold sum in IH. lia.
Qed.
Lemma data_fits_len m x : data_fits m x -> lenN x <= 255.
Proof. unfold data_fits. destruct m as [|[[[]|[]|]|[[]|[]|]|]]; lia. Qed.
Lemma hdr_len_bounds h : header_ok h ->
  40 + 2 * digest_len (h_hmode h) <= hdr_len h <= 131620 + 2 * digest_len (h_hmode h).
Proof.
  intros (_ & _ & Hb & Hbs & (_ & _ & H1) & (_ & _ & H2) & _ & _ & He & _). unfold hdr_len.
  apply data_fits_len in H1, H2.
  assert (sum (map (fun b => lenN (snd b)) (h_blocks h)) <= 255 * lenN (h_blocks h)).
  { apply (sum_bound (fun b => lenN (snd b))). eapply Forall_impl; [|exact Hbs]. intros b [_ Hx]. exact Hx. }
  lia.
Qed.
Lemma digest_cases m : 1 <= m <= 3 -> digest_len m = 32 \/ digest_len m = 48 \/ digest_len m = 64.
Proof. intros H. assert (m = 1 \/ m = 2 \/ m = 3) as [->|[->| ->]] by lia; cbn; auto. Qed.
Lemma hdr_len_small h : header_ok h -> hdr_len h <= 131748.
Proof. intros Hh. pose proof (hdr_len_bounds h Hh). destruct Hh as (_ & Hm & _). destruct (digest_cases _ Hm) as [E|[E|E]]; rewrite E in *; lia. Qed.

(** ** chain hashes *)
Lemma chain_of_ok c x : ch_inv c -> chain_of c = Some x -> chain_ok x.
Proof.
  intros Hc E. unfold chain_of in E. destruct (ch_val c) eqn:Ev; [|discriminate].
  destruct (usable_rep c Hc Ev) as (mode & d & ps & E1 & E2 & H1 & Hr & Hl & Hi). rewrite E1, E2 in E. injection E as <-.
  unfold chain_ok. cbn [fst snd]. spl; try lia.
  destruct (complete_len mode ps d H1 Hr Hl) as (A & B & C & D). destruct (rep_block _ _ _ Hr) as [-> L]. cbn [bdata].
  clear - A B C D L H1. assert (mode = 1 \/ mode = 2 \/ mode = 3 \/ mode = 4 \/ mode = 5) as [->|[->|[->|[->| ->]]]] by lia; cbn [data_fits].
  - rewrite A by reflexivity. reflexivity.
  - exact L.
  - apply B. reflexivity.
  - split; [apply C; reflexivity|exact L].
  - apply D. reflexivity.
Qed.
Lemma chain_of_valid c : ch_inv c -> ch_val c = true -> exists x, chain_of c = Some x.
Proof.
  intros Hc Ev. destruct (usable_rep c Hc Ev) as (mode & d & ps & E1 & E2 & _). unfold chain_of. rewrite Ev, E1, E2. eauto.
Qed.
Lemma chain_of_val c x : chain_of c = Some x -> ch_val c = true.
Proof. unfold chain_of. destruct (ch_val c); [reflexivity|discriminate]. Qed.
Lemma chain_len c x : ch_inv c -> chain_of c = Some x -> ch_dataLen c = Ret (lenN (snd x)).
Proof.
  intros Hc E. pose proof (chain_of_ok c x Hc E) as (_ & _ & Hf). apply data_fits_len in Hf. unfold chain_of in E.
  destruct (ch_val c) eqn:Ev; [|discriminate]. destruct (ch_mode c) as [m|]; [|discriminate]. destruct (ch_data c) as [d|] eqn:Ed; [|discriminate].
  injection E as <-. cbn [fst snd] in *. unfold ch_dataLen, ch_getData. rewrite Ev, Ed. cbn [bind deref]. f_equal.
  unfold cd_len, w8, getLen. apply N.mod_small. lia.
Qed.
Lemma assign_same this c : ch_inv c -> ch_val c = true -> ch_assign this c = Ret c.
Proof.
  intros Hc Ev. destruct (usable_rep c Hc Ev) as (mode & d & ps & E1 & E2 & H1 & _). unfold ch_assign, ch_getMode, ch_getIters.
  rewrite Ev, E1. cbn [bind]. assert (ch_mode_valid mode = true) as -> by (apply ch_mode_valid_spec; exact H1). cbn [bind ch_mode ch_data ch_val].
  f_equal. unfold ch_revalidate. cbn [ch_mode ch_data ch_iters].
  assert (ch_check (Some mode) (ch_data c) (ch_iters c) = true) as ->.
  { rewrite <- E1. destruct Hc as (Hm & Hd & Hv). apply check_usable; auto. }
  destruct c as [m0 d0 i0 v0]. cbn in *. congruence.
Qed.
Lemma getDataBlock_valid c x d : ch_inv c -> chain_of c = Some x -> ch_data c = Some d ->
  exists b, getDataBlock d = Ret b /\ bdata b = snd x.
Proof.
  intros Hc E Ed. pose proof (chain_of_val c x E) as Ev.
  destruct (usable_rep c Hc Ev) as (mode & d' & ps & E1 & E2 & H1 & Hr & Hl & _).
  assert (d' = d) by congruence. subst d'. unfold chain_of in E. rewrite Ev, E1, E2 in E. injection E as <-. cbn [snd].
  unfold getDataBlock. assert (cd_complete d = true) as -> by (apply (rep_complete mode ps d H1 Hr); exact Hl).
  eexists. split; [reflexivity|]. reflexivity.
Qed.
Lemma share_shape bd c o : ch_inv c -> cdop_ok o -> ch_val c = true ->
  share bd o c = c \/
  exists x y, chain_of c = Some x /\ chain_of (share bd o c) = Some y /\ fst y = fst x /\ lenN (snd x) < lenN (snd y).
Proof.
  intros Hc Ho Ev. destruct (usable_rep c Hc Ev) as (mode & d & ps & E1 & E2 & H1 & Hr & Hl & Hi).
  unfold share, ch_mutate. rewrite E2. destruct (cd_step bd d o) as [d'| | |] eqn:Es; auto.
  destruct (complete_step bd mode ps d o d' H1 Hr Ho Hl Es) as (ps' & Hr' & Hl' & [-> | [-> Hn]]).
  { left. destruct c as [m0 d0 i0 v0]. cbn in *. rewrite E2. reflexivity. }
  pose proof (cd_step_refines bd 2 ps d o H1 Hr Ho) as Hs. destruct o as [b|r]; cbn [spec_cd] in Hs.
  - assert (nth_error (layout 2) (length ps) = None) as Hx by (apply nth_error_None; unfold lenN in Hl; lia).
    rewrite Hx in Hs. congruence.
  - rewrite Hn in Hs. change (lenN (@nil byte) =? 0) with true in Hs. cbn beta iota in Hs. destruct Hs as (d2 & Es2 & Hr2).
    assert (d2 = d') by congruence. subst d2. destruct (rep_block _ _ _ Hr2) as [Hb2 _]. destruct (rep_block _ _ _ Hr) as [Hb _].
    right. unfold chain_of. rewrite Ev, E1, E2. cbn [ch_val ch_mode ch_data ch_iters]. rewrite Hb, Hb2, Hn.
    do 2 eexists. spl; try reflexivity. cbn [snd bdata]. cbn [layout cut concat]. rewrite app_nil_r, lenN_takeN.
    cbn in Ho. change (random_len 2) with 255. change (lenN (@nil byte)) with 0. lia.
Qed.

(** ** blocks *)
Lemma setData_ret data b b' : db_setData data b = Ret b' ->
  db_type b' = db_type b /\ db_data b' = data /\ 0 < getLen data <= 255.
Proof.
  unfold db_setData. destruct (N.ltb_spec 0 (getLen data)); [|discriminate]. destruct (N.leb_spec (getLen data) 255); [|discriminate].
  intros [= <-]. cbn. spl; try lia. destruct data; reflexivity.
Qed.
Lemma block_made_ok b : block_made b -> block_ok (db_type b, bdata (db_data b)).
Proof.
  unfold block_ok. cbn [fst snd]. induction 1 as [|ty data b Ht E|data b b' _ IH E|ty b Ht _ IH].
  - cbn. change (lenN (@nil byte)) with 0. lia.
  - apply setData_ret in E. destruct E as (-> & -> & E). cbn [db_type]. unfold getLen in E. lia.
  - apply setData_ret in E. destruct E as (-> & -> & E). unfold getLen in E. lia.
  - cbn [db_type db_data]. lia.
Qed.
Lemma fillrandom_len rnd b : (forall k, lenN (rnd k) = k) -> getLen b <= bmax b -> getLen (filled rnd b) = bmax b.
Proof. intros Hr Hl. unfold filled, getLen in *. cbn [bdata]. rewrite lenN_app, Hr. lia. Qed.

(** invariant of the encryption loop: what it returns has the length of the data *)
Lemma enc_loop_len fuel : forall h data pwh salt w acc r,
  enc_loop fuel h data pwh salt w acc = Ret r -> getLen r = getLen data.
Proof.
  induction fuel as [|f IH]; intros h data pwh salt w acc r; cbn [enc_loop];
    (destruct (N.eqb_spec (getLen acc) (getLen data)); [intros [= <-]; assumption|]); [discriminate|].
  intros E. repeat (apply bind_ret_inv in E; destruct E as (? & _ & E)). exact (IH _ _ _ _ _ _ _ E).
Qed.
Lemma enc_loop_max fuel : forall h data pwh salt w acc r,
  enc_loop fuel h data pwh salt w acc = Ret r -> bmax r = bmax acc.
Proof.
  induction fuel as [|f IH]; intros h data pwh salt w acc r; cbn [enc_loop];
    (destruct (N.eqb_spec (getLen acc) (getLen data)); [intros [= <-]; reflexivity|]); [discriminate|].
  intros E. apply bind_ret_inv in E. destruct E as (a1 & _ & E). apply bind_ret_inv in E. destruct E as (a2 & _ & E).
  apply bind_ret_inv in E. destruct E as (a3 & _ & E). apply bind_ret_inv in E. destruct E as (a4 & _ & E).
  apply bind_ret_inv in E. destruct E as (a5 & _ & E). apply bind_ret_inv in E. destruct E as (a6 & E6 & E).
  rewrite (IH _ _ _ _ _ _ _ E). unfold addcopyToBytes in E6. destruct (_ <? _); [discriminate|]. injection E6 as <-. reflexivity.
Qed.
Lemma newEnc_shape fuel rnd h b pwhash salt e : (forall k, lenN (rnd k) = k) ->
  newEncDataBlock fuel rnd h b pwhash salt = Ret e ->
  getLen (db_data b) <= 255 ->
  getLen (db_data b) = 255 /\ db_type (eb_block e) = db_type b /\ getLen (db_data (eb_block e)) = 255 /\ eb_len e < 256.
Proof.
  intros Hr E Hl. unfold newEncDataBlock in E.
  apply bind_ret_inv in E. destruct E as (a1 & _ & E). apply bind_ret_inv in E. destruct E as (a2 & _ & E).
  apply bind_ret_inv in E. destruct E as (a3 & _ & E). apply bind_ret_inv in E. destruct E as (enc & E4 & E).
  apply bind_ret_inv in E. destruct E as (enc' & E' & E). apply fillrandom_inv in E'. destruct E' as (_ & ->).
  apply bind_ret_inv in E. destruct E as (b' & E5 & E). injection E as <-. cbn [eb_block eb_len].
  apply setData_ret in E5. destruct E5 as (-> & -> & E5).
  pose proof (enc_loop_len _ _ _ _ _ _ _ _ E4) as L. pose proof (enc_loop_max _ _ _ _ _ _ _ _ E4) as M. cbn [bmax] in M.
  assert (getLen (filled rnd (addSize (255 - getLen enc) enc)) = 510 - getLen enc) as F.
  { rewrite fillrandom_len; [unfold addSize; cbn [bmax]; lia|exact Hr|]. unfold addSize, getLen in *. cbn [bdata bmax]. lia. }
  rewrite F in *. spl; try lia. unfold w8. apply N.mod_lt. lia.
Qed.
Lemma enc_made_ok e : enc_made e -> enc_ok (db_type (eb_block e), eb_len e, bdata (db_data (eb_block e))).
Proof.
  unfold enc_ok. cbn [fst snd]. intros [ty data len e0 Ht Hl E|fuel rnd h b pwhash salt e0 Hr Hb E].
  - unfold createEncBlock in E. destruct (N.eqb_spec (getLen data) 255) as [D|]; cbn [negb] in E; [|discriminate].
    apply bind_ret_inv in E. destruct E as (x & E & F). injection F as <-. apply setData_ret in E. destruct E as (A & B & _).
    cbn [eb_block eb_len]. rewrite A, B. cbn [db_type]. unfold getLen in D. auto.
  - apply block_made_ok in Hb. destruct Hb as [H1 H2]. cbn [fst snd] in *.
    destruct (newEnc_shape fuel rnd h b pwhash salt e0 Hr E H2) as (_ & A & B & C). rewrite A. auto.
Qed.

(** ** the invariant of header objects *)
Definition plain_blocks (d : dheader) := map (fun b => (db_type b, bdata (db_data b))) (p_dec (d_parts d)).
Definition plain_encs (d : dheader) := map (fun e => (db_type (eb_block e), eb_len e, bdata (db_data (eb_block e)))) (p_enc (d_parts d)).
Record hinv (i_mode : N) (d : dheader) : Prop := mkHinv {
  i_hmode : p_hmode (d_parts d) = Some i_mode;
  i_range : 1 <= i_mode <= 3;
  i_size : d_hsize d = digest_len i_mode;
  i_fmode : forall m, p_fmode (d_parts d) = Some m -> m = 1;
  i_valid : forall b, p_valid (d_parts d) = Some b -> getLen b = digest_len i_mode;
  i_salt : exists s, p_salt (d_parts d) = Some s /\ getLen s = digest_len i_mode;
  i_ch1 : ch_inv (p_ch1 (d_parts d));
  i_ch2 : ch_inv (p_ch2 (d_parts d));
  i_nb : lenN (plain_blocks d) <= 255;
  i_blocks : Forall block_ok (plain_blocks d);
  i_ne : lenN (plain_encs d) <= 255;
  i_encs : Forall enc_ok (plain_encs d);
  i_blen : d_blen d = lenN (concat (map ser_block (plain_blocks d))) + 257 * lenN (plain_encs d);
  i_fsize : forall n, d_fsize d = Some n -> n < two64 }.
