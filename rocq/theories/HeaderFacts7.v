(** The decoder of a buffer, continued. *)
From Coq Require Import Strings.Byte.
From Verif Require Import Base BaseFacts BytesModel BytesSpec BytesFacts BytesFacts2 CipherModel CipherFacts PwModel PwFacts
  MiscModel MiscFacts ChModel ChSpec ChFacts ChFacts2 HeaderModel HeaderSpec HeaderFacts HeaderFacts2 HeaderFacts3 HeaderFacts4 HeaderFacts5 HeaderFacts6.

Lemma fixed_stepped c : stepped c = 10 + fixed_len (fst (fst c)) (snd c).
Proof. destruct c as [[m it] data]. reflexivity. Qed.
Lemma mchain_fwd bd code k f d c lb ix : chain_shape c lb -> ix + stepped c < 65536 -> found (bdata f) ix (ser_chain lb c) ->
  m_chain bd code (set_of k) f d ix =
  match chain_res bd code c lb (with_chain k (to_ch c) d) [] with
  | Ret (inr (d', _)) => dret (d', ix + stepped c)
  | Ret (inl e) => Ret (inl e) | Throw e => Throw e | Crash x => Crash x | OutOfFuel => OutOfFuel
  end.
Proof.
  rewrite fixed_stepped. destruct c as [[m it] data]. intros (Hm & Hi & F & Lb & L) W Fd. cbn [fst snd] in *. unfold m_chain, ser_chain in *. cbn [fst snd] in *.
  rewrite !found_app, !u8_len, u64_len in Fd. destruct Fd as (F1 & F2 & F3 & F4). pose proof (data_fits_len _ _ F) as Ld.
  assert (at1 f ix = Ret m) as -> by (apply at1_iff; split; [lia|exact F1]). cbn [bind].
  unfold newFormat. assert (ch_mode_valid m = true) as -> by (apply ch_mode_valid_spec; exact Hm).
  cbn [try_ dbind dret]. rewrite (w16_small (ix + 1)) by lia. assert (at8 f (ix + 1) = Ret it) as -> by (apply at8_iff; auto).
  unfold lift. cbn [bind dbind dret]. rewrite (w16_small (ix + 1 + 8)) by lia. assert (at1 f (ix + 1 + 8) = Ret lb) as -> by (apply at1_iff; auto).
  cbn [bind dbind dret]. rewrite (w16_small (ix + 1 + 8 + 1)) by lia. rewrite (mparts_fwd bd m f data lb) by (try assumption; lia).
  cbn [dbind dret]. rewrite newChain_eq by assumption. cbn [bind].
  assert (cd_len (to_chd m data) = lenN data) as ->. { unfold cd_len, getLen, to_chd. cbn [cd_block bdata]. apply N.mod_small. lia. }
  assert (try_ (invalid_or code ERR) (set_of k (mkCH (Some m) (Some (to_chd m data)) it (iters_ok it)) d) =
    if iters_ok it then dret (with_chain k (to_ch (m, it, data)) d) else dfail code) as ->.
  { destruct (iters_ok it) eqn:Ei.
    - change (mkCH (Some m) (Some (to_chd m data)) it true) with (to_ch (m, it, data)). rewrite set_of_ok; [reflexivity| |reflexivity].
      apply to_ch_inv. apply iters_ok_spec in Ei. split; [|split]; cbn [fst snd]; assumption.
    - rewrite set_of_bad by reflexivity. reflexivity. }
  replace (ix + 1 + 8 + 1 + fixed_len m data) with (ix + (10 + fixed_len m data)) by lia.
  unfold chain_res, dassert, assertC. cbn [fst snd]. destruct bd; [destruct (lenN data =? lb)|]; cbn [dbind dret]; try reflexivity; destruct (iters_ok it); reflexivity.
Qed.
Lemma set_of_inv k c d d' : set_of k c d = Ret d' -> ch_val c = true.
Proof. intros E. destruct (ch_val c) eqn:V; [reflexivity|]. rewrite (set_of_bad k c d V) in E. discriminate. Qed.
Lemma mchain_inv bd code k f d ix d' ix' : ix < 65536 -> m_chain bd code (set_of k) f d ix = dret (d', ix') ->
  exists c lb, chain_ok c /\ lb_ok (fst (fst c)) (snd c) lb /\ lb < 256 /\ (bd = Debug -> lb = lenN (snd c)) /\ d' = with_chain k (to_ch c) d /\
    ix' = w16 (ix + stepped c) /\ (ix + stepped c < 65536 -> found (bdata f) ix (ser_chain lb c)).
Proof.
  intros Hix E. unfold m_chain in E. apply dbind_inv in E. destruct E as (m & E1 & E). apply try_inv, bind_ret_inv in E1. destruct E1 as (m' & E1 & E2).
  unfold newFormat in E2. destruct (ch_mode_valid m') eqn:V; [|discriminate]. injection E2 as ->. apply ch_mode_valid_spec in V. apply at1_iff in E1. destruct E1 as [_ F1].
  apply dbind_inv in E. destruct E as (it & E2 & E). apply lift_inv, at8_iff in E2. destruct E2 as [Hi F2].
  apply dbind_inv in E. destruct E as (lb & E3 & E). apply lift_inv, at1_iff in E3. destruct E3 as [Hl F3].
  apply dbind_inv in E. destruct E as ([[dl c] ix2] & E4 & E). apply mparts_inv in E4; [|exact V|exact Hl|apply w16_lt].
  destruct E4 as (data & Fd & Lb & -> & -> & -> & F4). pose proof (data_fits_len _ _ Fd) as Ld.
  apply dbind_inv in E. destruct E as (u & A1 & E). apply dbind_inv in E. destruct E as (u' & A2 & E).
  apply dbind_inv in E. destruct E as (d2 & E5 & E). injection E as <- <-. apply try_inv, bind_ret_inv in E5. destruct E5 as (ch & E5 & E6).
  rewrite (newChain_eq m it data V Fd) in E5. injection E5 as <-. pose proof (set_of_inv _ _ _ _ E6) as Vi. cbn [ch_val] in Vi. rewrite Vi in E6.
  apply iters_ok_spec in Vi. assert (chain_ok (m, it, data)) as Hc by (split; [|split]; cbn [fst snd]; assumption).
  change (mkCH (Some m) (Some (to_chd m data)) it true) with (to_ch (m, it, data)) in E6. rewrite (set_of_ok k _ d (to_ch_inv _ Hc) eq_refl) in E6. injection E6 as <-.
  exists (m, it, data), lb. rewrite fixed_stepped. cbn [fst snd]. spl; try assumption; try reflexivity.
  - intros B. apply (assert_inv _ _ _ A2) in B. apply N.eqb_eq in B. congruence.
  - w16n. f_equal. lia.
  - intros W. rewrite (w16_small (ix + 1)) in * by lia. rewrite (w16_small (ix + 1 + 8)) in * by lia. rewrite (w16_small (ix + 1 + 8 + 1)) in * by lia.
    unfold ser_chain. cbn [fst snd]. rewrite !found_app, !u8_len, u64_len. spl; try assumption. apply F4; [|lia].
    pose proof (found_len _ _ _ F3) as Lf. rewrite u8_len in Lf. exact Lf.
Qed.

(** ** encrypted blocks *)
Section Enc.
Variables (f : Bytes) (hm : N) (v : option Bytes) (sa : Bytes) (bs : list (N * bytes)) (c1 c2 : chainhash) (fs : option N).
Hypothesis Hb : Forall block_ok bs /\ lenN bs <= 255.
Lemma mencs_fwd es2 : forall es1 ix, Forall enc_ok es2 -> lenN (es1 ++ es2) <= 255 ->
  ix + lenN (concat (map ser_enc es2)) < 65536 -> found (bdata f) ix (concat (map ser_enc es2)) ->
  m_encs (length es2) f (D hm v sa bs es1 c1 c2 fs) ix = dret (D hm v sa bs (es1 ++ es2) c1 c2 fs, ix + lenN (concat (map ser_enc es2))).
Proof using Hb.
  induction es2 as [|e es2 IH]; intros es1 ix G L W F.
  - rewrite app_nil_r. cbn [map concat length m_encs]. change (lenN (@nil byte)) with 0. rewrite N.add_0_r. reflexivity.
  - cbn [length m_encs map concat] in *. inversion G as [|? ? Ge G2]; subst.
    pose proof Ge as (T1 & T2 & T3). rewrite lenN_app, lenN_cons in L. assert (lenN (ser_enc e) = 257) as Le by (unfold ser_enc; rewrite !lenN_app, !u8_len; lia).
    rewrite lenN_app, Le in *. apply found_app in F. destruct F as [F F']. rewrite Le in F'. unfold ser_enc in F. rewrite !found_app, !u8_len in F. destruct F as (F1 & F2 & F3).
    destruct e as [[ty l] x]. cbn [fst snd] in *.
    assert (at1 f ix = Ret ty) as -> by (apply at1_iff; auto). unfold lift. cbn [bind dbind dret]. rewrite w16_small by lia.
    assert (at1 f (ix + 1) = Ret l) as -> by (apply at1_iff; auto). cbn [bind dbind dret]. rewrite w16_small by lia.
    assert (copySubBytes (ix + 1 + 1) (ix + 1 + 1 + 255) f = Ret (mkBytes x 255)) as -> by (apply sub_iff; exists x; auto). cbn [bind dbind dret]. rewrite w16_small by lia.
    rewrite createEnc_eq by exact T3. cbn [bind]. rewrite (addEnc_D hm v sa bs c1 c2 fs Hb es1 (ty, l, x) Ge) by lia. cbn [bind dbind dret].
    replace (ix + 1 + 1 + 255) with (ix + 257) by lia.
    rewrite IH; rewrite <- ?app_assoc; cbn [app]; [do 2 f_equal; lia|exact G2|rewrite !lenN_app, lenN_cons; lia|lia|exact F'].
Qed.
Lemma mencs_inv n : forall es1 ix d' ix', lenN es1 + N.of_nat n <= 255 -> ix < 65536 ->
  m_encs n f (D hm v sa bs es1 c1 c2 fs) ix = dret (d', ix') ->
  exists es2, length es2 = n /\ Forall enc_ok es2 /\ d' = D hm v sa bs (es1 ++ es2) c1 c2 fs /\
    ix' = w16 (ix + lenN (concat (map ser_enc es2))) /\
    (ix <= getLen f -> ix + lenN (concat (map ser_enc es2)) <= 65536 -> found (bdata f) ix (concat (map ser_enc es2))).
Proof using Hb.
  induction n as [|n IH]; intros es1 ix d' ix' L Hix E.
  - cbn [m_encs] in E. injection E as <- <-. exists []. rewrite app_nil_r. cbn [map concat]. change (lenN (@nil byte)) with 0. rewrite N.add_0_r.
    spl; try reflexivity; [constructor|symmetry; apply w16_small; exact Hix|]. intros Hl _. apply found_nil. exact Hl.
  - cbn [m_encs] in E. apply dbind_inv in E. destruct E as (ty & E1 & E). apply lift_inv, at1_iff in E1. destruct E1 as [T1 F1].
    apply dbind_inv in E. destruct E as (l & E2 & E). apply lift_inv, at1_iff in E2. destruct E2 as [T2 F2].
    apply dbind_inv in E. destruct E as (b & E3 & E). apply lift_inv, sub_iff in E3. destruct E3 as (x & Lx & F3 & ->).
    apply dbind_inv in E. destruct E as (d2 & E4 & E). apply lift_inv, bind_ret_inv in E4. destruct E4 as (b & E4 & E5).
    assert (enc_ok (ty, l, x)) as Ge by (split; [|split]; assumption).
    rewrite createEnc_eq in E4 by exact Lx. injection E4 as <-. rewrite (addEnc_D hm v sa bs c1 c2 fs Hb es1 (ty, l, x) Ge) in E5 by lia. injection E5 as <-.
    apply IH in E; [|rewrite lenN_app; change (lenN [(ty, l, x)]) with 1; lia|apply w16_lt].
    destruct E as (es2 & Hn & G2 & -> & -> & F). exists ((ty, l, x) :: es2). rewrite <- app_assoc. cbn [app length map concat].
    assert (lenN (ser_enc (ty, l, x)) = 257) as Le by (unfold ser_enc; cbn [fst snd]; rewrite !lenN_app, !u8_len; lia). rewrite lenN_app, Le.
    spl; [lia|constructor; assumption|reflexivity|w16n; f_equal; lia|].
    intros Hl W. rewrite (w16_small (ix + 1)) in * by lia. rewrite (w16_small (ix + 1 + 1)) in * by lia.
    pose proof (found_len _ _ _ F3) as Lf. apply found_app. rewrite Le. split.
    + unfold ser_enc. cbn [fst snd]. rewrite !found_app, !u8_len. auto.
    + replace (ix + 257) with (ix + 1 + 1 + 255) by lia. destruct es2 as [|e es2]; [apply found_nil; rewrite Lx in Lf; exact Lf|].
      assert (ix + 1 + 1 + 255 < 65536). { cbn [map concat] in W. unfold ser_enc at 1 in W. rewrite !lenN_app, !u8_len in W. lia. }
      rewrite w16_small in F by lia. apply F; [rewrite Lx in Lf; exact Lf|lia].
Qed.
End Enc.

(** ** the whole buffer *)
Definition mem_tail (bd : build) (f : Bytes) (fs hsz : N) (d : dheader) (ix : N) : dres dheader :=
  d <~ try_ (any_std ERR) (v <- copySubBytes ix (ix + d_hsize d) f ;; setValidPasswordHashBytes v d) ;;
  let ix := w16 (ix + d_hsize d) in
  d <~ try_ (any_std ERR) (sa <- copySubBytes ix (ix + d_hsize d) f ;; d_setEncSalt sa d) ;;
  let ix := w16 (ix + d_hsize d) in
  count <~ lift (at1 f ix) ;; let ix := w16 (ix + 1) in
  '(d, ix) <~ m_encs (N.to_nat count) f d ix ;;
  d <~ try_ (only_invalid ERR_FILESIZE_INVALID) (setFileSize fs d) ;;
  d <~ try_ (any_std ERR) (calc_plain d) ;;
  l <~ lift (getHeaderLength d) ;;
  _ <~ dassert bd (ix =? hsz) ;;
  _ <~ dassert bd (l =? hsz) ;;
  dret d.
Definition mem_chains (bd : build) (f : Bytes) (fs hsz : N) (d : dheader) (ix : N) : dres dheader :=
  '(d, ix) <~ m_chain bd ERR_CHAINHASH1_INVALID (set_of true) f d ix ;;
  '(d, ix) <~ m_chain bd ERR_CHAINHASH2_INVALID (set_of false) f d ix ;;
  mem_tail bd f fs hsz d ix.
Lemma setSalt_D hm v sa bs es c1 c2 fs x : getLen x = digest_len hm ->
  d_setEncSalt x (D hm v sa bs es c1 c2 fs) = Ret (D hm v (copyBytes x) bs es c1 c2 fs).
Proof.
  intros L. unfold d_setEncSalt, p_setSalt, p_getHashSize, D. cbn [d_parts p_hmode bind]. rewrite L, hash_size_digest, N.eqb_refl. reflexivity.
Qed.
Lemma setValid_inv hm v sa bs es c1 c2 fs x d : setValidPasswordHashBytes x (D hm v sa bs es c1 c2 fs) = Ret d -> getLen x = digest_len hm.
Proof.
  unfold setValidPasswordHashBytes, p_setValid, p_getHashSize, D. cbn [d_parts p_hmode bind]. rewrite hash_size_digest.
  destruct (N.eqb_spec (digest_len hm) (getLen x)); [auto|discriminate].
Qed.
Lemma encs_len es : Forall enc_ok es -> lenN (concat (map ser_enc es)) = 257 * lenN es.
Proof. apply ser_encs_len. Qed.
Lemma tail_len h : header_ok h -> lenN (tail_of h) = 2 * digest_len (h_hmode h) + 1 + 257 * lenN (h_encs h).
Proof. intros (_ & _ & _ & _ & _ & _ & A7 & A8 & _ & A10). unfold tail_of. rewrite !lenN_app, u8_len, encs_len by exact A10. lia. Qed.
Lemma free_le m it x : data_fits m x -> lenN (free_salt (m, it, x)) <= lenN x.
Proof.
  unfold free_salt. cbn [fst snd]. destruct m as [|[[[]|[]|]|[[]|[]|]|]]; cbn [data_fits]; intros F; try contradiction; try (change (lenN (@nil byte)) with 0; lia); try lia.
  rewrite lenN_dropN. lia.
Qed.
Lemma stepped_len c : chain_ok c -> stepped c + lenN (free_salt c) = 10 + lenN (snd c).
Proof. destruct c as [[m it] x]. intros (_ & _ & F). cbn [fst snd] in F. pose proof (free_le m it x F). unfold stepped. cbn [snd]. lia. Qed.
Lemma pos4_len h : header_ok h -> pos4 h + lenN (free_salt (h_ch1 h)) + lenN (free_salt (h_ch2 h)) = hdr_len h.
Proof.
  intros Hh. pose proof Hh as (_ & _ & _ & _ & A5 & A6 & _). unfold pos4, pos3, pos2, pos1. rewrite tail_len, ser_blocks_len by exact Hh.
  pose proof (stepped_len _ A5). pose proof (stepped_len _ A6). unfold hdr_len. lia.
Qed.
Definition mem_final (bd : build) (hsz fs ix : N) (h : header) : dres dheader :=
  match bd with
  | Debug => if (ix =? hsz) && (hdr_len h =? hsz) then dret (decoded fs h) else Crash AssertFail
  | Release => dret (decoded fs h)
  end.
Lemma mem_tail_fwd bd f fs hsz h sa ix : header_ok h -> hdr_len h <= fs -> fs < two64 -> ix + lenN (tail_of h) < 65536 -> found (bdata f) ix (tail_of h) ->
  mem_tail bd f fs hsz (bare h sa) ix = mem_final bd hsz fs (ix + lenN (tail_of h)) h.
Proof.
  intros Hh L Hf W F. pose proof Hh as (A1 & A2 & A3 & A4 & A5 & A6 & A7 & A8 & A9 & A10). rewrite (tail_len h Hh) in *.
  unfold tail_of in F. rewrite !found_app, A7, A8, u8_len in F. destruct F as (F1 & F2 & F3 & F4).
  unfold mem_tail. change (d_hsize (bare h sa)) with (digest_len (h_hmode h)).
  assert (copySubBytes ix (ix + digest_len (h_hmode h)) f = Ret (mkBytes (h_valid h) (digest_len (h_hmode h)))) as -> by (apply sub_iff; exists (h_valid h); auto).
  cbn [bind]. unfold bare. rewrite setValid_D by exact A7. cbn [try_ dbind dret]. cbn zeta. cbn [D d_hsize]. fold (D (h_hmode h) (Some (copyBytes (mkBytes (h_valid h) (digest_len (h_hmode h))))) sa (h_blocks h) [] (to_ch (h_ch1 h)) (to_ch (h_ch2 h)) None).
  rewrite (w16_small (ix + digest_len (h_hmode h))) by lia.
  assert (copySubBytes (ix + digest_len (h_hmode h)) (ix + digest_len (h_hmode h) + digest_len (h_hmode h)) f = Ret (mkBytes (h_salt h) (digest_len (h_hmode h)))) as -> by (apply sub_iff; exists (h_salt h); auto).
  cbn [bind]. rewrite setSalt_D by exact A8. cbn [try_ dbind dret]. cbn [D d_hsize].
  rewrite (w16_small (ix + digest_len (h_hmode h) + digest_len (h_hmode h))) by lia.
  assert (at1 f (ix + digest_len (h_hmode h) + digest_len (h_hmode h)) = Ret (lenN (h_encs h))) as -> by (apply at1_iff; split; [lia|exact F3]).
  unfold lift. cbn [bind dbind dret]. rewrite (w16_small (ix + digest_len (h_hmode h) + digest_len (h_hmode h) + 1)) by lia.
  replace (N.to_nat (lenN (h_encs h))) with (length (h_encs h)) by (unfold lenN; lia).
  match goal with |- context [m_encs _ _ ?d _] => change d with (D (h_hmode h) (Some (mkBytes (h_valid h) (digest_len (h_hmode h)))) (mkBytes (h_salt h) (digest_len (h_hmode h))) (h_blocks h) [] (to_ch (h_ch1 h)) (to_ch (h_ch2 h)) None) end.
  rewrite (mencs_fwd f _ _ _ _ _ _ _ (conj A4 A3) (h_encs h) [] _ A10 A9); [|rewrite encs_len by exact A10; lia|exact F4]. cbn [dbind dret app].
  match goal with |- context [setFileSize fs ?d] => change d with (obj None h) end.
  rewrite (set_size_obj h fs Hh). destruct (N.ltb_spec fs (hdr_len h)); [lia|]. cbn [try_ dbind dret].
  rewrite (calc_obj h fs Hh L Hf). cbn [try_ dbind dret].
  rewrite (header_length _ _ h (decoded_hinv fs h Hh Hf) (decoded_contents fs h Hh)). cbn [bind dbind dret].
  rewrite encs_len by exact A10.
  replace (ix + digest_len (h_hmode h) + digest_len (h_hmode h) + 1 + 257 * lenN (h_encs h)) with (ix + (2 * digest_len (h_hmode h) + 1 + 257 * lenN (h_encs h))) by lia.
  unfold dassert, assertC, mem_final. destruct bd; cbn [dbind dret]; [|reflexivity]. destruct (_ =? hsz); cbn [andb dbind dret]; [|reflexivity]. destruct (hdr_len h =? hsz); reflexivity.
Qed.
Lemma mem_tail_inv bd f fs hsz hm bs c1 c2 sa ix d : no_tail hm bs c1 c2 -> fs < two64 -> ix < 65536 ->
  mem_tail bd f fs hsz (D hm None sa bs [] (to_ch c1) (to_ch c2) None) ix = dret d ->
  exists h, header_ok h /\ h_hmode h = hm /\ h_blocks h = bs /\ h_ch1 h = c1 /\ h_ch2 h = c2 /\ hdr_len h <= fs /\ d = decoded fs h /\
    (bd = Debug -> hsz = w16 (ix + lenN (tail_of h)) /\ hdr_len h = hsz) /\ (ix + lenN (tail_of h) <= 65536 -> found (bdata f) ix (tail_of h)).
Proof.
  intros (V & Nb & B & C1 & C2) Hf Hix E. unfold mem_tail in E.
  apply dbind_inv in E. destruct E as (d1 & E1 & E). apply try_inv, bind_ret_inv in E1. destruct E1 as (b & E1 & E2).
  change (d_hsize (D hm None sa bs [] (to_ch c1) (to_ch c2) None)) with (digest_len hm) in E1. apply sub_iff in E1. destruct E1 as (v & Lv & F1 & ->).
  rewrite setValid_D in E2 by exact Lv. injection E2 as <-. cbn zeta in E. cbn [D d_hsize] in E.
  apply dbind_inv in E. destruct E as (d1 & E1 & E). apply try_inv, bind_ret_inv in E1. destruct E1 as (b & E1 & E2).
  apply sub_iff in E1. destruct E1 as (s & Ls & F2 & ->).
  match type of E2 with d_setEncSalt _ ?d = _ => change d with (D hm (Some (mkBytes v (digest_len hm))) sa bs [] (to_ch c1) (to_ch c2) None) in E2 end.
  rewrite setSalt_D in E2 by exact Ls. injection E2 as <-. cbn [D d_hsize] in E.
  apply dbind_inv in E. destruct E as (n & E1 & E). apply lift_inv, at1_iff in E1. destruct E1 as [Hn F3].
  apply dbind_inv in E. destruct E as ([d2 ix2] & E1 & E).
  match type of E1 with m_encs _ _ ?d _ = _ => change d with (D hm (Some (mkBytes v (digest_len hm))) (mkBytes s (digest_len hm)) bs [] (to_ch c1) (to_ch c2) None) in E1 end.
  apply mencs_inv in E1; [|split; assumption|change (lenN (@nil (N * N * bytes))) with 0; lia|apply w16_lt].
  destruct E1 as (es & Le & Ge & -> & -> & F4). cbn [app] in E.
  set (h := mkHeader 1 hm bs c1 c2 v s es). assert (lenN es = n) as Ln by (unfold lenN; lia).
  assert (header_ok h) as Hh.
  { unfold header_ok, h. cbn [h_fmode h_hmode h_blocks h_ch1 h_ch2 h_valid h_salt h_encs]. spl; try assumption; try lia; try apply V. }
  apply dbind_inv in E. destruct E as (d1 & E1 & E). apply try_inv in E1. change (setFileSize fs _) with (setFileSize fs (obj None h)) in E1.
  rewrite (set_size_obj h fs Hh) in E1. destruct (N.ltb_spec fs (hdr_len h)) as [|L]; [discriminate|]. injection E1 as <-.
  apply dbind_inv in E. destruct E as (d1 & E1 & E). apply try_inv in E1. rewrite (calc_obj h fs Hh L Hf) in E1. injection E1 as <-.
  apply dbind_inv in E. destruct E as (l & E1 & E). apply lift_inv in E1. rewrite (header_length _ _ h (decoded_hinv fs h Hh Hf) (decoded_contents fs h Hh)) in E1. injection E1 as <-.
  apply dbind_inv in E. destruct E as (u & A1 & E). apply dbind_inv in E. destruct E as (u' & A2 & E). injection E as <-.
  exists h. pose proof (tail_len h Hh) as Lt. rewrite Lt. unfold h in *. cbn [h_fmode h_hmode h_blocks h_ch1 h_ch2 h_valid h_salt h_encs] in *. spl; try assumption; try reflexivity.
  - intros Bd. pose proof (assert_inv _ _ _ A1 Bd) as B1. pose proof (assert_inv _ _ _ A2 Bd) as B2. apply N.eqb_eq in B1, B2. split; [|exact B2].
    rewrite <- B1. rewrite encs_len by exact Ge. w16n. f_equal. lia.
  - intros W. rewrite (w16_small (ix + digest_len hm)) in * by lia. rewrite (w16_small (ix + digest_len hm + digest_len hm)) in * by lia.
    unfold tail_of. cbn [h_valid h_salt h_encs]. rewrite !found_app, Lv, Ls, u8_len, Ln. spl; try assumption.
    pose proof (found_len _ _ _ F3) as Lf. rewrite u8_len in Lf. rewrite encs_len in F4 by exact Ge.
    destruct es as [|e es]; [apply found_nil; exact Lf|]. rewrite lenN_cons in *.
    rewrite w16_small in F4 by lia. apply F4; [exact Lf|lia].
Qed.

(** ** the whole buffer *)
Lemma mem_start bd rnd f fs hsz hm n bs : (forall k, lenN (rnd k) = k) -> fs < two64 -> hsz <= getLen f -> getLen f < two64 -> 1 <= hm <= 3 -> n < 256 ->
  found (bdata f) 0 (pre fs hsz hm n bs) ->
  decode_mem_body bd rnd f = ('(d, ix) <~ m_blocks (N.to_nat n) f (D hm None (salt0 rnd hm) [] [] ch_default ch_default None) 19 ;; mem_chains bd f fs hsz d ix).
Proof.
  intros Hr Hfs Hs Hl V Hn F. unfold pre in F. rewrite !found_app, !u64_len, !u8_len in F. destruct F as (F1 & F2 & F3 & F4 & F5 & F6).
  change (0 + 8 + 8) with 16 in *. change (0 + 8) with 8 in *. change (16 + 1) with 17 in *. change (17 + 1) with 18 in *.
  unfold decode_mem_body. assert (at8 f 0 = Ret fs) as -> by (apply at8_iff; auto). cbn [try_ dbind dret].
  assert (at8 f 8 = Ret hsz) as -> by (apply at8_iff; split; [lia|exact F2]). cbn [try_ dbind dret].
  destruct (N.ltb_spec (getLen f) hsz); [lia|]. assert (at1 f 16 = Ret 1) as -> by (apply at1_iff; split; [lia|exact F3]). unfold lift. cbn [bind dbind dret].
  assert (at1 f 17 = Ret hm) as -> by (apply at1_iff; split; [lia|exact F4]). cbn [bind dbind dret]. rewrite (new_start rnd hm Hr V). cbn [try_ dbind dret].
  change (d_setFileDataMode 1 (start rnd hm)) with (Ret (D hm None (salt0 rnd hm) [] [] ch_default ch_default None)). cbn [try_ dbind dret].
  assert (at1 f 18 = Ret n) as -> by (apply at1_iff; split; [lia|exact F5]). reflexivity.
Qed.
Lemma mem_fwd bd rnd f fs hsz l1 l2 h : (forall k, lenN (rnd k) = k) -> getLen f < two64 ->
  header_ok h -> no_empty_block h -> hsz <= getLen f -> hdr_len h <= fs -> fs < two64 ->
  lb_ok (fst (fst (h_ch1 h))) (snd (h_ch1 h)) l1 -> l1 < 256 -> lb_ok (fst (fst (h_ch2 h))) (snd (h_ch2 h)) l2 -> l2 < 256 ->
  pos4 h < 65536 -> mem_view (bdata f) fs hsz l1 l2 h ->
  bd = Release \/ (l1 = lenN (snd (h_ch1 h)) /\ l2 = lenN (snd (h_ch2 h))) ->
  decode_mem bd rnd f = mem_final bd hsz fs (pos4 h) h.
Proof.
  intros Hr Hl Hh Hne Hs Lf Hfs L1 L1' L2 L2' W (F0 & F1 & F2 & F3) Hb. pose proof Hh as (A1 & A2 & A3 & A4 & A5 & A6 & A7 & A8 & A9 & A10).
  unfold decode_mem. rewrite (mem_start bd rnd f fs hsz (h_hmode h) (lenN (h_blocks h)) (h_blocks h)) by (try assumption; lia).
  replace (N.to_nat (lenN (h_blocks h))) with (length (h_blocks h)) by (unfold lenN; lia).
  assert (found (bdata f) 19 (concat (map ser_block (h_blocks h)))) as Fb.
  { unfold pre in F0. rewrite !found_app, !u64_len, !u8_len in F0. apply F0. }
  pose proof W as W'. unfold pos4, pos3, pos2, pos1 in W'.
  rewrite (mblocks_fwd f (h_hmode h) None (salt0 rnd (h_hmode h)) ch_default ch_default None (h_blocks h) [] 19); [|apply good_blocks; assumption|exact A3|lia|exact Fb].
  cbn [dbind dret app]. fold (pos1 h). unfold mem_chains.
  rewrite (mchain_fwd bd _ true f _ (h_ch1 h) l1 (pos1 h)); [|apply shape_of; assumption|unfold pos1; lia|exact F1].
  rewrite chain_res_ok; [|exact A5|destruct Hb as [Hb|[Hb _]]; auto]. cbn [dbind dret]. fold (pos2 h).
  rewrite (mchain_fwd bd _ false f _ (h_ch2 h) l2 (pos2 h)); [|apply shape_of; assumption|unfold pos2, pos1; lia|exact F2].
  rewrite chain_res_ok; [|exact A6|destruct Hb as [Hb|[_ Hb]]; auto]. cbn [dbind dret]. fold (pos3 h).
  change (with_chain false (to_ch (h_ch2 h)) _) with (bare h (salt0 rnd (h_hmode h))).
  rewrite (mem_tail_fwd bd f fs hsz h _ (pos3 h)) by assumption. fold (pos4 h).
  unfold mem_final. destruct bd; [destruct (_ && _)|]; reflexivity.
Qed.
Lemma mem_inv bd rnd f d : (forall k, lenN (rnd k) = k) -> decode_mem bd rnd f = dret d ->
  exists fs hsz l1 l2 h, fs < two64 /\ hsz <= getLen f /\ header_ok h /\ no_empty_block h /\ hdr_len h <= fs /\ d = decoded fs h /\
    lb_ok (fst (fst (h_ch1 h))) (snd (h_ch1 h)) l1 /\ l1 < 256 /\ lb_ok (fst (fst (h_ch2 h))) (snd (h_ch2 h)) l2 /\ l2 < 256 /\
    (bd = Debug -> l1 = lenN (snd (h_ch1 h)) /\ l2 = lenN (snd (h_ch2 h)) /\ hsz = hdr_len h /\ hsz = w16 (pos4 h)) /\
    (pos4 h <= 65536 -> mem_view (bdata f) fs hsz l1 l2 h).
Proof.
  intros Hr E. unfold decode_mem in E. assert (decode_mem_body bd rnd f = dret d) as E0.
  { destruct (decode_mem_body bd rnd f) as [x|e|c|]; [exact E|destruct e; discriminate|discriminate|discriminate]. }
  clear E. rename E0 into E. unfold decode_mem_body in E.
  apply dbind_inv in E. destruct E as (fs & E1 & E). apply try_inv, at8_iff in E1. destruct E1 as [Hfs F1].
  apply dbind_inv in E. destruct E as (hsz & E1 & E). apply try_inv, at8_iff in E1. destruct E1 as [Hhs F2].
  destruct (N.ltb_spec (getLen f) hsz) as [|Hs]; [discriminate|].
  apply dbind_inv in E. destruct E as (fm & E1 & E). apply lift_inv, at1_iff in E1. destruct E1 as [Hfm F3].
  apply dbind_inv in E. destruct E as (hm & E1 & E). apply lift_inv, at1_iff in E1. destruct E1 as [Hhm F4].
  apply dbind_inv in E. destruct E as (d0 & E1 & E). apply try_inv in E1. destruct (new_inv rnd hm d0 Hr E1) as [V ->]. clear E1.
  apply dbind_inv in E. destruct E as (d0 & E1 & E). apply try_inv in E1. unfold d_setFileDataMode, p_setFileDataMode in E1.
  destruct (file_mode_valid fm) eqn:Vf; [|discriminate]. apply file_mode_valid_spec in Vf. subst fm. injection E1 as <-.
  apply dbind_inv in E. destruct E as (n & E1 & E). apply lift_inv, at1_iff in E1. destruct E1 as [Hn F5].
  apply dbind_inv in E. destruct E as ([d1 ix1] & E1 & E).
  match type of E1 with m_blocks _ _ ?d _ = _ => change d with (D hm None (salt0 rnd hm) [] [] ch_default ch_default None) in E1 end.
  apply mblocks_inv in E1; [|constructor|change (lenN (@nil (N * bytes))) with 0; lia|lia]. destruct E1 as (bs & Lb & G & -> & -> & F6). cbn [app] in E.
  fold (set_of true) in E. apply dbind_inv in E. destruct E as ([d1 ix1] & E1 & E). apply (mchain_inv bd _ true) in E1; [|apply w16_lt].
  destruct E1 as (c1 & l1 & C1 & L1 & L1' & B1 & -> & -> & F7).
  apply dbind_inv in E. destruct E as ([d1 ix1] & E1 & E). apply (mchain_inv bd _ false) in E1; [|apply w16_lt].
  destruct E1 as (c2 & l2 & C2 & L2 & L2' & B2 & -> & -> & F8).
  change (with_chain false _ _) with (D hm None (salt0 rnd hm) bs [] (to_ch c1) (to_ch c2) None) in E.
  assert (lenN bs = n) as Ln by (unfold lenN; lia).
  apply (mem_tail_inv bd f fs hsz hm bs c1 c2 (salt0 rnd hm)) in E; [|split; [exact V|split; [lia|split; [apply good_ok; exact G|auto]]]|exact Hfs|apply w16_lt].
  destruct E as (h & Hh & Eh & Eb & Ec1 & Ec2 & Lh & -> & Bd & F9). exists fs, hsz, l1, l2, h. rewrite Ec1, Ec2.
  spl; try assumption; try reflexivity.
  - unfold no_empty_block. rewrite Eb. eapply Forall_impl; [|exact G]. intros b [_ Hb]. exact Hb.
  - intros Hb. destruct (Bd Hb) as [B3 B4]. spl; [apply B1; exact Hb|apply B2; exact Hb|congruence|]. rewrite B3. unfold pos4, pos3, pos2, pos1. rewrite Eb, Ec1, Ec2.
    w16n. f_equal. lia.
  - unfold pos4, pos3, pos2, pos1. rewrite Eb, Ec1, Ec2. intros W. pose proof (tail_len h Hh) as Lt. unfold stepped in W, F7, F8, F9.
    assert (19 <= getLen f) as L19. { pose proof (found_len _ _ _ F5) as Lf. rewrite u8_len in Lf. exact Lf. }
    assert (19 + lenN (concat (map ser_block bs)) < 65536) as W1 by lia.
    unfold mem_view, pos3, pos2, pos1. rewrite Eb, Ec1, Ec2, Eh. fold (stepped c1) in *. fold (stepped c2) in *.
    set (p1 := 19 + lenN (concat (map ser_block bs))) in *.
    assert (w16 (p1 + stepped c1) = p1 + stepped c1) as W2 by (apply w16_small; lia). rewrite ?(w16_small p1 W1) in F7, F8, F9. rewrite W2 in F8. rewrite W2 in F9.
    assert (w16 (p1 + stepped c1 + stepped c2) = p1 + stepped c1 + stepped c2) as W3 by (apply w16_small; lia). rewrite W3 in F9. spl.
    + unfold pre. rewrite !found_app, !u64_len, !u8_len, Ln. spl; try assumption. apply F6; [exact L19|exact W1].
    + apply F7. lia.
    + apply F8. lia.
    + apply F9. lia.
Qed.
