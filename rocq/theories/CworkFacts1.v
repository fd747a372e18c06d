(** Lemmas for C101: the record does not change the results; the digests of a chain. *)
From Verif Require Import Base BaseFacts BytesModel BytesFacts CipherModel CipherSpec CipherFacts CipherFacts2 PwModel ChModel HeaderModel HeaderSpec FileModel ApiModel ApiSpec ApiFacts
  WorkModel WorkSpec WorkFacts CworkModel CworkSpec.
Open Scope N_scope.
Open Scope list_scope.
Ltac Zify.zify_post_hook ::= Z.div_mod_to_equations.

(** ** erasure *)
Lemma si_next_res si l : snd (si_next_w si l) = si_next si l.
Proof.
  unfold si_next_w, si_next. apply snd_then. intros lbh. destruct (negb _); [reflexivity|]. destruct (negb _); [reflexivity|].
  repeat (apply snd_then; intros ?). reflexivity.
Qed.
Lemma blk_addData_res k d b : snd (blk_addData_w k d b) = blk_addData k d b.
Proof.
  unfold blk_addData_w, blk_addData. destruct (_ <? _); [reflexivity|]. apply snd_then. intros x. cbv zeta.
  destruct (_ =? 0); [|reflexivity]. destruct (negb _); [reflexivity|]. destruct k; repeat (apply snd_then; intros ?); reflexivity.
Qed.
Lemma addBlock_res c : snd (addBlock_w c) = addBlock c.
Proof.
  unfold addBlock_w, addBlock. destruct (negb _); [reflexivity|].
  rewrite (snd_then _ _ (fun '(salt, si, res) => nb <- new_block (si_obj si) salt ;; Ret (true, mkChain (c_kind c) (Some nb) res si (c_hs c) (c_height c)))).
  - f_equal. destruct (c_cur c) as [b|].
    + apply snd_then. intros bh. rewrite (snd_then _ _ (fun '(salt, si) => r <- blk_getResult (c_kind c) b ;;
        match c_res c with None => Crash Undefined | Some res => res' <- addcopyToBytes r res ;; Ret (salt, si, Some res') end)).
      * rewrite si_next_res. reflexivity.
      * intros [s si]. cbn [fst snd]. apply snd_then. intros r. destruct (c_res c); [|reflexivity]. apply snd_then. intros ?. reflexivity.
    + rewrite (snd_then _ _ (fun '(salt, si) => Ret (salt, si, c_res c))); [rewrite si_next_res; reflexivity|]. intros [s si]. reflexivity.
  - intros [[s si] res]. cbn [fst snd]. apply snd_then. intros ?. reflexivity.
Qed.
Lemma addData_loop_res fuel : forall d wr c, snd (addData_loop_w fuel d wr c) = addData_loop fuel d wr c.
Proof.
  induction fuel as [|fuel IH]; intros d wr c; [reflexivity|]. cbn [addData_loop_w addData_loop]. cbv zeta. apply snd_then. intros part.
  destruct (c_cur c) as [b|]; [|reflexivity]. erewrite snd_then; [rewrite blk_addData_res; reflexivity|]. intros b'. cbv beta.
  destruct (_ <? _); [|reflexivity]. erewrite snd_then; [rewrite addBlock_res; reflexivity|]. intros [u c']. apply IH.
Qed.
Lemma addStream_loop_res fuel : forall s t wr c, snd (addStream_loop_w fuel s t wr c) = addStream_loop fuel s t wr c.
Proof.
  induction fuel as [|fuel IH]; intros s t wr c; [reflexivity|]. cbn [addStream_loop_w addStream_loop]. cbv zeta. apply snd_then. intros part.
  destruct (readExact _ _) as [[got s']|]; [|reflexivity].
  destruct (c_cur c) as [b|]; [|reflexivity]. erewrite snd_then; [rewrite blk_addData_res; reflexivity|]. intros b'. cbv beta.
  destruct (_ <? _); [|reflexivity]. erewrite snd_then; [rewrite addBlock_res; reflexivity|]. intros [u c']. apply IH.
Qed.
Lemma addData_start_res c n : snd (addData_start_w c n) = addData_start c n.
Proof.
  unfold addData_start_w, addData_start. destruct (c_res c); [|reflexivity]. cbv zeta. cbn [c_cur]. destruct (c_cur c); [reflexivity|].
  erewrite snd_then; [rewrite addBlock_res; reflexivity|]. intros [u c']. reflexivity.
Qed.
Lemma addData_res fuel d c : snd (addData_w fuel d c) = addData fuel d c.
Proof. unfold addData_w, addData. erewrite snd_then; [rewrite addData_start_res; reflexivity|]. intros x. apply addData_loop_res. Qed.
Lemma addStream_res fuel s t c : snd (addStream_w fuel s t c) = addStream fuel s t c.
Proof. unfold addStream_w, addStream. erewrite snd_then; [rewrite addData_start_res; reflexivity|]. intros x. apply addStream_loop_res. Qed.
Lemma decryptBody_res w a f : snd (decryptBody_w w a f) = decryptBody w a f.
Proof.
  unfold decryptBody_w, decryptBody. do 7 (apply snd_then; intros ?). erewrite snd_then; [rewrite addStream_res; reflexivity|]. intros c. apply snd_then. intros [r c']. reflexivity.
Qed.
Lemma encryptBody_res w k x d : snd (encryptBody_w w k x d) = encryptBody w k x d.
Proof.
  unfold encryptBody_w, encryptBody. do 5 (apply snd_then; intros ?). erewrite snd_then; [rewrite addData_res; reflexivity|]. intros c. apply snd_then. intros [r c']. reflexivity.
Qed.
Lemma decrypt_res w a f : snd (getDecryptedData_w w a f) = getDecryptedData w a f.
Proof.
  unfold getDecryptedData_w, getDecryptedData, noexcept_w. cbn [snd]. f_equal. erewrite snd_then; [unfold try_w; cbn [snd]; rewrite decryptBody_res; reflexivity|]. reflexivity.
Qed.
Lemma encrypt_res w a x : snd (encryptData_w w a x) = encryptData w a x.
Proof.
  unfold encryptData_w, encryptData, noexcept_w. cbn [snd]. f_equal. apply snd_then. intros fd. destruct (fd_mode fd) as [m|]; [|reflexivity]. destruct (negb _); [reflexivity|].
  do 2 (apply snd_then; intros ?). apply snd_then. intros [c|d1]; [reflexivity|]. destruct (calcHeaderBytes _ _ _ d1) as [d2 r].
  erewrite snd_then; [unfold try_w; cbn [snd]; erewrite snd_then; [reflexivity|intros u; apply encryptBody_res]|]. reflexivity.
Qed.
Lemma same_call_c w a f o : snd (step_c w a f o) = step w a f o.
Proof.
  unfold step_c. destruct o; try apply same_call; destruct (a_state a) eqn:Es; try apply same_call; cbn [snd step]; rewrite Es; [rewrite decrypt_res|rewrite encrypt_res]; reflexivity.
Qed.
Lemma fst_then {A B} (m : logged A) (k : A -> logged B) x : snd m = Ret x -> fst (then_ m k) = fst m ++ fst (k x).
Proof. intros E. unfold then_. rewrite E. reflexivity. Qed.
Lemma fst_stop {A B} (m : logged A) (k : A -> logged B) : (forall x, snd m <> Ret x) -> fst (then_ m k) = fst m.
Proof. intros E. unfold then_. destruct (snd m); try reflexivity. exfalso. eapply E. reflexivity. Qed.
Lemma fst_quiet_then {A B} (m : outcome A) (k : A -> logged B) x : m = Ret x -> fst (then_ (quiet m) k) = fst (k x).
Proof. intros ->. apply (fst_then (quiet (Ret x)) k x). reflexivity. Qed.

Lemma fst_silent {A B} (m : logged A) (k : A -> logged B) : (forall x, fst (k x) = []) -> fst (then_ m k) = fst m.
Proof. intros E. unfold then_. destruct (snd m) as [x| | |]; cbn [fst]; try reflexivity. rewrite E. apply app_nil_r. Qed.

Lemma fst_one {A B} (e : event) (x : A) (k : A -> logged B) : fst (then_ ([e], Ret x) k) = e :: fst (k x).
Proof. reflexivity. Qed.

(** ** the digests of a chain *)
Set Default Proof Using "All".
Section Events.
  Variable h : hashfn.
  Hypothesis hs_pos : 0 < hsize h.
  Hypothesis hs_le : hsize h <= 255.
  Hypothesis h_len : forall x, lenN (hfun h x) = hsize h.
  Local Notation bsz := (hsize h).
  Local Notation dig := (hfun h).
  Local Notation ev := (map EvHash).

  Lemma si_next_events k s l si lbh :
    si_at h k s si -> lenN k = bsz -> lenN s = bsz ->
    (if si_first si then l = repeat x00 (N.to_nat bsz) /\ bsz <= bmax lbh else bdata lbh = l) ->
    lenN l = bsz -> fst (si_next_w si lbh) = ev (pad_texts dig (k, s, l)).
  Proof.
    intros (Hk & Hs & Ho & Hr) Lk Ls Hl Ll. unfold si_next_w. rewrite Ho, Hr.
    assert (HL : exists lb, (if si_first si then setBytes (repeat x00 (N.to_nat bsz)) lbh else Ret lbh) = Ret lb
                /\ bdata lb = l).
    { destruct (si_first si).
      - destruct Hl as [-> Hm]. unfold setBytes. rewrite lenN_repeat, N2Nat.id.
        destruct (N.ltb_spec (bmax lbh) bsz); [lia|]. eexists; split; reflexivity.
      - eexists; split; [reflexivity|exact Hl]. }
    destruct HL as (lb & E & Hlb). rewrite E, quiet_then.
    unfold getLen at 1. rewrite Hlb, Ll, N.eqb_refl. cbn [negb].
    rewrite plusBytes_ret by (unfold getLen; rewrite Hk, Hs; lia). rewrite quiet_then.
    rewrite plusBytes_ret by (unfold getLen; cbn [bdata]; rewrite lenN_bsum, Hk, Hs, Hlb; lia). rewrite quiet_then. cbn [bdata].
    unfold hash_w. rewrite do_hash_ret by assumption. rewrite fst_one. 
    rewrite plusBytes_ret by (unfold getLen; cbn [bdata]; rewrite h_len, Hs; lia). rewrite quiet_then. cbn [bdata].
    rewrite plusBytes_ret by (unfold getLen; cbn [bdata]; rewrite lenN_bsum, h_len, Hs, Hlb; lia). rewrite quiet_then. cbn [bdata].
    rewrite do_hash_ret by assumption. rewrite fst_one. 
    rewrite plusBytes_ret by (unfold getLen; cbn [bdata]; rewrite !h_len; lia). rewrite quiet_then. cbn [bdata].
    rewrite do_hash_ret by assumption. rewrite fst_one. cbn [fst quiet app].
    unfold pad_texts, knext_key, knext_salt, knext_key. rewrite Hk, Hs, Hlb. reflexivity.
  Qed.
  Lemma blk_addData_events k st cur b d : CipherFacts.block_ok h k st cur b -> lenN cur < bsz -> lenN cur + getLen d <= bsz ->
    fst (blk_addData_w k d b) = if lenN cur + getLen d =? bsz then ev [plain h k st (cur ++ bdata d)] else [].
  Proof.
    intros HB Hlt Hle. pose proof (blk_free_ok h hs_pos hs_le h_len _ _ _ _ HB) as HF. pose proof (blk_data_len h hs_pos hs_le h_len _ _ _ _ HB) as HDL.
    unfold blk_addData_w. rewrite HF.
    destruct (N.ltb_spec (bsz - lenN cur) (getLen d)); [lia|].
    unfold addcopyToBytes.
    destruct HB as (Hn & Hm & Hs & Ho & HC). rewrite Hm, HDL.
    destruct (N.ltb_spec bsz (getLen d + lenN cur)); [lia|]. rewrite quiet_then. cbv zeta.
    set (data1 := mkBytes (bdata (blk_data b) ++ bdata d) bsz).
    assert (HL1 : getLen data1 = lenN cur + getLen d).
    { subst data1. unfold getLen. cbn [bdata]. rewrite lenN_app. fold (getLen (blk_data b)). rewrite HDL. reflexivity. }
    assert (HF1 : blk_free (mkBlock (blk_len b) data1 (blk_salt b) (blk_dec_hash b) (blk_obj b)) = bsz - (lenN cur + getLen d)).
    { unfold blk_free. cbn [blk_len blk_data]. rewrite HL1, Hn. apply sub64_le; [lia|unfold two64; lia]. }
    rewrite HF1. cbn [blk_dec_hash].
    destruct HC as [(Hl & Hd & Hh)|(Hl & Hd & Hh)]; [|lia].
    destruct (N.eqb_spec (bsz - (lenN cur + getLen d)) 0) as [E|E], (N.eqb_spec (lenN cur + getLen d) bsz) as [E'|E']; try lia; [|reflexivity].
    unfold getLen at 1. rewrite Hh, lenN_nil. cbn [N.eqb negb]. rewrite Ho.
    assert (HDat : bdata data1 = cur ++ bdata d) by (subst data1; cbn [bdata]; rewrite Hd; reflexivity).
    assert (Hpl : getLen data1 = getLen (blk_salt b)) by (unfold getLen at 2; rewrite Hs, (kpad_len h hs_pos hs_le h_len), HL1; lia).
    destruct k.
    - unfold hash_w. rewrite do_hash_ret by assumption. rewrite fst_one. rewrite plusBytes_ret by exact Hpl. rewrite quiet_then. cbn [fst quiet app plain]. rewrite HDat. reflexivity.
    - rewrite minusBytes_ret by exact Hpl. rewrite quiet_then. cbn [bdata]. unfold hash_w. rewrite do_hash_ret by assumption. rewrite fst_one. cbn [fst quiet app plain].
      rewrite HDat, Hs. reflexivity.
  Qed.
  Lemma addBlock_full_events k st0 fulls cur M c :
    keys_ok h st0 -> Rep h k st0 fulls cur M c -> lenN cur = bsz -> lenN (concat fulls) + bsz <= M ->
    fst (addBlock_w c) = ev (pad_texts dig (adv h k (st_of h k st0 fulls) cur)).
  Proof.
    intros Hk0 HR Hc HM. pose proof (c_free_Rep h hs_pos hs_le h_len _ _ _ _ _ _ HR) as HF.
    destruct HR as (Hfl & Hkd & (b & Hb & HB) & (r & Hr & Hrd & Hrm) & Hsi & Hsf & Hhs & Hht).
    unfold addBlock_w. rewrite HF, Hc, N.sub_diag. cbn [N.eqb negb]. rewrite Hb.
    unfold blk_getHash. rewrite (blk_free_ok h hs_pos hs_le h_len _ _ _ _ HB), Hc, N.sub_diag. cbn [N.eqb negb].
    set (st := st_of h k st0 fulls) in *.
    assert (HK : keys_ok h st) by (apply keys_st_of; assumption).
    pose proof HB as (_ & _ & _ & Hobj & [(? & _)|(_ & _ & Hdh)]); [lia|].
    unfold getLen at 1. rewrite Hdh, h_len. destruct (N.eqb_spec bsz 0); [lia|].
    assert (LK : lenN (knext_key dig st) = bsz) by (unfold knext_key; destruct st as [[? ?] ?]; apply h_len).
    assert (LS : lenN (knext_salt dig st) = bsz) by (unfold knext_salt; destruct st as [[? ?] ?]; apply h_len).
    rewrite fst_silent by (intros; rewrite fst_silent; [reflexivity|intros; reflexivity]). rewrite quiet_then.
    rewrite fst_silent by (intros; rewrite fst_silent; [reflexivity|intros; destruct (c_res c); [|reflexivity]; rewrite fst_silent; [reflexivity|intros; reflexivity]]).
    change (adv h k st cur) with (knext_key dig st, knext_salt dig st, dig (plain h k st cur)).
    apply si_next_events; try assumption; try apply h_len. rewrite Hsf. exact Hdh.
  Qed.
  Lemma addBlock_fresh_events k pw es c :
    Fresh h k pw es c -> lenN pw = bsz -> lenN es = bsz -> fst (addBlock_w c) = ev (pad_texts dig (kstart bsz pw es)).
  Proof.
    intros (Hkd & Hcur & _ & Hsi & Hsf & Hhs & Hht) Lp Le. unfold addBlock_w, c_free. rewrite Hcur. cbn [N.eqb negb].
    rewrite fst_silent by (intros; rewrite fst_silent; [reflexivity|intros; reflexivity]).
    rewrite fst_silent by (intros; reflexivity). unfold kstart.
    apply si_next_events; try assumption.
    - rewrite Hsf. split; [reflexivity|]. exact hs_le.
    - rewrite lenN_repeat. apply N2Nat.id.
  Qed.
End Events.
