(** Lemmas for C97: the log of a call that succeeds, continued. *)
From Coq Require Import Strings.String.
From Coq Require Import Lia.
From Verif Require Import Base BaseFacts BytesModel MiscModel CipherModel CipherSpec CipherFacts CipherFacts2 PwModel PwSpec ChModel ChSpec HeaderModel HeaderSpec HeaderFacts HeaderFacts2 HeaderFacts3 HeaderFacts4 HeaderFacts5 HeaderFacts6 HeaderFacts7 HeaderFacts8 HeaderFacts9 FileModel FileFacts ApiModel ApiSpec ApiFacts ApiFacts2 ApiFacts3 ApiFacts4 ApiFacts5 ApiFacts7 LogModel LogSpec LogFacts1 LogFacts6 LogFacts7.
Open Scope N_scope.
Open Scope list_scope.
Import ListNotations.

Lemma new_chain_log k hf key s ls c : new_chain_l k hf key s = (ls, Ret c) -> new_chain k hf key s = Ret c /\ ls = [chain_line k] /\ getLen key = hsize hf /\ getLen s = hsize hf.
Proof.
  unfold new_chain_l. intro Q. pose proof (f_equal snd Q) as E. apply (f_equal fst) in Q. cbn [fst snd] in Q, E. rewrite E in Q. split; [exact E | ]. split; [congruence | ].
  destruct (N.eqb_spec (getLen key) (hsize hf)) as [Lk|Lk], (N.eqb_spec (getLen s) (hsize hf)) as [Ls|Ls]; try (split; assumption);
    exfalso; rewrite (proj2 (new_chain_iff hf k key s)) in E by tauto; discriminate.
Qed.
Lemma add_log n r ls c : add_l n r = (ls, Ret c) -> r = Ret c /\ ls = [mkLine SVerbose Blockchain_cpp n [Num (getHeight c); Num (getDataSize c)]].
Proof. unfold add_l. intro Q. pose proof (f_equal snd Q) as E. apply (f_equal fst) in Q. cbn [fst snd] in Q, E. rewrite E in Q. auto. Qed.
Lemma result_log c ls b : getResult_l c = (ls, Ret b) -> (exists c', getResult c = Ret (b, c')) /\ ls = [mkLine SDebug Blockchain_cpp 77 [Num (getHeight c); Num (getDataSize c)]].
Proof.
  unfold getResult_l. intro Q. pose proof (f_equal snd Q) as E. apply (f_equal fst) in Q. cbn [fst snd] in Q, E. destruct (getResult c) as [[r c']|e|e|]; try discriminate.
  cbn in E, Q. injection E as <-. split; [eauto | congruence].
Qed.
Section Log.
  Variable H : hashes.
  Hypothesis HH : hashes_ok H.
  Lemma decrypt_log w a f ls res d h : decryptBody_l w a f = (ls, Ret res) -> w_hashes w = H -> a_dh a = Some d -> holds d h -> (forall x, a_file a = Some x -> fh_dataSize x < 2 ^ 64) ->
    exists fs, chain_sizes (digest_len (h_hmode h)) (lenN (bdata res)) fs /\
      ls = [lookup (h_hmode h); mkLine SVerbose Blockchain_decrypt_h 13 []; mkLine SVerbose Blockchain_cpp 53 fs; mkLine SDebug Blockchain_cpp 77 fs].
  Proof.
    intros E EH Ed Hd Ls. pose proof (holds_parts d h Hd) as P. destruct (holds_good d h Hd) as (v & s & G & _). destruct (hash_mode_ok H (h_hmode h) HH (g_range _ _ _ _ G)) as (hf & Hg & Hh & Hf).
    pose proof (getHash_size _ _ _ Hg) as [Hs _]. unfold decryptBody_l in E. rewrite Ed in E.
    apply bindl_inv in E as (? & d0 & ? & E1 & E & ->). apply silent_inv in E1 as [E1 ->]. injection E1 as <-.
    apply bindl_inv in E as (? & p & ? & E1 & E & ->). apply parts_log in E1 as [-> ->].
    apply bindl_inv in E as (? & hm & ? & E1 & E & ->). apply trouble_inv in E1 as [E1 ->]. unfold p_getHashMode in E1. rewrite (ApiFacts2.g_hmode _ _ _ _ G) in E1. injection E1 as <-.
    apply bindl_inv in E as (? & hf' & ? & E1 & E & ->). assert (hf' = hf) as -> by (unfold getHash_l in E1; apply (f_equal snd) in E1; cbn [snd] in E1; rewrite EH in E1; congruence). apply getHash_log in E1 as ->.
    apply bindl_inv in E as (? & sa & ? & E1 & E & ->). apply trouble_inv in E1 as [_ ->].
    apply bindl_inv in E as (? & c & ? & E1 & E & ->). apply new_chain_log in E1 as (N1 & -> & Lk & Lsa).
    apply bindl_inv in E as (? & fh & ? & E1 & E & ->). apply silent_inv in E1 as [E1 ->]. destruct (a_file a) as [fh'|]; [ | discriminate]. injection E1 as ->.
    apply bindl_inv in E as (? & c1 & ? & E1 & E & ->). apply add_log in E1 as [E1 ->]. apply result_log in E as [[c' R] ->].
    pose proof (fed_stream hf Hh _ _ _ _ _ _ _ _ Lk Lsa (Ls _ eq_refl) N1 E1) as F. destruct Hh as (Hp & Hl & Hn). destruct (getResult_ok hf Hp Hl Hn _ _ _ _ _ F) as (r & c2 & R2 & Br).
    rewrite R in R2. injection R2 as <- _. exists [Num (getHeight c1); Num (getDataSize c1)]. split; [ | reflexivity].
    rewrite Br, (crypt_len hf Hp Hl Hn), <- Hs. apply (fed_room hf (conj Hp (conj Hl Hn)) _ _ _ _ _ F).
  Qed.
  Lemma encrypt_body_log w key data d h ls res : encryptBody_l w key data d = (ls, Ret res) -> w_hashes w = H -> holds d h -> getLen data < 2 ^ 63 ->
    exists fs, chain_sizes (digest_len (h_hmode h)) (lenN (bdata data)) fs /\
      ls = [lookup (h_hmode h); mkLine SVerbose Blockchain_encrypt_h 13 []; mkLine SVerbose Blockchain_cpp 72 fs; mkLine SDebug Blockchain_cpp 77 fs].
  Proof.
    intros E EH Hd Ls. pose proof (holds_parts d h Hd) as P. destruct (holds_good d h Hd) as (v & s & G & _). destruct (hash_mode_ok H (h_hmode h) HH (g_range _ _ _ _ G)) as (hf & Hg & Hh & Hf).
    pose proof (getHash_size _ _ _ Hg) as [Hs _]. unfold encryptBody_l in E.
    apply bindl_inv in E as (? & p & ? & E1 & E & ->). apply parts_log in E1 as [-> ->].
    apply bindl_inv in E as (? & hm & ? & E1 & E & ->). apply trouble_inv in E1 as [E1 ->]. unfold p_getHashMode in E1. rewrite (ApiFacts2.g_hmode _ _ _ _ G) in E1. injection E1 as <-.
    apply bindl_inv in E as (? & hf' & ? & E1 & E & ->). assert (hf' = hf) as -> by (unfold getHash_l in E1; apply (f_equal snd) in E1; cbn [snd] in E1; rewrite EH in E1; congruence). apply getHash_log in E1 as ->.
    apply bindl_inv in E as (? & sa & ? & E1 & E & ->). apply trouble_inv in E1 as [_ ->].
    apply bindl_inv in E as (? & c & ? & E1 & E & ->). apply new_chain_log in E1 as (N1 & -> & Lk & Lsa).
    apply bindl_inv in E as (? & c1 & ? & E1 & E & ->). apply add_log in E1 as [E1 ->]. apply result_log in E as [_ ->].
    pose proof (fed_data hf Hh _ _ _ _ _ _ _ Lk Lsa Ls N1 E1) as F.
    exists [Num (getHeight c1); Num (getDataSize c1)]. split; [ | reflexivity]. rewrite <- Hs. apply (fed_room hf Hh _ _ _ _ _ F).
  Qed.
  Lemma getDecrypted_log w a f ls a' r d h : getDecryptedData_l w a f = (ls, Ret (a', r)) -> succeeded r = true -> w_hashes w = H -> a_dh a = Some d -> holds d h ->
    (forall x, a_file a = Some x -> fh_dataSize x < 2 ^ 64) -> exists m b fs, r = RData (mkFD m (Some b)) /\ chain_sizes (digest_len (h_hmode h)) (lenN (bdata b)) fs /\
      ls = [api_cpp SVerbose 554 []; lookup (h_hmode h); mkLine SVerbose Blockchain_decrypt_h 13 []; mkLine SVerbose Blockchain_cpp 53 fs; mkLine SDebug Blockchain_cpp 77 fs; api_h 256 []].
  Proof.
    intros E S EH Ed Hd Ls. unfold getDecryptedData_l in E. apply noexcept_l_inv in E. apply bindl_inv in E as (? & [] & ? & E1 & E & ->). injection E1 as <-.
    apply bindl_inv in E as (? & [e|b] & ? & E1 & E & ->); [apply silent_inv in E as [E _]; injection E as _ <-; discriminate | ].
    apply try_inv in E1. destruct (decrypt_log _ _ _ _ _ _ _ E1 EH Ed Hd Ls) as (fs & Z & ->). injection E as <- _ <-. exists (Some (a_mode a)), b, fs. auto.
  Qed.
  Lemma setData_log n d ls d' : setDataSize_l n d = (ls, Ret d') -> ls = [dh 131 [Num n]].
  Proof. unfold setDataSize_l, setDataSize. destruct (d_isComplete d); cbn [negb]; intro Q; apply (f_equal fst) in Q as Q1; apply (f_equal snd) in Q; cbn [fst snd] in Q, Q1; [subst; reflexivity | discriminate]. Qed.
  Lemma encrypt_log w a x ls a' r d h : encryptData_l w a x = (ls, Ret (a', r)) -> succeeded r = true -> w_hashes w = H -> a_dh a = Some d -> holds d h -> op_ok (OEncrypt x) ->
    exists m b fs, x = Some (mkFD m (Some b)) /\ chain_sizes (digest_len (h_hmode h)) (lenN (bdata b)) fs /\
      ls = [api_cpp SVerbose 576 []; dh 131 [Num (lenN (bdata b))]; dh 168 [Flag false]; lookup (h_hmode h); mkLine SVerbose Blockchain_encrypt_h 13 []; mkLine SVerbose Blockchain_cpp 72 fs;
            mkLine SDebug Blockchain_cpp 77 fs; api_h 266 []].
  Proof.
    intros E S EH Ed Hd Ho. unfold encryptData_l in E. apply noexcept_l_inv in E. apply bindl_inv in E as (? & [] & ? & E1 & E & ->). injection E1 as <-.
    apply bindl_inv in E as (? & x' & ? & E1 & E & ->). apply silent_inv in E1 as [E1 ->]. destruct x as [x|]; [ | discriminate]. injection E1 as <-.
    destruct x as [[m|] fd]; cbn [fd_mode fd_data] in E; [ | injection E as _ _ <-; discriminate]. destruct (negb _); [injection E as _ _ <-; discriminate | ].
    apply bindl_inv in E as (? & b & ? & E1 & E & ->). apply silent_inv in E1 as [E1 ->]. destruct fd as [b'|]; [ | discriminate]. injection E1 as ->. specialize (Ho b eq_refl).
    rewrite Ed in E. apply bindl_inv in E as (? & d0 & ? & E1 & E & ->). apply silent_inv in E1 as [E1 ->]. injection E1 as <-.
    apply bindl_inv in E as (? & [e|d1] & ? & E1 & E & ->); [apply silent_inv in E as [E _]; injection E as _ <-; discriminate | ].
    apply try_inv in E1. destruct (set_data_size d h (getLen b) Hd) as (d1' & E2 & Hd1 & F1 & _). assert (d1' = d1) as -> by (unfold setDataSize_l in E1; apply (f_equal snd) in E1; cbn [snd] in E1; congruence).
    apply setData_log in E1 as ->. destruct (calc_plain_bytes d1 h (w_hashes w) (w_clk1 w) Hd1 _ F1) as [C1 C2].
    destruct (N.ltb_spec (w32 (w32 (getLen b) + hdr_len h)) (hdr_len h)) as [Lt|Ge].
    { rewrite (C1 Lt) in E. cbn in E. injection E as _ _ <-. discriminate. }
    rewrite (C2 Ge) in E. apply bindl_inv in E as (? & [e|res] & ? & E1 & E & ->); [apply silent_inv in E as [E _]; injection E as _ <-; discriminate | ].
    injection E as <- _ _. apply try_inv in E1. apply bindl_inv in E1 as (lc & [] & ? & E1 & E & ->). assert (lc = [dh 168 [Flag false]]) as ->.
    { injection E1 as <-. unfold calc_lines. pose proof (holds_parts d1 h Hd1) as Pd. unfold getDataHeaderParts in Pd. destruct (d_isComplete d1); [ | discriminate]. rewrite F1.
      destruct Hd1 as [I1 K1]. rewrite (header_length _ _ h I1 K1). apply N.ltb_ge in Ge. rewrite Ge. reflexivity. }
    destruct (encrypt_body_log _ _ _ _ _ _ _ E EH (holds_bytes _ _ _ Hd1) Ho) as (fs & Z & ->). exists (Some m), b, fs. auto.
  Qed.
End Log.
Lemma salt_log w a ls a' r d : changeSalt_l w a = (ls, Ret (a', r)) -> succeeded r = true -> a_dh a' = Some d ->
  forall h, contents d = Some h -> ls = api_cpp SVerbose 626 [] :: built_log h.
Proof.
  intros E S Ed h C. unfold changeSalt_l in E. apply noexcept_l_inv in E. apply bindl_inv in E as (? & [] & ? & E1 & E & ->). injection E1 as <-.
  apply bindl_inv in E as (? & d0 & ? & E1 & E & ->). apply silent_inv in E1 as [_ ->].
  apply bindl_inv in E as (? & p & ? & E1 & E & ->). apply parts_log in E1 as [-> _].
  apply bindl_inv in E as (? & s & ? & E1 & E & ->). apply trouble_inv in E1 as [_ ->].
  apply bindl_inv in E as (? & b & ? & E1 & E & ->). apply trouble_inv in E1 as [_ ->].
  apply bindl_inv in E as (? & b1 & ? & E1 & E & ->). apply trouble_inv in E1 as [_ ->].
  apply bindl_inv in E as (? & p1 & ? & E1 & E & ->). apply trouble_inv in E1 as [_ ->].
  apply bindl_inv in E as (? & [e|d'] & ? & E1 & E & ->); apply silent_inv in E as [E ->]; [injection E as _ <-; discriminate | ].
  injection E as <- _. cbn in Ed. injection Ed as ->. apply onerr_inv in E1. rewrite (setParts_log _ _ _ _ _ E1 C), app_nil_r. reflexivity.
Qed.
Lemma write_stream_log w f h ls : write_stream_l w f h = (ls, Ret (inr tt)) -> ls = [mkLine SVerbose Filehandler_cpp 199 [Txt (fh_path h)]].
Proof.
  unfold write_stream_l. intro Q. pose proof (f_equal snd Q) as E. apply (f_equal fst) in Q. cbn [fst snd] in Q, E. destruct (isValidPath_l w f (fh_path h) true) as [l v] eqn:V. cbn [fst snd] in *.
  destruct v as [[e|[]]|e|e|]; try discriminate. apply valid_log in V as [-> _]. destruct (w_write w (fh_path h)); [ | discriminate]. subst ls. reflexivity.
Qed.
