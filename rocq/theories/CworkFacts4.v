(** Lemmas for C101: the digests of getDecryptedData and encryptData in histories, and the attack. *)
From Verif Require Import Base BaseFacts BytesModel BytesFacts CipherModel CipherSpec CipherFacts CipherFacts2 PwModel PwSpec ChModel ChSpec HeaderModel HeaderSpec HeaderFacts HeaderFacts2 HeaderFacts3 HeaderFacts4 HeaderFacts5 HeaderFacts8 HeaderFacts9
  FileModel ApiModel ApiSpec FileFacts FileFacts2 ApiFacts ApiFacts2 ApiFacts3 ApiFacts4 ApiFacts5 ApiFacts6 ApiFacts7
  WorkModel WorkSpec WorkFacts WorkFacts2 CworkModel CworkSpec CworkFacts1 CworkFacts2 CworkFacts3.
Open Scope N_scope.
Open Scope list_scope.
Ltac Zify.zify_post_hook ::= Z.div_mod_to_equations.

Lemma hsz_unique file hsz l1 l2 h rest hsz' l1' l2' h' rest' : lenN file < two64 -> written_as file hsz l1 l2 h rest -> written_as file hsz' l1' l2' h' rest' -> hsz = hsz'.
Proof.
  intros L W W'. assert (hsz <= lenN file) as B by apply W. assert (hsz' <= lenN file) as B' by apply W'.
  destruct (written_size _ _ _ _ _ _ W) as (r & E). destruct (written_size _ _ _ _ _ _ W') as (r' & E').
  assert (u64 (lenN file) ++ u64 hsz ++ r = u64 (lenN file) ++ u64 hsz' ++ r') as X by (etransitivity; [symmetry; exact E|exact E']).
  apply app_inv_head in X. apply u64_inj in X; [apply X|lia..].
Qed.
Section Calls.
  Variable H : hashes.
  Hypothesis HH : hashes_ok H.
  Set Default Proof Using "All".
  Definition via_data_w (h : hashfn) (fuel : nat) (k : kind) (key salt data : Bytes) : logged Bytes :=
    c <=- quiet (new_chain k h key salt) ;; c <=- addData_w fuel data c ;; r <=- quiet (getResult c) ;; quiet (Ret (fst r)).
  Definition via_stream_w (h : hashfn) (fuel : nat) (k : kind) (key salt : Bytes) (s : bytes) (total : N) : logged Bytes :=
    c <=- quiet (new_chain k h key salt) ;; c <=- addStream_w fuel s total c ;; r <=- quiet (getResult c) ;; quiet (Ret (fst r)).
  Lemma crypt_body_w w d h pw k : w_hashes w = H -> holds d h -> bdata k = key_of H h pw -> exists hf s,
    hash_ok hf /\ hfun hf = hash_of H (h_hmode h) /\ hsize hf = digest_len (h_hmode h) /\ getLen k = hsize hf /\ getLen s = hsize hf /\ bdata s = h_salt h /\
    (forall data, encryptBody_w w k data d = via_data_w hf (w_fuel w) Enc k s data) /\
    (forall a x f, a_dh a = Some d -> a_key a = k -> a_file a = Some x -> decryptBody_w w a f = via_stream_w hf (w_fuel w) Dec k s (fh_dataStream w f x) (fh_dataSize x)).
  Proof.
    intros EH Hd Bk. pose proof (holds_parts d h Hd) as P. destruct (holds_good d h Hd) as (v & s & G & Bv & Bs & L1 & L2). pose proof (holds_ok d h Hd) as Hok.
    destruct (hash_mode_ok H (h_hmode h) HH (g_range _ _ _ _ G)) as (hf & Hg & Hh & Hf). pose proof (getHash_size _ _ _ Hg) as [Hs _].
    exists hf, (copyBytes s). spl; try assumption.
    - unfold getLen. rewrite Bk. unfold key_of, chain_value. rewrite <- Hf. destruct Hh as (_ & _ & K). destruct (N.to_nat _); cbn [iterated]; apply K.
    - rewrite Hs. exact (g_slen _ _ _ _ G).
    - intros data. unfold encryptBody_w, via_data_w. rewrite P, quiet_then. unfold p_getHashMode, p_getSalt. rewrite (g_hmode _ _ _ _ G), quiet_then. rewrite EH, Hg, quiet_then.
      rewrite (g_salt _ _ _ _ G), quiet_then. reflexivity.
    - intros a x f A1 A2 A3. unfold decryptBody_w, via_stream_w. rewrite A1, A2, A3. cbn [ptr]. rewrite quiet_then, P, quiet_then. unfold p_getHashMode, p_getSalt.
      rewrite (g_hmode _ _ _ _ G), quiet_then. rewrite EH, Hg, quiet_then. rewrite (g_salt _ _ _ _ G), quiet_then. reflexivity.
  Qed.
  Lemma via_data_res h fuel k key salt data : snd (via_data_w h fuel k key salt data) = via_data h fuel k key salt data.
  Proof. unfold via_data_w, via_data. apply snd_then. intros c. erewrite snd_then; [rewrite addData_res; reflexivity|]. intros c1. apply snd_then. intros [r c2]. reflexivity. Qed.
  Lemma via_stream_res h fuel k key salt s t : snd (via_stream_w h fuel k key salt s t) = via_stream h fuel k key salt s t.
  Proof. unfold via_stream_w, via_stream. apply snd_then. intros c. erewrite snd_then; [rewrite addStream_res; reflexivity|]. intros c1. apply snd_then. intros [r c2]. reflexivity. Qed.
  Lemma via_data_events h fuel k key salt data r : hash_ok h -> getLen key = hsize h -> getLen salt = hsize h -> getLen data < 2 ^ 31 -> snd (via_data_w h fuel k key salt data) = Ret r ->
    fst (via_data_w h fuel k key salt data) = map EvHash (pad_texts (hfun h) (kstart (hsize h) (bdata key) (bdata salt)) ++ rem h k (kstart (hsize h) (bdata key) (bdata salt)) (blocks (hsize h) (bdata data))).
  Proof.
    intros (Hp & Hl & Hn) Lk Ls Ld E. destruct (new_chain_ok h Hp Hl Hn k key salt Lk Ls) as (c & Hc & _). unfold via_data_w in *. rewrite Hc, quiet_then in *.
    rewrite fst_silent by (intros; rewrite fst_silent; [reflexivity|intros; reflexivity]).
    unfold then_ in E. destruct (snd (addData_w fuel data c)) as [c1| | |] eqn:Ea; try discriminate E. exact (data_events h Hp Hl Hn k key salt c fuel data c1 Lk Ls Hc Ld Ea).
  Qed.
  Lemma via_stream_events h fuel k key salt s t r : hash_ok h -> getLen key = hsize h -> getLen salt = hsize h -> t < 2 ^ 31 -> snd (via_stream_w h fuel k key salt s t) = Ret r ->
    fst (via_stream_w h fuel k key salt s t) = map EvHash (pad_texts (hfun h) (kstart (hsize h) (bdata key) (bdata salt)) ++ rem h k (kstart (hsize h) (bdata key) (bdata salt)) (blocks (hsize h) (takeN t s))).
  Proof.
    intros (Hp & Hl & Hn) Lk Ls Ld E. destruct (new_chain_ok h Hp Hl Hn k key salt Lk Ls) as (c & Hc & _). unfold via_stream_w in *. rewrite Hc, quiet_then in *.
    rewrite fst_silent by (intros; rewrite fst_silent; [reflexivity|intros; reflexivity]).
    unfold then_ in E. destruct (snd (addStream_w fuel s t c)) as [c1| | |] eqn:Ea; try discriminate E. exact (stream_events h Hp Hl Hn k key salt c fuel s t c1 Lk Ls Hc Ld Ea).
  Qed.
  Variable bd : build.
  Lemma encrypt_call mode tr a w f m b f' a' h pw : history bd H mode tr a -> world_ok bd H w -> op_ok (OEncrypt (Some (mkFD m (Some b)))) ->
    step w a f (OEncrypt (Some (mkFD m (Some b)))) = (f', Ret (a', ROk)) -> current H tr h -> password tr = Some pw ->
    fst (step_c w a f (OEncrypt (Some (mkFD m (Some b))))) = map EvHash (crypt_texts H h pw (bdata b)).
  Proof.
    intros Hh W Ho E Hc Hpw. pose proof (history_inv _ HH _ _ _ _ Hh) as [Em I]. unfold step_c. cbn [step] in E. destruct (a_state a) eqn:Es; try discriminate E.
    destruct I as (p & c0 & h0 & pw0 & k0 & d0 & fh & fd & Q1 & Q2 & Q3 & Q4 & [Q5 Q5'] & Q6 & Q7 & Q8 & Ea).
    assert (pw0 = pw) by congruence. subst pw0. rewrite (current_unique H bd _ _ _ Hh _ _ Q4 Hc) in *. clear Q4.
    assert (encryptData w a (Some (mkFD m (Some b))) = Ret (a', ROk)) as E' by (injection E as _ ->; reflexivity).
    assert (a_dh a = Some d0) as Edh by (rewrite Ea; reflexivity). assert (bdata (a_key a) = key_of H h pw) as Ek by (rewrite Ea; exact Q5'). destruct W as (_ & WH & _).
    destruct (encrypt_inv H HH w a _ d0 h pw a' _ WH Em Edh Q6 Ek Ho E') as [(e & _ & X)|[(d1 & e & _ & _ & X)|(data & res & d2 & Ex & L31 & _ & _ & _ & _)]]; try discriminate X.
    injection Ex as -> ->. cbn [fst]. unfold encryptData_w, noexcept_w. cbn [fst ptr]. rewrite quiet_then. cbn [fd_mode fd_data]. rewrite Em. cbn [N.eqb Pos.eqb negb ptr]. rewrite quiet_then, Edh. cbn [ptr]. rewrite quiet_then.
    unfold encryptData in E'. cbn [ptr bind fd_mode fd_data] in E'. rewrite Em, Edh in E'. cbn [N.eqb Pos.eqb negb ptr bind] in E'.
    destruct (set_data_size d0 h (getLen data) Q6) as (d1 & E1 & Hd1 & F1 & B1). rewrite E1 in E' |- *. cbn [try_ bind] in E' |- *. unfold dret in *. cbn [bind] in E'. rewrite quiet_then.
    destruct (calc_plain_bytes d1 h (w_hashes w) (w_clk1 w) Hd1 _ F1) as [C1 C2].
    destruct (N.ltb_spec (w32 (w32 (getLen data) + hdr_len h)) (hdr_len h)) as [Lt|Ge]; [rewrite (C1 Lt) in E'; discriminate E'|].
    rewrite (C2 Ge) in E' |- *. set (dd := with_bytes _ d1) in *. assert (holds dd h) as Hd2 by (apply holds_bytes; exact Hd1).
    rewrite fst_silent by (intros; reflexivity). unfold try_w. cbn [fst]. rewrite quiet_then. cbn [bind] in E'. rewrite <- encryptBody_res in E'.
    destruct (crypt_body_w w dd h pw (a_key a) WH Hd2 Ek) as (hf & s & Hhf & Ef & Esz & Lk & Lsa & Bs & Eb & _). rewrite Eb in *.
    destruct (snd (via_data_w hf (w_fuel w) Enc (a_key a) s data)) as [res'|e|e|] eqn:V; cbn in E'; try discriminate E'; [|destruct e; discriminate E'].
    rewrite (via_data_events hf _ _ _ _ _ _ Hhf Lk Lsa L31 V). f_equal. destruct Hhf as (Hp & Hl & Hn). rewrite <- (data_rem hf Hp Hl Hn). unfold crypt_texts. rewrite Ef, Esz, Ek, Bs. reflexivity.
  Qed.
  Lemma decrypt_at mode tr a h pw : history bd H mode tr a -> a_state a = PASSWORD_VERIFIED -> current H tr h -> password tr = Some pw ->
    exists p c hsz l1 l2 rest k, selected tr = Some (p, c) /\ written_as c hsz l1 l2 h rest /\ lenN c < 2 ^ 63 /\ bdata k = key_of H h pw /\
      a = mkApi PASSWORD_VERIFIED 1 None k None (Some (decoded (lenN c) h)) (Some (mkFH p hsz (lenN c) false)).
  Proof.
    intros Hh Es Hc Hpw. pose proof (history_inv _ HH _ _ _ _ Hh) as [Em I]. rewrite Es in I.
    destruct I as (p & c & hsz & l1 & l2 & h0 & rest & pw0 & k & Q1 & Q2 & Q3 & Q4 & Q5 & Wr & L1 & L2 & [K1 K2] & Ea).
    assert (pw0 = pw) by congruence. subst pw0. rewrite (current_unique H bd _ _ _ Hh _ _ Q5 Hc) in *. exists p, c, hsz, l1, l2, rest, k. spl; assumption.
  Qed.
  Lemma current_at mode tr a p c hsz l1 l2 h rest : history bd H mode tr a -> a_state a = PASSWORD_VERIFIED -> selected tr = Some (p, c) -> written_as c hsz l1 l2 h rest -> current H tr h.
  Proof.
    intros Hh Es Sel Wr. pose proof (history_inv _ HH _ _ _ _ Hh) as [Em I]. rewrite Es in I.
    destruct I as (p' & c' & hsz' & l1' & l2' & h0 & rest' & pw & k & Q1 & Q2 & Q3 & Q4 & Q5 & Wr' & L1 & L2 & [K1 K2] & Ea).
    rewrite Sel in Q1. injection Q1 as <- <-. destruct (written_unique _ _ _ _ _ _ _ _ _ _ _ (lt63_two64 _ L2) Wr Wr') as [-> _]. exact Q5.
  Qed.
  Lemma current_open mode tr a : history bd H mode tr a -> a_state a = DECRYPTED -> exists h pw, current H tr h /\ password tr = Some pw.
  Proof.
    intros Hh Es. pose proof (history_inv _ HH _ _ _ _ Hh) as [Em I]. rewrite Es in I.
    destruct I as (p & c0 & h0 & pw0 & k0 & d0 & fh & fd & Q1 & Q2 & Q3 & Q4 & _). exists h0, pw0. split; assumption.
  Qed.
  Lemma decrypt_form w f (c : bytes) hsz h p k pw a : world_ok bd H w -> header_ok h -> lenN c < 2 ^ 63 -> hsz <= lenN c -> bdata k = key_of H h pw ->
    a = mkApi PASSWORD_VERIFIED 1 None k None (Some (decoded (lenN c) h)) (Some (mkFH p hsz (lenN c) false)) ->
    exists hf s, hash_ok hf /\ hfun hf = hash_of H (h_hmode h) /\ hsize hf = digest_len (h_hmode h) /\ getLen k = hsize hf /\ getLen s = hsize hf /\ bdata s = h_salt h /\
      fst (step_c w a f ODecrypt) = fst (via_stream_w hf (w_fuel w) Dec k s (dropN hsz (stream_of w f p)) (lenN c - hsz)) /\
      step w a f ODecrypt = (f, noexcept (r <- try_ (any_std ERR) (snd (via_stream_w hf (w_fuel w) Dec k s (dropN hsz (stream_of w f p)) (lenN c - hsz))) ;;
        match r with
        | inl e => Ret (a, failed e)
        | inr res => Ret (mkApi DECRYPTED (a_mode a) None (a_key a) (a_enc a) (a_dh a) (a_file a), RData (mkFD (Some (a_mode a)) (Some res)))
        end)).
  Proof.
    intros (Wb & WH & WR & We) Hok L Lh Bk Ea. pose proof (lt63_two64 _ L) as L3.
    assert (holds (decoded (lenN c) h) h) as Hd by (split; [apply decoded_hinv|apply decoded_contents]; assumption).
    destruct (crypt_body_w w _ h pw k WH Hd Bk) as (hf & s & Hh & Ef & Esz & Lk & Lsa & Bs & _ & Eb).
    exists hf, s. spl; try assumption.
    - unfold step_c. rewrite Ea at 1. cbn [a_state fst]. unfold getDecryptedData_w, noexcept_w. cbn [fst]. rewrite fst_silent by (intros; reflexivity). unfold try_w. cbn [fst].
      rewrite Eb with (x := mkFH p hsz (lenN c) false) by (rewrite Ea; reflexivity). unfold fh_dataSize, fh_dataStream. cbn [fh_hsize fh_fsize fh_path]. rewrite sub64_le by lia. reflexivity.
    - cbn [step]. rewrite Ea at 1. cbn [a_state]. unfold getDecryptedData. rewrite <- decryptBody_res.
      rewrite Eb with (x := mkFH p hsz (lenN c) false) by (rewrite Ea; reflexivity). unfold fh_dataSize, fh_dataStream. cbn [fh_hsize fh_fsize fh_path]. rewrite sub64_le by lia. reflexivity.
  Qed.
  Lemma decrypt_call mode tr a w f m b f' a' h pw : history bd H mode tr a -> world_ok bd H w ->
    step w a f ODecrypt = (f', Ret (a', RData (mkFD m (Some b)))) -> current H tr h -> password tr = Some pw ->
    fst (step_c w a f ODecrypt) = map EvHash (crypt_texts H h pw (bdata b)).
  Proof.
    intros Hh W E Hc Hpw. assert (a_state a = PASSWORD_VERIFIED) as Es by (cbn [step] in E; destruct (a_state a); try discriminate E; reflexivity).
    destruct (decrypt_at _ _ _ _ _ Hh Es Hc Hpw) as (p & c & hsz & l1 & l2 & rest & k & Q1 & Wr & L2 & Bk & Ea).
    assert (hsz <= lenN c) as Lh by apply Wr. assert (header_ok h) as Hok by apply Wr.
    destruct (decrypt_form w f c hsz h p k pw a W Hok L2 Lh Bk Ea) as (hf & s & Hhf & Ef & Esz & Lk & Lsa & Bs & Ev & St).
    rewrite Ev. rewrite E in St. pose proof (lt63_two64 _ L2) as L3.
    destruct (snd (via_stream_w hf (w_fuel w) Dec k s (dropN hsz (stream_of w f p)) (lenN c - hsz))) as [res|e|e|] eqn:V; cbn [try_ bind dret] in St; try discriminate St; [|destruct e; discriminate St].
    injection St as _ _ _ <-. pose proof V as V'. rewrite via_stream_res in V'. apply (via_stream_inv hf Hhf) in V'; [|change (2 ^ 64) with two64; lia]. destruct V' as (_ & _ & L31 & Lt & Br).
    rewrite (via_stream_events hf _ _ _ _ _ _ _ Hhf Lk Lsa L31 V). f_equal. destruct Hhf as (Hp & Hl & Hn). rewrite <- (rem_dec hf Hp Hl Hn), <- (data_rem hf Hp Hl Hn).
    unfold crypt_texts. rewrite <- Ef, <- Esz, Br. cbn [spec_k]. rewrite <- (crypt_spec_dec hf Hp Hl Hn), Bk, Bs. reflexivity.
  Qed.
  Lemma silent_stream h fuel k key salt s t : hash_ok h -> getLen key = hsize h -> getLen salt = hsize h -> exists c, new_chain k h key salt = Ret c /\
    fst (via_stream_w h fuel k key salt s t) = fst (addStream_w fuel s t c).
  Proof.
    intros (Hp & Hl & Hn) Lk Ls. destruct (new_chain_ok h Hp Hl Hn k key salt Lk Ls) as (c & Hc & _). exists c. split; [exact Hc|]. unfold via_stream_w. rewrite Hc, quiet_then.
    apply fst_silent. intros. rewrite fst_silent; [reflexivity|intros; reflexivity].
  Qed.
  Lemma decrypt_bound mode tr a w f p c hsz l1 l2 h rest : history bd H mode tr a -> world_ok bd H w -> selected tr = Some (p, c) -> written_as c hsz l1 l2 h rest ->
    lenN c - hsz < 2 ^ 31 -> digests (fst (step_c w a f ODecrypt)) <= crypt_cost (digest_len (h_hmode h)) (lenN c - hsz).
  Proof.
    intros Hh W Sel Wr L31. unfold step_c. destruct (a_state a) eqn:Es; try apply N.le_0_l.
    pose proof (history_inv _ HH _ _ _ _ Hh) as [Em I]. rewrite Es in I.
    destruct I as (p' & c' & hsz' & l1' & l2' & h0 & rest' & pw & k & Q1 & Q2 & Q3 & Q4 & Q5 & Wr' & L1 & L2 & [K1 K2] & Ea).
    rewrite Sel in Q1. injection Q1 as <- <-. destruct (written_unique _ _ _ _ _ _ _ _ _ _ _ (lt63_two64 _ L2) Wr Wr') as [<- <-]. pose proof (hsz_unique _ _ _ _ _ _ _ _ _ _ _ (lt63_two64 _ L2) Wr Wr'). subst hsz'.
    assert (hsz <= lenN c) as Lh by apply Wr. assert (header_ok h) as Hok by apply Wr.
    destruct (decrypt_form w f c hsz h p k pw a W Hok L2 Lh K2 Ea) as (hf & s & Hhf & Ef & Esz & Lk & Lsa & Bs & Ev & _).
    unfold step_c in Ev. rewrite Es in Ev. rewrite Ev. destruct (silent_stream hf (w_fuel w) Dec k s (dropN hsz (stream_of w f p)) (lenN c - hsz) Hhf Lk Lsa) as (c0 & Hc0 & ->).
    destruct Hhf as (Hp & Hl & Hn). rewrite <- Esz, (cost_rem hf Hp Hl Hn). exact (stream_bound hf Hp Hl Hn Dec k s c0 _ _ _ Lk Lsa Hc0 L31).
  Qed.
  Lemma decrypt_short mode tr a w f p c hsz l1 l2 h rest : history bd H mode tr a -> world_ok bd H w -> a_state a = PASSWORD_VERIFIED -> selected tr = Some (p, c) -> written_as c hsz l1 l2 h rest ->
    lenN c - hsz < 2 ^ 31 -> patient w (lenN c - hsz) -> let now := lenN (stream_of w f p) - hsz in now < lenN c - hsz ->
    step w a f ODecrypt = (f, Ret (a, failed ERR)) /\ digests (fst (step_c w a f ODecrypt)) = 3 + 4 * (now / digest_len (h_hmode h)).
  Proof.
    intros Hh W Es Sel Wr L31 Pt now Ln.
    pose proof (history_inv _ HH _ _ _ _ Hh) as [Em I]. rewrite Es in I.
    destruct I as (p' & c' & hsz' & l1' & l2' & h0 & rest' & pw & k & Q1 & Q2 & Q3 & Q4 & Q5 & Wr' & L1 & L2 & [K1 K2] & Ea).
    rewrite Sel in Q1. injection Q1 as <- <-. destruct (written_unique _ _ _ _ _ _ _ _ _ _ _ (lt63_two64 _ L2) Wr Wr') as [<- <-]. pose proof (hsz_unique _ _ _ _ _ _ _ _ _ _ _ (lt63_two64 _ L2) Wr Wr'). subst hsz'.
    assert (hsz <= lenN c) as Lh by apply Wr. assert (header_ok h) as Hok by apply Wr.
    destruct (decrypt_form w f c hsz h p k pw a W Hok L2 Lh K2 Ea) as (hf & s & Hhf & Ef & Esz & Lk & Lsa & Bs & Ev & St).
    destruct (silent_stream hf (w_fuel w) Dec k s (dropN hsz (stream_of w f p)) (lenN c - hsz) Hhf Lk Lsa) as (c0 & Hc0 & Ev2).
    assert (lenN (dropN hsz (stream_of w f p)) = now) as En by apply lenN_dropN. unfold patient in Pt.
    pose proof Hhf as (Hp & Hl & Hn). destruct (stream_short hf Hp Hl Hn Dec k s c0 (w_fuel w) (dropN hsz (stream_of w f p)) (lenN c - hsz) Lk Lsa Hc0 L31 ltac:(lia) ltac:(lia)) as [S1 S2].
    rewrite Ev, Ev2, S2, En, Esz. split; [|reflexivity]. rewrite St. unfold via_stream_w. rewrite Hc0, quiet_then. unfold then_ at 1. rewrite S1. reflexivity.
  Qed.
  Lemma crypt_count h pw d : header_ok h -> lenN (crypt_texts H h pw d) = crypt_cost (digest_len (h_hmode h)) (lenN d).
  Proof using HH.
    intros Hok. destruct (hash_mode_ok H (h_hmode h) HH ltac:(apply Hok)) as (hf & Hg & (Hp & Hl & Hn) & Hf). pose proof (getHash_size _ _ _ Hg) as [Hs _].
    unfold crypt_texts. rewrite <- Hf, <- Hs. apply (data_count hf Hp Hl Hn).
  Qed.
  Lemma crypt_seen h pw d : header_ok h -> seen (map EvHash (crypt_texts H h pw d)) = repeat (Digest (digest_len (h_hmode h))) (N.to_nat (crypt_cost (digest_len (h_hmode h)) (lenN d))).
  Proof using HH.
    intros Hok. rewrite <- (crypt_count h pw d Hok). destruct (hash_mode_ok H (h_hmode h) HH ltac:(apply Hok)) as (hf & Hg & (Hp & Hl & Hn) & Hf). pose proof (getHash_size _ _ _ Hg) as [Hs _].
    assert (Forall (fun t => lenN t = digest_len (h_hmode h)) (crypt_texts H h pw d)) as F.
    { unfold crypt_texts. rewrite <- Hf, <- Hs. apply (data_lens hf Hp Hl Hn). apply (keys_start hf Hp Hl Hn).
      - unfold key_of, chain_value. rewrite <- Hf. destruct (N.to_nat _); cbn [iterated]; apply Hn.
      - rewrite Hs. apply Hok. }
    unfold seen. rewrite map_map. unfold lenN. rewrite Nat2N.id. induction F as [|t l Ht F IH]; [reflexivity|]. cbn [map length repeat]. rewrite IH. f_equal. f_equal. exact Ht.
  Qed.
End Calls.

Section Attack.
  Variable H : hashes.
  Hypothesis HH : hashes_ok H.
  Lemma rounds_value D m g k : snd (rounds D m g (S k)) = iterated D m g k.
  Proof using. induction k as [|k IH]; [reflexivity|]. cbn [iterated]. rewrite <- IH. reflexivity. Qed.
  Lemma rounds_count D m g k : length (fst (rounds D m g k)) = k.
  Proof using. induction k as [|k IH]; [reflexivity|]. cbn [rounds fst]. rewrite app_length, IH. cbn [length]. lia. Qed.
  Lemma probe_cost h body known guess : lenN (fst (probe_file H h body known guess)) = iterations (h_ch1 h) + 3.
  Proof using. unfold probe_file, probe. cbn [fst]. unfold lenN. rewrite app_length, rounds_count. cbn [length]. lia. Qed.
  Lemma probe_same h h' body known guess : same_start h h' -> probe_file H h body known guess = probe_file H h' body known guess.
  Proof using. intros (A & B & C). unfold probe_file, probe. rewrite A, B, C. reflexivity. Qed.
  Lemma bdiff_take n x y : lenN y = n -> bdiff (takeN n x) y = bdiff x y.
  Proof using.
    intros <-. unfold bdiff, takeN, lenN. rewrite Nat2N.id. f_equal. revert y. induction x as [|b x IH]; intros y; [destruct y; reflexivity|].
    destruct y as [|c y]; [reflexivity|]. cbn [length firstn combine]. rewrite IH. reflexivity.
  Qed.
  Lemma bdiff_length x y : length (bdiff x y) = Nat.min (length x) (length y).
  Proof using. unfold bdiff. rewrite map_length. apply combine_length. Qed.
  Lemma begins (x y k : bytes) : lenN k <= lenN x -> (takeN (lenN k) x = k <-> exists r, x ++ y = k ++ r).
  Proof using.
    intros L. split.
    - intros E. exists (dropN (lenN k) x ++ y). rewrite app_assoc. f_equal. rewrite <- E at 1. symmetry. apply takeN_dropN.
    - intros (r & E). apply (f_equal (takeN (lenN k))) in E. unfold takeN in *. rewrite !firstn_app in E. unfold lenN in *.
      replace (N.to_nat (N.of_nat (length k)) - length x)%nat with 0%nat in E by lia. replace (N.to_nat (N.of_nat (length k)) - length k)%nat with 0%nat in E by lia.
      rewrite !firstn_O, !app_nil_r in E. rewrite E. apply firstn_all2. lia.
  Qed.
  Lemma probe_says h body known guess : header_ok h -> lenN known <= digest_len (h_hmode h) -> lenN known <= lenN body ->
    (snd (probe_file H h body known guess) = true <-> exists rest, plain_of H h guess body = known ++ rest).
  Proof using HH.
    intros Hok Ln Lb. destruct (hash_mode_ok H (h_hmode h) HH ltac:(apply Hok)) as (hf & Hg & (Hp & Hl & Hn) & Hf). pose proof (getHash_size _ _ _ Hg) as [Hs _].
    unfold probe_file, probe. cbn [snd].
    assert (1 <= iterations (h_ch1 h)) as I1 by apply Hok.
    assert (snd (rounds (hash_of H (h_hmode h)) (salts (h_ch1 h)) guess (N.to_nat (iterations (h_ch1 h)))) = key_of H h guess) as ->.
    { replace (N.to_nat (iterations (h_ch1 h))) with (S (N.to_nat (iterations (h_ch1 h) - 1))) by lia. rewrite rounds_value. reflexivity. }
    set (st := kstart (digest_len (h_hmode h)) (key_of H h guess) (h_salt h)).
    change (hash_of H (h_hmode h) (bsum (hash_of H (h_hmode h) (bsum (bsum (key_of H h guess) (h_salt h)) (repeat x00 (N.to_nat (digest_len (h_hmode h))))))
      (hash_of H (h_hmode h) (bsum (bsum (hash_of H (h_hmode h) (bsum (bsum (key_of H h guess) (h_salt h)) (repeat x00 (N.to_nat (digest_len (h_hmode h)))))) (h_salt h)) (repeat x00 (N.to_nat (digest_len (h_hmode h))))))))
      with (kpad (hash_of H (h_hmode h)) st).
    set (pad := kpad _ st). assert (lenN pad = digest_len (h_hmode h)) as Lp by (unfold pad, kpad; rewrite <- Hf, <- Hs; apply Hn).
    assert (exists y, plain_of H h guess body = bdiff body pad ++ y) as (y & Ey).
    { unfold plain_of, spec_dec, blocks. fold st. destruct body as [|b body]; [exists []; reflexivity|]. cbn [length CipherSpec.cut dec_blocks]. cbv zeta. fold pad. rewrite (bdiff_take _ (b :: body) pad Lp). eexists. reflexivity. }
    rewrite Ey. rewrite <- begins by (unfold lenN in *; rewrite bdiff_length; lia). destruct (list_eq_dec _ _ _); split; intros; congruence.
  Qed.
  Lemma probe_passes h pw known rest c : sealed H h pw (known ++ rest) c -> lenN known <= digest_len (h_hmode h) -> snd (probe_file H h (dropN (hdr_len h) c) known pw) = true.
  Proof using HH.
    intros (Hok & _ & ->) L. rewrite <- (ser_len (hdr_len h + lenN (known ++ rest)) h) at 1 by exact Hok. rewrite dropN_app_exact. apply probe_says; [exact Hok|exact L| |].
    - destruct (hash_mode_ok H (h_hmode h) HH ltac:(apply Hok)) as (hf & Hg & (Hp & Hl & Hn) & Hf). pose proof (getHash_size _ _ _ Hg) as [Hs _].
      unfold cipher_of. rewrite <- Hf, <- Hs. rewrite <- (crypt_spec_enc hf Hp Hl Hn), (crypt_len hf Hp Hl Hn), lenN_app. lia.
    - exists rest. apply (plain_of_cipher H HH). exact Hok.
  Qed.
End Attack.
Lemma cost_of n q r : 0 < n -> r < n -> crypt_cost n (n * q + r) = 4 * q + (if (r =? 0) && negb (q =? 0) then 0 else 3).
Proof.
  intros Hn Hr. unfold crypt_cost. assert ((n * q + r) / n = q) as E1 by (symmetry; apply (N.div_unique _ _ q r); lia).
  destruct (N.eqb_spec r 0) as [->|Nr].
  - assert ((n * q + 0 + n - 1) / n = q) as -> by (symmetry; apply (N.div_unique _ _ q (n - 1)); lia). rewrite E1. destruct (N.eqb_spec q 0) as [->|]; cbn [negb andb]; [reflexivity|lia].
  - assert ((n * q + r + n - 1) / n = q + 1) as -> by (symmetry; apply (N.div_unique _ _ (q + 1) (r - 1)); lia). rewrite E1. cbn [andb]. lia.
Qed.
