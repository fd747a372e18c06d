(** The stream decoder is the reference reader. *)
From Coq Require Import Strings.Byte.
From Verif Require Import Base BaseFacts BytesModel BytesSpec BytesFacts BytesFacts2 CipherModel CipherFacts PwModel PwFacts
  MiscModel MiscFacts ChModel ChSpec ChFacts ChFacts2 HeaderModel HeaderSpec HeaderFacts HeaderFacts2 HeaderFacts3 HeaderFacts4 HeaderFacts5 RefSpec.

(** ** reading *)
Lemma take_n_app x r : take_n (lenN x) (x ++ r) = Gives (x, r).
Proof.
  unfold take_n. rewrite lenN_app. destruct (N.leb_spec (lenN x) (lenN x + lenN r)); [|lia]. rewrite takeN_app_exact, dropN_app_exact. reflexivity.
Qed.
Lemma take_n_eq n x r : lenN x = n -> take_n n (x ++ r) = Gives (x, r).
Proof. intros <-. apply take_n_app. Qed.
Lemma take_n_short n s : lenN s < n -> take_n n s = Rejects ERR_NOT_ENOUGH_DATA.
Proof. intros L. unfold take_n. destruct (N.leb_spec n (lenN s)); [lia|reflexivity]. Qed.
Lemma take_1 v r : v < 256 -> take_num 1 (u8 v ++ r) = Gives (v, r).
Proof. intros L. unfold take_num. rewrite (take_n_eq 1 (u8 v) r eq_refl). cbn [also]. unfold be_val, u8. cbn [fold_left]. rewrite b2n_n2b_small by exact L. reflexivity. Qed.
Lemma take_1_none : take_num 1 [] = Rejects ERR_NOT_ENOUGH_DATA.
Proof. reflexivity. Qed.
Lemma take_8 v r : v < two64 -> take_num 8 (u64 v ++ r) = Gives (v, r).
Proof. intros L. unfold take_num. rewrite (take_n_eq 8 (u64 v) r (u64_len v)). cbn [also]. rewrite u64_val by exact L. reflexivity. Qed.
Lemma take_8_none s : lenN s < 8 -> take_num 8 s = Rejects ERR_NOT_ENOUGH_DATA.
Proof. intros L. unfold take_num. rewrite take_n_short by exact L. reflexivity. Qed.

(** ** blocks *)
Lemma take_blocks_cases n : forall s,
  (exists bs r, length bs = n /\ Forall good bs /\ s = concat (map ser_block bs) ++ r /\ take_blocks n s = Gives (bs, r)) \/
  (take_blocks n s = Dies Terminate /\ forall hm v sa c1 c2 fs bs1, Forall good bs1 -> lenN bs1 + N.of_nat n <= 255 -> s_blocks n (D hm v sa bs1 [] c1 c2 fs) s = Throw InvalidArgument) \/
  (take_blocks n s = Rejects ERR_NOT_ENOUGH_DATA /\ forall hm v sa c1 c2 fs bs1, Forall good bs1 -> lenN bs1 + N.of_nat n <= 255 -> s_blocks n (D hm v sa bs1 [] c1 c2 fs) s = dfail ERR_NOT_ENOUGH_DATA).
Proof.
  induction n as [|n IH]; intros s; [left; exists [], s; cbn; auto|].
  destruct (read1_cases s) as [(ty & s1 & T & ->)| ->]; [|right; right; split; reflexivity]. cbn [take_blocks]. rewrite take_1 by exact T. cbn [also].
  destruct (read1_cases s1) as [(l & s2 & T2 & ->)| ->].
  2:{ right; right. split; [reflexivity|]. intros hm v sa c1 c2 fs bs1 _ _. cbn [s_blocks]. rewrite read1_u8 by exact T. reflexivity. }
  rewrite take_1 by exact T2. cbn [also].
  destruct (read_n_cases l l s2 ltac:(lia)) as [(x & s3 & L & ->)|[E L]].
  2:{ right; right. rewrite take_n_short by exact L. split; [reflexivity|]. intros hm v sa c1 c2 fs bs1 _ _. cbn [s_blocks]. rewrite read1_u8 by exact T. cbn [need dbind dret]. rewrite read1_u8 by exact T2. cbn [need dbind dret].
      rewrite readBytes_N by (unfold two32; lia). rewrite E. reflexivity. }
  rewrite take_n_eq by exact L. cbn [also].
  destruct (N.eqb_spec l 0) as [->|Hl].
  { apply lenN_0 in L. subst x. right; left. split; [reflexivity|]. intros hm v sa c1 c2 fs bs1 G L1.
    change (u8 ty ++ u8 0 ++ [] ++ s3) with (concat (map ser_block []) ++ u8 ty ++ u8 0 ++ s3).
    apply blocks_zero; [rewrite app_nil_r; exact G|rewrite app_nil_r; lia|cbn; lia|exact T]. }
  assert (good (ty, x)) as Gb.
  { split; [split; cbn [fst snd]; lia|]. cbn [snd]. intros ->. change (lenN (@nil byte)) with 0 in L. lia. }
  assert (forall hm v sa c1 c2 fs bs1, Forall good bs1 -> lenN bs1 + N.of_nat (S n) <= 255 ->
    s_blocks (S n) (D hm v sa bs1 [] c1 c2 fs) (u8 ty ++ u8 l ++ x ++ s3) = s_blocks n (D hm v sa (bs1 ++ [(ty, x)]) [] c1 c2 fs) s3 /\
    Forall good (bs1 ++ [(ty, x)]) /\ lenN (bs1 ++ [(ty, x)]) + N.of_nat n <= 255) as K.
  { intros hm v sa c1 c2 fs bs1 G L1. cbn [s_blocks]. rewrite read1_u8 by exact T. cbn [need dbind dret]. rewrite read1_u8 by exact T2. cbn [need dbind dret].
    rewrite readBytes_N by (unfold two32; lia). rewrite read_n_eq by lia. cbn [need dbind dret].
    pose proof (newBlock_good ty x Gb) as Nb. rewrite L in Nb. rewrite Nb. cbn [bind].
    rewrite (addBlock_D _ _ _ bs1 [] _ _ _ (ty, x) Gb (good_ok _ G)); [|lia|vm_compute; discriminate]. cbn [lift bind dbind dret].
    split; [reflexivity|]. split; [apply Forall_snoc; assumption|]. rewrite lenN_app. change (lenN [(ty, x)]) with 1. lia. }
  destruct (IH s3) as [(bs & r & Hn & G & -> & ->)|[[-> F]|[-> F]]]; cbn [also].
  - left. exists ((ty, x) :: bs), r. spl; [cbn; lia|constructor; assumption| |reflexivity]. cbn [map concat]. unfold ser_block at 2. cbn [fst snd].
    rewrite <- !app_assoc, L. reflexivity.
  - right; left. split; [reflexivity|]. intros hm v sa c1 c2 fs bs1 G L1. destruct (K hm v sa c1 c2 fs bs1 G L1) as (-> & G' & L'). apply F; assumption.
  - right; right. split; [reflexivity|]. intros hm v sa c1 c2 fs bs1 G L1. destruct (K hm v sa c1 c2 fs bs1 G L1) as (-> & G' & L'). apply F; assumption.
Qed.
Lemma take_encs_cases n : forall s,
  (exists es r, length es = n /\ Forall enc_ok es /\ s = concat (map ser_enc es) ++ r /\ take_encs n s = Gives (es, r)) \/
  (take_encs n s = Rejects ERR_NOT_ENOUGH_DATA /\
   forall hm v sa bs c1 c2 fs es1, Forall block_ok bs /\ lenN bs <= 255 -> lenN es1 + N.of_nat n <= 255 -> s_encs n (D hm v sa bs es1 c1 c2 fs) s = dfail ERR_NOT_ENOUGH_DATA).
Proof.
  induction n as [|n IH]; intros s; [left; exists [], s; cbn; auto|].
  destruct (read1_cases s) as [(ty & s1 & T & ->)| ->]; [|right; split; reflexivity]. cbn [take_encs]. rewrite take_1 by exact T. cbn [also].
  destruct (read1_cases s1) as [(l & s2 & T2 & ->)| ->].
  2:{ right. split; [reflexivity|]. intros hm v sa bs c1 c2 fs es1 Hb _. cbn [s_encs]. rewrite read1_u8 by exact T. reflexivity. }
  rewrite take_1 by exact T2. cbn [also].
  destruct (read_n_cases 255 255 s2 ltac:(lia)) as [(x & s3 & L & ->)|[E L]].
  2:{ right. rewrite take_n_short by exact L. split; [reflexivity|]. intros hm v sa bs c1 c2 fs es1 Hb _. cbn [s_encs]. rewrite read1_u8 by exact T. cbn [need dbind dret]. rewrite read1_u8 by exact T2. cbn [need dbind dret].
      change 255%Z with (Z.of_N 255). rewrite (readBytes_N 255 255) by (unfold two32; lia). rewrite E. reflexivity. }
  rewrite take_n_eq by exact L. cbn [also].
  assert (enc_ok (ty, l, x)) as Ge by (split; [|split]; cbn [fst snd]; assumption).
  destruct (IH s3) as [(es & r & Hn & G & -> & ->)|[-> F]]; cbn [also].
  - left. exists ((ty, l, x) :: es), r. spl; [cbn; lia|constructor; assumption| |reflexivity]. cbn [map concat]. unfold ser_enc at 2. cbn [fst snd].
    rewrite <- !app_assoc. reflexivity.
  - right. split; [reflexivity|]. intros hm v sa bs c1 c2 fs es1 Hb L1. cbn [s_encs]. rewrite read1_u8 by exact T. cbn [need dbind dret]. rewrite read1_u8 by exact T2. cbn [need dbind dret].
    change 255%Z with (Z.of_N 255). rewrite (readBytes_N 255 255) by (unfold two32; lia). rewrite read_n_eq by lia. cbn [need dbind dret].
    rewrite createEnc_eq by exact L. cbn [bind]. rewrite (addEnc_D hm v sa bs c1 c2 fs Hb es1 (ty, l, x) Ge) by lia. unfold lift. cbn [bind dbind dret].
    apply F; [exact Hb|]. rewrite lenN_app. change (lenN [(ty, l, x)]) with 1. lia.
Qed.

(** ** chain hashes *)
Definition chain_ver (bd : build) (code : errcode) (c : N * N * bytes) (lb : N) (r : bytes) : verdict ((N * N * bytes) * bytes) :=
  match bd with
  | Debug => if lenN (snd c) =? lb then if iters_ok (snd (fst c)) then Gives (c, r) else Rejects code else Dies AssertFail
  | Release => if iters_ok (snd (fst c)) then Gives (c, r) else Rejects code
  end.
Lemma iters_ok_eq it : (1 <=? it) && (it <=? 1000000000) = iters_ok it.
Proof. apply Bool.eq_iff_eq_true. rewrite iters_ok_spec, andb_true_iff, !N.leb_le. reflexivity. Qed.
Lemma fits_length m data lb : 1 <= m <= 5 -> data_fits m data -> lb_ok m data lb -> data_length m lb = lenN data /\ negb ((m =? 4) && (lb <? 8)) = true.
Proof.
  intros Hm F Lb. unfold lb_ok in Lb. destruct (N.eq_dec m 4) as [->|N4].
  - cbn [data_fits data_length] in *. rewrite Lb by auto. split; [reflexivity|]. destruct (N.ltb_spec (lenN data) 8); [lia|apply eq_refl].
  - split; [|destruct (N.eqb_spec m 4); [contradiction|reflexivity]]. revert F Lb. pattern m. apply modes5; [exact Hm|..]; cbn [data_fits data_length]; intros F Lb; auto.
Qed.
Lemma take_chain_fwd bd code c lb r : chain_shape c lb -> take_chain bd code (ser_chain lb c ++ r) = chain_ver bd code c lb r.
Proof.
  destruct c as [[m it] data]. intros (Hm & Hi & F & Lb & L). cbn [fst snd] in *. unfold take_chain, ser_chain. cbn [fst snd]. rewrite <- !app_assoc.
  rewrite take_1 by lia. cbn [also]. assert ((1 <=? m) && (m <=? 5) = true) as -> by (rewrite andb_true_iff, !N.leb_le; exact Hm). cbn [check also].
  rewrite take_8 by exact Hi. cbn [also]. rewrite take_1 by exact L. cbn [also]. destruct (fits_length m data lb Hm F Lb) as [-> ->]. cbn [check also].
  rewrite take_n_app. cbn [also]. rewrite iters_ok_eq. unfold chain_ver, insist, check. cbn [fst snd].
  destruct bd; [destruct (lenN data =? lb)|]; cbn [also]; try reflexivity; destruct (iters_ok it); reflexivity.
Qed.
Lemma take_chain_cases s :
  (exists c lb r, chain_shape c lb /\ s = ser_chain lb c ++ r) \/
  (exists e, forall bd code, take_chain bd code s = Rejects e /\ forall k d, s_chain bd code (set_of k) d s = dfail e).
Proof.
  destruct (read1_cases s) as [(m & s1 & Hm & ->)| ->]; [|right; exists ERR_NOT_ENOUGH_DATA; split; reflexivity].
  assert (forall bd code, take_chain bd code (u8 m ++ s1) = also (check (ch_mode_valid m) ERR_CHAINHASHMODE_FORMAT_INVALID) (fun _ =>
    also (take_num 8 s1) (fun '(iters, s) =>
    also (take_num 1 s) (fun '(lb, s) =>
    also (check (negb ((m =? 4) && (lb <? 8))) ERR_NOT_ENOUGH_DATA) (fun _ =>
    also (take_n (data_length m lb) s) (fun '(x, s) =>
    also (insist bd (lenN x =? lb)) (fun _ =>
    also (check ((1 <=? iters) && (iters <=? 1000000000)) code) (fun _ =>
    Gives ((m, iters, x), s))))))))) as KT.
  { intros. unfold take_chain. rewrite take_1 by exact Hm. cbn [also]. reflexivity. }
  destruct (ch_mode_valid m) eqn:V.
  2:{ right. exists ERR_CHAINHASHMODE_FORMAT_INVALID. intros. split; [rewrite KT; reflexivity|]. intros. unfold s_chain. rewrite read1_u8 by exact Hm. cbn [need dbind dret]. unfold newFormat. rewrite V. reflexivity. }
  cbn [check also] in KT.
  assert (forall bd code k d, s_chain bd code (set_of k) d (u8 m ++ s1) =
    ('(iters, s) <~ read8 s1 ;;
    '(lb, s) <~ need ERR_NOT_ENOUGH_DATA (read1 s) ;;
    '(data_len, c, s) <~ s_parts bd (nameLens m) lb 0 (newChd m) s ;;
    _ <~ dassert bd (cd_len c =? lb) ;;
    _ <~ dassert bd (data_len =? lb) ;;
    d <~ try_ (invalid_or code ERR) (ch <- newChainHash m iters (Some c) ;; set_of k ch d) ;;
    dret (d, s))) as K.
  { intros. unfold s_chain. rewrite read1_u8 by exact Hm. cbn [need dbind dret]. unfold newFormat. rewrite V. reflexivity. }
  apply ch_mode_valid_spec in V.
  destruct (read8_cases s1) as [(it & s2 & Hi & ->)|[E L]].
  2:{ right. exists ERR_NOT_ENOUGH_DATA. intros. split; [rewrite KT, take_8_none by exact L; reflexivity|]. intros. rewrite K, E. reflexivity. }
  destruct (read1_cases s2) as [(lb & s3 & Hl & ->)| ->].
  2:{ right. exists ERR_NOT_ENOUGH_DATA. intros. split; [rewrite KT, take_8 by exact Hi; reflexivity|]. intros. rewrite K, read8_u64 by exact Hi. reflexivity. }
  destruct (N.leb_spec (data_length m lb) (lenN s3)) as [Le|Gt]; [destruct (negb ((m =? 4) && (lb <? 8))) eqn:C4|].
  - left. exists (m, it, takeN (data_length m lb) s3), lb, (dropN (data_length m lb) s3). split.
    + unfold chain_shape. cbn [fst snd]. assert (lenN (takeN (data_length m lb) s3) = data_length m lb) as E by (rewrite lenN_takeN; lia). spl; try assumption; try apply V.
      * clear - V E C4 Hl. revert E C4. pattern m. apply modes5; [exact V|..]; cbn [data_fits data_length N.eqb andb negb]; intros E C4; try lia.
      * intros M. rewrite E. destruct M as [-> | ->]; reflexivity.
    + unfold ser_chain. cbn [fst snd]. rewrite <- !app_assoc, takeN_dropN. reflexivity.
  - right. exists ERR_NOT_ENOUGH_DATA. intros. split; [rewrite KT, take_8 by exact Hi; cbn [also]; rewrite take_1 by exact Hl; cbn [also]; rewrite C4; reflexivity|].
    intros. rewrite K, read8_u64 by exact Hi. cbn [dbind dret]. rewrite read1_u8 by exact Hl. cbn [need dbind dret].
    destruct (parts_cases m lb s3 V Hl) as [(data & r & F & Lb & ->)|E]; [|rewrite E; reflexivity].
    destruct (fits_length m data lb V F Lb) as [_ ?]; congruence.
  - right. exists ERR_NOT_ENOUGH_DATA. intros. split.
    { rewrite KT, take_8 by exact Hi. cbn [also]. rewrite take_1 by exact Hl. cbn [also]. rewrite take_n_short by exact Gt. unfold check. destruct (negb _); reflexivity. }
    intros. rewrite K, read8_u64 by exact Hi. cbn [dbind dret]. rewrite read1_u8 by exact Hl. cbn [need dbind dret].
    destruct (parts_cases m lb s3 V Hl) as [(data & r & F & Lb & ->)|E]; [|rewrite E; reflexivity].
    destruct (fits_length m data lb V F Lb) as [E _]. rewrite lenN_app in Gt. lia.
Qed.

(** ** the whole file *)
Definition ref_tail (bd : build) (hsize hm : N) (bs : list (N * bytes)) (c1 c2 : N * N * bytes) (s : bytes) : verdict (header * bytes) :=
  also (take_n (digest_len hm) s) (fun '(v, s) =>
  also (take_n (digest_len hm) s) (fun '(sa, s) =>
  also (check (negb (lenN s =? 0)) ERR_FILESIZE_INVALID) (fun _ =>
  also (take_num 1 s) (fun '(n, s) =>
  also (take_encs (N.to_nat n) s) (fun '(es, s) =>
  let h := mkHeader 1 hm bs c1 c2 v sa es in
  also (insist bd (hdr_len h =? hsize)) (fun _ => Gives (h, s))))))).
Definition ans (fs : N) (v : verdict (header * bytes)) : dres (dheader * bytes) :=
  match v with Gives (h, r) => dret (decoded fs h, r) | Rejects e => dfail e | Dies c => Crash c end.
Lemma tail2_ref bd hsz hm bs c1 c2 file s sa0 l1 l2 : no_tail hm bs c1 c2 -> lenN file < two64 ->
  file = pre (lenN file) hsz hm (lenN bs) bs ++ ser_chain l1 c1 ++ ser_chain l2 c2 ++ s ->
  tail2 bd file (lenN file) hsz (D hm None sa0 bs [] (to_ch c1) (to_ch c2) None) s = ans (lenN file) (ref_tail bd hsz hm bs c1 c2 s).
Proof.
  intros (V & Nb & B & C1 & C2) Hf Ef. unfold ref_tail.
  assert (lenN file = 39 + lenN (concat (map ser_block bs)) + lenN (snd c1) + lenN (snd c2) + lenN s) as Lf.
  { rewrite Ef at 1. unfold pre, ser_chain. rewrite !lenN_app, !u64_len. change (lenN (u8 1)) with 1.
    repeat match goal with |- context [lenN (u8 ?x)] => change (lenN (u8 x)) with 1 end. lia. }
  assert (digest_len hm < two32) as Hd by (unfold two32; destruct (digest_cases _ V) as [->|[->| ->]]; lia).
  destruct (read_n_cases (digest_len hm) (digest_len hm) s ltac:(lia)) as [(v & s1 & Lv & ->)|[E L]].
  2:{ rewrite take_n_short by exact L. unfold tail2. cbn [D d_hsize]. rewrite readBytes_N by exact Hd. rewrite E. reflexivity. }
  rewrite take_n_eq by exact Lv. cbn [also].
  destruct (read_n_cases (digest_len hm) (digest_len hm) s1 ltac:(lia)) as [(sa & s2 & Ls & ->)|[E L]].
  2:{ rewrite take_n_short by exact L. unfold tail2. cbn [D d_hsize]. rewrite readBytes_N by exact Hd. rewrite read_n_eq by lia. cbn [need dbind dret].
      fold (D hm None sa0 bs [] (to_ch c1) (to_ch c2) None). rewrite setValid_D by exact Lv. cbn [try_ dbind dret D d_hsize]. rewrite readBytes_N by exact Hd. rewrite E. reflexivity. }
  rewrite take_n_eq by exact Ls. cbn [also].
  set (h0 := mkHeader 1 hm bs c1 c2 v sa []).
  assert (header_ok h0) as H0.
  { unfold header_ok, h0. cbn [h_fmode h_hmode h_blocks h_ch1 h_ch2 h_valid h_salt h_encs]. spl; try assumption; try lia; try apply V; try constructor. vm_compute. discriminate. }
  change (D hm None sa0 bs [] (to_ch c1) (to_ch c2) None) with (bare h0 sa0).
  rewrite (read_pair bd file (lenN file) hsz h0 sa0 s2 Lv Ls V : tail2 _ _ _ _ _ (v ++ sa ++ s2) = _). change (no_encs h0) with h0.
  rewrite (set_size_obj h0 (lenN file) H0).
  assert (hdr_len h0 = 40 + lenN (concat (map ser_block bs)) + 2 * digest_len hm + lenN (snd c1) + lenN (snd c2)) as L0.
  { unfold hdr_len, h0. cbn [h_hmode h_blocks h_ch1 h_ch2 h_encs]. rewrite ser_blocks_len. change (lenN (@nil (N * N * bytes))) with 0. lia. }
  rewrite !lenN_app in Lf.
  destruct (read1_cases s2) as [(n & s3 & Hn & ->)| ->].
  2:{ change (lenN (@nil byte)) with 0 in *. cbn [N.eqb negb check also ans]. destruct (N.ltb_spec (lenN file) (hdr_len h0)); [reflexivity|lia]. }
  assert (lenN (u8 n ++ s3) = 1 + lenN s3) as L1 by (rewrite lenN_app; reflexivity).
  destruct (N.ltb_spec (lenN file) (hdr_len h0)); [lia|]. destruct (N.eqb_spec (lenN (u8 n ++ s3)) 0); [lia|]. cbn [negb check also try_ dbind dret].
  rewrite read1_u8 by exact Hn. rewrite take_1 by exact Hn. cbn [need dbind dret also].
  destruct (take_encs_cases (N.to_nat n) s3) as [(es & rest & Le & E & -> & ->)|[-> F]]; cbn [also].
  - set (h := mkHeader 1 hm bs c1 c2 v sa es). assert (lenN es = n) as Ln by (unfold lenN; lia).
    assert (header_ok h) as Hh.
    { unfold header_ok, h. cbn [h_fmode h_hmode h_blocks h_ch1 h_ch2 h_valid h_salt h_encs]. spl; try assumption; try lia; try apply V. }
    unfold obj at 1. cbn [h_encs h0 h_blocks h_hmode h_ch1 h_ch2 h_valid h_salt]. rewrite <- Le.
    rewrite (encs_fwd _ _ _ _ _ _ _ (conj B Nb) es [] rest E) by (cbn [app]; lia). cbn [dbind dret app].
    change (D hm _ _ bs es _ _ _) with (obj (Some (lenN file)) h).
    assert (lenN file = hdr_len h + lenN rest) as Lh.
    { unfold hdr_len, h in *. cbn [h_hmode h_blocks h_ch1 h_ch2 h_encs] in *. rewrite !lenN_app, (ser_encs_len es E) in Lf. rewrite ser_blocks_len in L0, Lf. change (lenN (u8 n)) with 1 in *. lia. }
    rewrite (calc_obj h (lenN file) Hh) by lia. cbn [try_ dbind dret].
    rewrite (header_length _ _ h (decoded_hinv (lenN file) h Hh Hf) (decoded_contents (lenN file) h Hh)). unfold lift. cbn [bind dbind dret].
    replace (lenN file - lenN rest) with (hdr_len h) by lia. rewrite N.eqb_refl. unfold dassert, assertC, insist.
    destruct bd; cbn [dbind dret also]; [|reflexivity]. destruct (hdr_len h =? hsz); reflexivity.
  - unfold obj at 1. cbn [h_encs h0 h_blocks].
    rewrite F; [reflexivity|split; assumption|]. change (lenN (@nil (N * N * bytes))) with 0. lia.
Qed.
Definition ref_chains (bd : build) (hsize hm : N) (bs : list (N * bytes)) (s : bytes) : verdict (header * bytes) :=
  also (take_chain bd ERR_CHAINHASH1_INVALID s) (fun '(c1, s) =>
  also (take_chain bd ERR_CHAINHASH2_INVALID s) (fun '(c2, s) => ref_tail bd hsize hm bs c1 c2 s)).
Lemma chain_step bd code k d c lb r (K : dheader -> bytes -> dres (dheader * bytes)) (J : N * N * bytes -> bytes -> verdict (header * bytes)) fs :
  chain_shape c lb -> (chain_ok c -> K (with_chain k (to_ch c) d) r = ans fs (J c r)) ->
  ('(d, s) <~ s_chain bd code (set_of k) d (ser_chain lb c ++ r) ;; K d s) = ans fs (also (take_chain bd code (ser_chain lb c ++ r)) (fun '(c, s) => J c s)).
Proof.
  intros S HK. rewrite (chain_fwd bd code k d c lb r S), (take_chain_fwd bd code c lb r S). unfold chain_res, chain_ver.
  destruct (iters_ok (snd (fst c))) eqn:Ei.
  - assert (chain_ok c) as C. { apply iters_ok_spec in Ei. destruct S as (A & _ & B & _). split; [exact A|split; [exact Ei|exact B]]. }
    destruct bd; [destruct (lenN (snd c) =? lb)|]; cbn [dbind dret also ans]; try reflexivity; apply HK; exact C.
  - destruct bd; [destruct (lenN (snd c) =? lb)|]; cbn [dbind dret also ans]; reflexivity.
Qed.
Lemma tail1_ref bd hsz hm bs file s sa0 : 1 <= hm <= 3 -> lenN bs <= 255 -> Forall block_ok bs -> lenN file < two64 ->
  file = pre (lenN file) hsz hm (lenN bs) bs ++ s ->
  tail1 bd file (lenN file) hsz (D hm None sa0 bs [] ch_default ch_default None) s = ans (lenN file) (ref_chains bd hsz hm bs s).
Proof.
  intros V Nb B Hf E. unfold tail1, ref_chains.
  destruct (take_chain_cases s) as [(c1 & l1 & s1 & S1 & ->)|(e & F)].
  2:{ destruct (F bd ERR_CHAINHASH1_INVALID) as [-> ->]. reflexivity. }
  apply (chain_step bd ERR_CHAINHASH1_INVALID true _ c1 l1 s1 (fun d s => '(d, s) <~ s_chain bd ERR_CHAINHASH2_INVALID (set_of false) d s ;; tail2 bd file (lenN file) hsz d s)
    (fun c1 s => also (take_chain bd ERR_CHAINHASH2_INVALID s) (fun '(c2, s) => ref_tail bd hsz hm bs c1 c2 s)) (lenN file) S1).
  intros C1. destruct (take_chain_cases s1) as [(c2 & l2 & s2 & S2 & ->)|(e & F)].
  2:{ destruct (F bd ERR_CHAINHASH2_INVALID) as [-> ->]. reflexivity. }
  apply (chain_step bd ERR_CHAINHASH2_INVALID false _ c2 l2 s2 (fun d s => tail2 bd file (lenN file) hsz d s) (fun c2 s => ref_tail bd hsz hm bs c1 c2 s) (lenN file) S2).
  intros C2. change (with_chain false (to_ch c2) _) with (D hm None sa0 bs [] (to_ch c1) (to_ch c2) None).
  apply (tail2_ref bd hsz hm bs c1 c2 file s2 sa0 l1 l2); [|exact Hf|exact E]. split; [exact V|]. spl; assumption.
Qed.
Lemma ans_noexcept fs v : noexcept (ans fs v) = ans fs v.
Proof. destruct v as [[h r]|e|c]; reflexivity. Qed.
Theorem reader_refines bd rnd file : (forall k, lenN (rnd k) = k) -> lenN file < two64 ->
  decode_stream bd rnd file = ans (lenN file) (read_file bd file).
Proof.
  intros Hr Hf. unfold read_file.
  destruct (read8_cases file) as [(fs & s1 & Hfs & E1)|[E L]].
  2:{ rewrite take_8_none by exact L. unfold decode_stream. rewrite E. reflexivity. }
  assert (take_num 8 file = Gives (fs, s1)) as -> by (rewrite E1; apply take_8; exact Hfs). cbn [also].
  destruct (read8_cases s1) as [(hsz & s2 & Hhs & E2)|[E L]].
  2:{ rewrite take_8_none by exact L. unfold decode_stream. rewrite E1, read8_u64 by exact Hfs. cbn [dbind dret]. rewrite E. reflexivity. }
  subst s1. rewrite take_8 by exact Hhs. cbn [also].
  destruct (N.eqb_spec fs (lenN file)) as [Efs|Efs].
  2:{ unfold decode_stream. rewrite E1 at 1. rewrite read8_u64 by exact Hfs. cbn [dbind dret].
      rewrite read8_u64 by exact Hhs. cbn [dbind dret]. destruct (N.eqb_spec (lenN file) fs); [congruence|reflexivity]. }
  cbn [check also]. subst fs.
  destruct (N.leb_spec hsz (lenN file)) as [Hle|Hle].
  2:{ unfold decode_stream. rewrite E1 at 1. rewrite read8_u64 by exact Hfs. cbn [dbind dret].
      rewrite read8_u64 by exact Hhs. cbn [dbind dret]. rewrite N.eqb_refl. cbn [negb]. destruct (N.ltb_spec (lenN file) hsz); [reflexivity|lia]. }
  cbn [check also].
  assert (decode_stream bd rnd file = noexcept (
      '(fmode, s) <~ need ERR_NOT_ENOUGH_DATA (read1 s2) ;;
      '(hmode, s) <~ need ERR_NOT_ENOUGH_DATA (read1 s) ;;
      d <~ try_ (only_invalid ERR_HASHMODE_INVALID) (newDataHeader rnd hmode) ;;
      d <~ try_ (only_invalid ERR_FILEMODE_INVALID) (d_setFileDataMode fmode d) ;;
      '(count, s) <~ need ERR_NOT_ENOUGH_DATA (read1 s) ;;
      tail0 bd file (lenN file) hsz count d s)) as K.
  { transitivity (noexcept ('(file_size, s) <~ read8 (u64 (lenN file) ++ u64 hsz ++ s2) ;;
    '(header_size, s) <~ read8 s ;;
    if negb (lenN file =? file_size) then dfail ERR_FILESIZE_INVALID
    else if file_size <? header_size then dfail ERR_HEADERSIZE_FILESIZE_MISMATCH
    else
      '(fmode, s) <~ need ERR_NOT_ENOUGH_DATA (read1 s) ;;
      '(hmode, s) <~ need ERR_NOT_ENOUGH_DATA (read1 s) ;;
      d <~ try_ (only_invalid ERR_HASHMODE_INVALID) (newDataHeader rnd hmode) ;;
      d <~ try_ (only_invalid ERR_FILEMODE_INVALID) (d_setFileDataMode fmode d) ;;
      '(count, s) <~ need ERR_NOT_ENOUGH_DATA (read1 s) ;;
      tail0 bd file file_size header_size count d s)); [rewrite <- E1; reflexivity|].
    rewrite read8_u64 by exact Hfs. cbn [dbind dret]. rewrite read8_u64 by exact Hhs. cbn [dbind dret]. rewrite N.eqb_refl. cbn [negb].
    destruct (N.ltb_spec (lenN file) hsz); [lia|]. reflexivity. }
  rewrite K. clear K.
  destruct (read1_cases s2) as [(fm & s3 & Hfm & ->)| ->]; [|reflexivity].
  rewrite take_1 by exact Hfm. rewrite read1_u8 by exact Hfm. cbn [need dbind dret also].
  destruct (read1_cases s3) as [(hm & s4 & Hhm & ->)| ->]; [|reflexivity].
  rewrite take_1 by exact Hhm. rewrite read1_u8 by exact Hhm. cbn [need dbind dret also].
  destruct (hash_mode_valid hm) eqn:V.
  2:{ assert ((1 <=? hm) && (hm <=? 3) = false) as ->.
      { apply not_true_iff_false. rewrite andb_true_iff, !N.leb_le. intros A. apply hash_mode_valid_spec in A. congruence. }
      unfold newDataHeader, p_setHashMode. rewrite V. reflexivity. }
  apply hash_mode_valid_spec in V. assert ((1 <=? hm) && (hm <=? 3) = true) as -> by (rewrite andb_true_iff, !N.leb_le; exact V). cbn [check also].
  rewrite (new_start rnd hm Hr V). cbn [try_ dbind dret].
  destruct (N.eqb_spec fm 1) as [->|Hf1].
  2:{ unfold d_setFileDataMode, p_setFileDataMode. destruct (file_mode_valid fm) eqn:F; [apply file_mode_valid_spec in F; congruence|reflexivity]. }
  cbn [check also].
  change (d_setFileDataMode 1 (start rnd hm)) with (Ret (D hm None (salt0 rnd hm) [] [] ch_default ch_default None)). cbn [try_ dbind dret].
  destruct (read1_cases s4) as [(n & s5 & Hn & ->)| ->]; [|reflexivity].
  rewrite take_1 by exact Hn. rewrite read1_u8 by exact Hn. cbn [need dbind dret also]. unfold tail0.
  destruct (take_blocks_cases (N.to_nat n) s5) as [(bs & r & Lb & G & -> & ->)|[[-> F]|[-> F]]]; cbn [also].
  - assert (lenN bs = n) as Ln by (unfold lenN; lia). rewrite <- Lb.
    rewrite (blocks_fwd hm None (salt0 rnd hm) _ _ None bs [] r G) by (cbn [app]; lia). cbn [dbind dret app].
    rewrite (tail1_ref bd hsz hm bs file r (salt0 rnd hm) V); [|lia|apply good_ok; exact G|exact Hf|].
    + apply ans_noexcept.
    + rewrite Ln. unfold pre. rewrite <- !app_assoc. exact E1.
  - rewrite F; [reflexivity|constructor|]. change (lenN (@nil (N * bytes))) with 0. lia.
  - rewrite F; [reflexivity|constructor|]. change (lenN (@nil (N * bytes))) with 0. lia.
Qed.
