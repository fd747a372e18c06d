(** The decoder of a buffer is the reference reader. *)
From Coq Require Import Strings.Byte.
From Verif Require Import Base BaseFacts BytesModel BytesSpec BytesFacts BytesFacts2 CipherModel CipherFacts PwModel PwFacts
  MiscModel MiscFacts ChModel ChSpec ChFacts ChFacts2 HeaderModel HeaderSpec HeaderFacts HeaderFacts2 HeaderFacts3 HeaderFacts4 HeaderFacts5
  HeaderFacts6 HeaderFacts7 HeaderFacts9 RefSpec RefFacts MemSpec.

(** ** exceptions that the outer handler catches *)
Definition soft {A} (m : dres A) : dres A :=
  match m with Throw PointerThrown => Throw PointerThrown | Throw _ => dfail ERR | o => o end.
Definition ver {A} (v : verdict A) : dres A := match v with Gives x => dret x | Rejects e => dfail e | Dies c => Crash c end.
Lemma soft_bind {A B} (m : dres A) (k : A -> dres B) : soft (dbind m k) = dbind (soft m) (fun a => soft (k a)).
Proof. destruct m as [[e|a]|[]|c|]; reflexivity. Qed.
Lemma ver_also {A B} (v : verdict A) (k : A -> verdict B) : ver (also v k) = dbind (ver v) (fun a => ver (k a)).
Proof. destruct v; reflexivity. Qed.
Lemma ver_bind {A B C} (m : dres A) (k : A -> dres B) (v : verdict C) (g : C -> A) (j : C -> verdict B) :
  m = ver (also v (fun x => Gives (g x))) -> (forall x, v = Gives x -> k (g x) = ver (j x)) -> dbind m k = ver (also v j).
Proof. intros -> K. destruct v; cbn [also ver dbind dret dfail]; try reflexivity. apply K. reflexivity. Qed.

(** ** reading *)
Lemma here_cases f i n :
  (exists x, lenN x = n /\ copySubBytes i (i + n) f = Ret (mkBytes x n) /\ forall e, here e (bdata f) i n = Gives x) \/
  (copySubBytes i (i + n) f = Throw LengthError /\ forall e, here e (bdata f) i n = Rejects e).
Proof.
  unfold here, copySubBytes, getLen. destruct (N.ltb_spec (i + n) i); [lia|]. destruct (N.ltb_spec (lenN (bdata f)) (i + n)).
  - right. split; [reflexivity|]. intros e. destruct (N.leb_spec (i + n) (lenN (bdata f))); [lia|reflexivity].
  - left. exists (takeN n (dropN i (bdata f))). spl.
    + rewrite lenN_takeN, lenN_dropN. lia.
    + unfold sliceN. replace (i + n - i) with n by lia. reflexivity.
    + intros e. destruct (N.leb_spec (i + n) (lenN (bdata f))); [reflexivity|lia].
Qed.
Lemma at1_cases f i :
  (exists v, v < 256 /\ at1 f i = Ret v /\ forall e, num e (bdata f) i 1 = Gives v) \/
  (at1 f i = Throw LengthError /\ forall e, num e (bdata f) i 1 = Rejects e).
Proof.
  unfold at1, num. destruct (here_cases f i 1) as [(x & L & -> & E)|[-> E]].
  - left. destruct x as [|b [|c x]]; try (vm_compute in L; discriminate); [|rewrite !lenN_cons in L; lia].
    exists (b2n b). spl; [apply b2n_lt|reflexivity|]. intros e. rewrite E. cbn. reflexivity.
  - right. split; [reflexivity|]. intros e. rewrite E. reflexivity.
Qed.
Lemma at8_cases f i :
  (exists v, v < two64 /\ at8 f i = Ret v /\ forall e, num e (bdata f) i 8 = Gives v) \/
  (at8 f i = Throw LengthError /\ forall e, num e (bdata f) i 8 = Rejects e).
Proof.
  unfold at8, num. destruct (here_cases f i 8) as [(x & L & -> & E)|[-> E]].
  - left. destruct (u64_of_bytes x L) as (w & Hw & ->). exists w. spl; [exact Hw| |].
    + cbn [bind]. rewrite toLong_val by (unfold getLen; cbn [bdata]; rewrite u64_len; lia). cbn [bdata]. rewrite u64_val by exact Hw. reflexivity.
    + intros e. rewrite E. cbn [also]. rewrite u64_val by exact Hw. reflexivity.
  - right. split; [reflexivity|]. intros e. rewrite E. reflexivity.
Qed.

(** ** plain blocks *)
Lemma blocks_ref f hm v sa c1 c2 fs n : forall bs1 ix, Forall good bs1 -> lenN bs1 + N.of_nat n <= 255 ->
  soft (m_blocks n f (D hm v sa bs1 [] c1 c2 fs) ix) =
  ver (also (get_blocks n (bdata f) ix) (fun '(bs, i) => Gives (D hm v sa (bs1 ++ bs) [] c1 c2 fs, i))).
Proof.
  induction n as [|n IH]; intros bs1 ix G L; [cbn [m_blocks get_blocks also ver]; rewrite app_nil_r; reflexivity|].
  cbn [m_blocks get_blocks].
  destruct (at1_cases f ix) as [(ty & T1 & -> & ->)|[-> ->]]; [|reflexivity]. unfold lift. cbn [bind dbind dret also]. change (w16 (ix + 1)) with (on ix 1).
  destruct (at1_cases f (on ix 1)) as [(l & T2 & -> & ->)|[-> ->]]; [|reflexivity]. cbn [bind dbind dret also]. change (w16 (on ix 1 + 1)) with (on (on ix 1) 1).
  destruct (here_cases f (on (on ix 1) 1) l) as [(x & Lx & -> & ->)|[-> ->]]; [|reflexivity]. cbn [bind dbind dret also].
  change (w16 (on (on ix 1) 1 + l)) with (on (on (on ix 1) 1) l).
  destruct (N.eqb_spec l 0) as [->|Hl].
  { apply lenN_0 in Lx. subst x. reflexivity. }
  assert (good (ty, x)) as Gb.
  { split; [split; cbn [fst snd]; lia|]. cbn [snd]. intros ->. change (lenN (@nil byte)) with 0 in Lx. lia. }
  pose proof (newBlock_good ty x Gb) as Nb. rewrite Lx in Nb. rewrite Nb. cbn [bind negb check also].
  rewrite (addBlock_D _ _ _ bs1 [] _ _ _ (ty, x) Gb (good_ok _ G)); [|lia|vm_compute; discriminate]. cbn [bind dbind dret].
  rewrite IH; [|apply Forall_snoc; assumption|rewrite lenN_app; change (lenN [(ty, x)]) with 1; lia].
  destruct (get_blocks n (bdata f) _) as [[bs i]|e|c]; cbn [also ver]; [|reflexivity|reflexivity]. rewrite <- app_assoc. reflexivity.
Qed.
Lemma blocks_good n : forall f i bs j, get_blocks n f i = Gives (bs, j) -> Forall good bs /\ length bs = n.
Proof.
  induction n as [|n IH]; intros f i bs j E; [cbn [get_blocks] in E; injection E as <- _; split; [constructor|reflexivity]|].
  cbn [get_blocks] in E. destruct (at1_cases (mkBytes f 0) i) as [(ty & T1 & _ & F)|[_ F]]; cbn [bdata] in F; rewrite F in E; cbn [also] in E; [clear F|discriminate].
  destruct (at1_cases (mkBytes f 0) (on i 1)) as [(l & T2 & _ & F)|[_ F]]; cbn [bdata] in F; rewrite F in E; cbn [also] in E; [clear F|discriminate].
  destruct (here_cases (mkBytes f 0) (on (on i 1) 1) l) as [(x & Lx & _ & F)|[_ F]]; cbn [bdata] in F; rewrite F in E; cbn [also] in E; [clear F|discriminate].
  destruct (N.eqb_spec l 0) as [->|Hl]; cbn [negb check also] in E; [discriminate|].
  destruct (get_blocks n f _) as [[bs' j']|e|c] eqn:E'; cbn [also] in E; try discriminate. injection E as <- <-.
  apply IH in E'. destruct E' as [G <-]. split; [|reflexivity]. constructor; [|exact G].
  split; [split; cbn [fst snd]; lia|]. cbn [snd]. intros ->. change (lenN (@nil byte)) with 0 in Lx. lia.
Qed.

(** ** chain hashes *)
Lemma add_short bd mode blk k b sz st nm : nth_error (nameLens mode) (N.to_nat k) = Some (nm, 0) -> lenN blk <= 255 ->
  255 < lenN blk + getLen b -> cd_addBytes bd b (mkChd mode (mkBytes blk 255) sz st k) = Throw LengthError.
Proof.
  intros E L1 L2. unfold cd_addBytes, cd_complete. cbn [cd_ind cd_mode cd_block cd_size cd_star].
  destruct (N.eqb_spec k (lenN (nameLens mode))) as [->|_].
  { exfalso. unfold lenN in E. rewrite Nnat.Nat2N.id in E. assert (nth_error (nameLens mode) (length (nameLens mode)) = None) by (apply nth_error_None; lia). congruence. }
  rewrite E. rewrite andb_false_r. unfold addcopyToBytes. cbn [bmax bdata]. unfold getLen at 2. cbn [bdata].
  destruct (N.ltb_spec 255 (getLen b + lenN blk)); [|lia]. unfold assertC, cd_len. cbn [cd_block]. unfold getLen at 1. cbn [bdata].
  assert (w8 (lenN blk) = lenN blk) as -> by (unfold w8; apply N.mod_small; lia). destruct bd; [|reflexivity]. destruct (N.ltb_spec 255 (lenN blk + getLen b)); [reflexivity|lia].
Qed.
(** a free part announced shorter than the fixed ones *)
Lemma end_ver bd mode f blk k sz st nm ix lb : nth_error (nameLens mode) (N.to_nat k) = Some (nm, 0) -> lenN blk <= 255 ->
  lb < lenN blk -> ix < 65536 ->
  try_ m_part_handler (b <- copySubBytes ix (Z.to_N ((Z.of_N ix + (Z.of_N lb - Z.of_N (lenN blk))) mod 18446744073709551616)) f ;;
    cd_addBytes bd b (mkChd mode (mkBytes blk 255) sz st k)) =
  dfail (if ix + lb <? lenN blk then ERR_CHAINHASH_DATABLOCK_OUTOFRANGE else ERR_CHAINHASH_DATAPART_INVALID).
Proof.
  intros E Lk A C. destruct (N.ltb_spec (ix + lb) (lenN blk)) as [L|L].
  - replace ((Z.of_N ix + (Z.of_N lb - Z.of_N (lenN blk))) mod 18446744073709551616)%Z with (Z.of_N ix + (Z.of_N lb - Z.of_N (lenN blk)) + 18446744073709551616)%Z
      by (apply Z.mod_unique with (-1)%Z; lia).
    set (e := Z.to_N _). assert (18446744073709551616 - 256 <= e) by (unfold e; lia). clearbody e.
    unfold copySubBytes. destruct (N.ltb_spec e ix); [lia|]. destruct (N.ltb_spec (getLen f) e); [reflexivity|]. cbn [bind].
    rewrite (add_short bd mode blk k _ sz st nm E Lk); [reflexivity|]. unfold getLen in *. cbn [bdata]. rewrite lenN_sliceN by lia. lia.
  - rewrite Z.mod_small by lia. unfold copySubBytes. destruct (N.ltb_spec (Z.to_N (Z.of_N ix + (Z.of_N lb - Z.of_N (lenN blk)))) ix); [reflexivity|lia].
Qed.
Definition parts_ans (v : verdict (bytes * N)) (m : N) : dres (N * chd * N) :=
  match v with Gives (x, i) => dret (lenN x, to_chd m x, i) | Rejects e => dfail e | Dies c => Crash c end.
Lemma on_lt i n : on i n < 65536.
Proof. apply N.mod_lt. lia. Qed.
Lemma parts_ref bd m f lb ix : 1 <= m <= 5 -> lb < 256 -> ix < 65536 ->
  m_parts bd (nameLens m) f lb 0 (newChd m) ix = parts_ans (get_data m lb (bdata f) ix) m.
Proof.
  intros Hm L Hix. pattern m. apply modes5; [exact Hm|..]; unfold get_data; cbn [eights get_eights also nameLens m_parts N.eqb orb negb Pos.eqb].
  - reflexivity.
  - change (lenN (@nil byte)) with 0. destruct (N.ltb_spec lb 0); [lia|]. rewrite N.sub_0_r. rewrite (end_ok ix lb 0) by lia. rewrite N.sub_0_r.
    destruct (here_cases f ix lb) as [(x & Lx & -> & ->)|[-> ->]]; [|reflexivity]. cbn [bind also parts_ans].
    change (newChd 2) with (mkChd 2 (mkBytes [] 255) (datablockSize 2) (star_of 2) 0).
    rewrite (addB' bd 2 [] 0 x _ _ _ _ _ eq_refl); [|auto|change (lenN (@nil byte)) with 0; lia|lia]. cbn [try_ dbind dret app]. rewrite Lx. reflexivity.
  - change (newChd 3) with (mkChd 3 (mkBytes [] 255) (datablockSize 3) (star_of 3) 0).
    destruct (here_cases f ix 8) as [(x & Lx & -> & ->)|[-> ->]]; [|reflexivity]. cbn [bind also parts_ans].
    rewrite (addB' bd 3 [] 0 x _ _ _ _ _ eq_refl); [|auto|change (lenN (@nil byte)) with 0; lia|lia]. cbn [try_ dbind dret app]. rewrite app_nil_r, Lx. reflexivity.
  - change (newChd 4) with (mkChd 4 (mkBytes [] 255) (datablockSize 4) (star_of 4) 0).
    destruct (here_cases f ix 8) as [(x & Lx & -> & ->)|[-> ->]]; [|reflexivity]. cbn [bind also].
    rewrite (addB' bd 4 [] 0 x _ _ _ _ _ eq_refl); [|auto|change (lenN (@nil byte)) with 0; lia|lia]. cbn [try_ dbind dret app]. rewrite app_nil_r, Lx.
    change (w16 (ix + 8)) with (on ix 8). change (0 + 8) with 8. change (0 + 1) with 1. pose proof (on_lt ix 8) as Ho.
    destruct (N.ltb_spec lb 8) as [Lt|Ge].
    + pose proof (end_ver bd 4 f x 1 (datablockSize 4) (star_of 4) _ (on ix 8) lb eq_refl) as E. rewrite Lx in E. rewrite E by lia. reflexivity.
    + rewrite (end_ok (on ix 8) lb 8) by lia. destruct (here_cases f (on ix 8) (lb - 8)) as [(y & Ly & -> & ->)|[-> ->]]; [|reflexivity]. cbn [bind also parts_ans].
      rewrite (addB' bd 4 x 1 y _ _ _ _ _ eq_refl); [|auto|lia|lia]. cbn [try_ dbind dret app]. rewrite lenN_app, Lx, Ly. replace (8 + (lb - 8)) with lb by lia. reflexivity.
  - change (newChd 5) with (mkChd 5 (mkBytes [] 255) (datablockSize 5) (star_of 5) 0).
    destruct (here_cases f ix 8) as [(a & La & -> & ->)|[-> ->]]; [|reflexivity]. cbn [bind also].
    rewrite (addB' bd 5 [] 0 a _ _ _ _ _ eq_refl); [|auto|change (lenN (@nil byte)) with 0; lia|lia]. cbn [try_ dbind dret app]. change (w16 (ix + 8)) with (on ix 8).
    destruct (here_cases f (on ix 8) 8) as [(b & Lb & -> & ->)|[-> ->]]; [|reflexivity]. cbn [bind also].
    rewrite (addB' bd 5 a (0 + 1) b _ _ _ _ _ eq_refl); [|auto|lia|lia]. cbn [try_ dbind dret app]. change (w16 (on ix 8 + 8)) with (on (on ix 8) 8).
    destruct (here_cases f (on (on ix 8) 8) 8) as [(c & Lc & -> & ->)|[-> ->]]; [|reflexivity]. cbn [bind also].
    rewrite (addB' bd 5 (a ++ b) (0 + 1 + 1) c _ _ _ _ _ eq_refl); [|auto|rewrite lenN_app; lia|lia]. cbn [try_ dbind dret app]. change (w16 (on (on ix 8) 8 + 8)) with (on (on (on ix 8) 8) 8).
    destruct (here_cases f (on (on (on ix 8) 8) 8) 8) as [(e & Le & -> & ->)|[-> ->]]; [|reflexivity]. cbn [bind also].
    rewrite (addB' bd 5 ((a ++ b) ++ c) (0 + 1 + 1 + 1) e _ _ _ _ _ eq_refl); [|auto|rewrite !lenN_app; lia|lia]. cbn [try_ dbind dret app parts_ans].
    rewrite app_nil_r, !lenN_app, La, Lb, Lc, Le, <- !app_assoc. reflexivity.
Qed.
Lemma eights_len k : forall f i x j, i < 65536 -> get_eights k f i = Gives (x, j) -> lenN x = 8 * N.of_nat k /\ j < 65536.
Proof.
  induction k as [|k IH]; intros f i x j Hi E; [cbn [get_eights] in E; injection E as <- <-; split; [reflexivity|exact Hi]|].
  cbn [get_eights] in E. destruct (here_cases (mkBytes f 0) i 8) as [(y & Ly & _ & F)|[_ F]]; cbn [bdata] in F; rewrite F in E; cbn [also] in E; [clear F|discriminate].
  destruct (get_eights k f _) as [[z j']|e|c] eqn:E'; cbn [also] in E; try discriminate. injection E as <- <-.
  apply IH in E'; [|apply on_lt]. rewrite lenN_app. split; [lia|apply E'].
Qed.
Lemma data_ok m lb f i x j : 1 <= m <= 5 -> lb < 256 -> i < 65536 -> get_data m lb f i = Gives (x, j) -> data_fits m x /\ j < 65536.
Proof.
  intros Hm L Hi. unfold get_data. destruct (get_eights (eights m) f i) as [[y k]|e|c] eqn:E; cbn [also]; try discriminate.
  apply eights_len in E; [|exact Hi]. destruct E as [Ly Hk]. revert Ly. pattern m. apply modes5; [exact Hm|..]; cbn [eights N.eqb Pos.eqb orb data_fits]; intros Ly.
  - intros [= <- <-]. split; [lia|exact Hk].
  - destruct (N.ltb_spec lb (lenN y)); [discriminate|].
    destruct (here_cases (mkBytes f 0) k (lb - lenN y)) as [(z & Lz & _ & F)|[_ F]]; cbn [bdata] in F; rewrite F; cbn [also]; [clear F|discriminate].
    intros [= <- <-]. rewrite lenN_app. split; [lia|exact Hk].
  - intros [= <- <-]. split; [lia|exact Hk].
  - destruct (N.ltb_spec lb (lenN y)); [discriminate|].
    destruct (here_cases (mkBytes f 0) k (lb - lenN y)) as [(z & Lz & _ & F)|[_ F]]; cbn [bdata] in F; rewrite F; cbn [also]; [clear F|discriminate].
    intros [= <- <-]. rewrite lenN_app. split; [lia|exact Hk].
  - intros [= <- <-]. split; [lia|exact Hk].
Qed.
Lemma chain_ref bd code k f d ix :
  soft (m_chain bd code (set_of k) f d ix) = ver (also (get_chain bd code (bdata f) ix) (fun '(c, i) => Gives (with_chain k (to_ch c) d, i))).
Proof.
  unfold m_chain, get_chain.
  destruct (at1_cases f ix) as [(m & T1 & -> & ->)|[-> ->]]; [|reflexivity]. cbn [bind also]. unfold newFormat. destruct (ch_mode_valid m) eqn:V.
  2:{ assert ((1 <=? m) && (m <=? 5) = false) as ->; [|reflexivity].
      apply not_true_iff_false. rewrite andb_true_iff, !N.leb_le. intros A. apply ch_mode_valid_spec in A. congruence. }
  apply ch_mode_valid_spec in V. assert ((1 <=? m) && (m <=? 5) = true) as -> by (rewrite andb_true_iff, !N.leb_le; exact V).
  cbn [try_ dbind dret check also]. change (w16 (ix + 1)) with (on ix 1).
  destruct (at8_cases f (on ix 1)) as [(it & Hi & -> & ->)|[-> ->]]; [|reflexivity]. unfold lift. cbn [bind dbind dret also]. change (w16 (on ix 1 + 8)) with (on (on ix 1) 8).
  destruct (at1_cases f (on (on ix 1) 8)) as [(lb & Hl & -> & ->)|[-> ->]]; [|reflexivity]. cbn [bind dbind dret also]. change (w16 (on (on ix 1) 8 + 1)) with (on (on (on ix 1) 8) 1).
  pose proof (on_lt (on (on ix 1) 8) 1) as Ho. set (j := on (on (on ix 1) 8) 1) in *. clearbody j.
  rewrite (parts_ref bd m f lb j V Hl Ho). destruct (get_data m lb (bdata f) j) as [[x i]|e|c] eqn:E; cbn [parts_ans also ver dbind dret dfail]; try reflexivity.
  destruct (data_ok m lb _ _ _ _ V Hl Ho E) as [F _]. pose proof (data_fits_len _ _ F) as Ld.
  assert (cd_len (to_chd m x) = lenN x) as ->. { unfold cd_len, getLen, to_chd. cbn [cd_block bdata]. apply N.mod_small. lia. }
  rewrite newChain_eq by assumption. cbn [bind]. rewrite iters_ok_eq.
  assert (try_ (invalid_or code ERR) (set_of k (mkCH (Some m) (Some (to_chd m x)) it (iters_ok it)) d) =
    if iters_ok it then dret (with_chain k (to_ch (m, it, x)) d) else dfail code) as ->.
  { destruct (iters_ok it) eqn:Ei.
    - change (mkCH (Some m) (Some (to_chd m x)) it true) with (to_ch (m, it, x)). rewrite set_of_ok; [reflexivity| |reflexivity].
      apply to_ch_inv. apply iters_ok_spec in Ei. split; [|split]; cbn [fst snd]; assumption.
    - rewrite set_of_bad by reflexivity. reflexivity. }
  unfold dassert, assertC, insist, check. destruct bd; [destruct (lenN x =? lb)|]; cbn [dbind dret also]; try reflexivity; destruct (iters_ok it); reflexivity.
Qed.
Lemma chain_good bd code f i c j : get_chain bd code f i = Gives (c, j) -> chain_ok c.
Proof.
  unfold get_chain. destruct (at1_cases (mkBytes f 0) i) as [(m & T1 & _ & F)|[_ F]]; cbn [bdata] in F; rewrite F; cbn [also]; [clear F|discriminate].
  destruct ((1 <=? m) && (m <=? 5)) eqn:V; cbn [check also]; [|discriminate]. rewrite andb_true_iff, !N.leb_le in V.
  destruct (at8_cases (mkBytes f 0) (on i 1)) as [(it & Hi & _ & F)|[_ F]]; cbn [bdata] in F; rewrite F; cbn [also]; [clear F|discriminate].
  destruct (at1_cases (mkBytes f 0) (on (on i 1) 8)) as [(lb & Hl & _ & F)|[_ F]]; cbn [bdata] in F; rewrite F; cbn [also]; [clear F|discriminate].
  pose proof (on_lt (on (on i 1) 8) 1) as Ho. destruct (get_data m lb f _) as [[x i']|e|cc] eqn:E; cbn [also]; try discriminate.
  destruct (data_ok m lb _ _ _ _ V Hl Ho E) as [F _]. unfold insist. destruct bd; [destruct (lenN x =? lb)|]; cbn [also]; try discriminate;
    (destruct ((1 <=? it) && (it <=? 1000000000)) eqn:Ei; cbn [check also]; [|discriminate]; intros [= <- <-]; rewrite andb_true_iff, !N.leb_le in Ei;
     split; [|split]; cbn [fst snd]; assumption).
Qed.

(** ** encrypted blocks *)
Lemma encs_ref f hm v sa bs c1 c2 fs (Hb : Forall block_ok bs /\ lenN bs <= 255) n : forall es1 ix, lenN es1 + N.of_nat n <= 255 ->
  soft (m_encs n f (D hm v sa bs es1 c1 c2 fs) ix) =
  ver (also (get_encs n (bdata f) ix) (fun '(es, i) => Gives (D hm v sa bs (es1 ++ es) c1 c2 fs, i))).
Proof.
  induction n as [|n IH]; intros es1 ix L; [cbn [m_encs get_encs also ver]; rewrite app_nil_r; reflexivity|].
  cbn [m_encs get_encs].
  destruct (at1_cases f ix) as [(ty & T1 & -> & ->)|[-> ->]]; [|reflexivity]. unfold lift. cbn [bind dbind dret also]. change (w16 (ix + 1)) with (on ix 1).
  destruct (at1_cases f (on ix 1)) as [(l & T2 & -> & ->)|[-> ->]]; [|reflexivity]. cbn [bind dbind dret also]. change (w16 (on ix 1 + 1)) with (on (on ix 1) 1).
  destruct (here_cases f (on (on ix 1) 1) 255) as [(x & Lx & -> & ->)|[-> ->]]; [|reflexivity]. cbn [bind dbind dret also].
  change (w16 (on (on ix 1) 1 + 255)) with (on (on (on ix 1) 1) 255).
  assert (enc_ok (ty, l, x)) as Ge by (split; [|split]; cbn [fst snd]; assumption).
  rewrite createEnc_eq by exact Lx. cbn [bind]. rewrite (addEnc_D hm v sa bs c1 c2 fs Hb es1 (ty, l, x) Ge) by lia. cbn [bind dbind dret].
  rewrite IH; [|rewrite lenN_app; change (lenN [(ty, l, x)]) with 1; lia].
  destruct (get_encs n (bdata f) _) as [[es i]|e|c]; cbn [also ver]; [|reflexivity|reflexivity]. rewrite <- app_assoc. reflexivity.
Qed.
Lemma encs_good n : forall f i es j, get_encs n f i = Gives (es, j) -> Forall enc_ok es /\ length es = n.
Proof.
  induction n as [|n IH]; intros f i es j E; [cbn [get_encs] in E; injection E as <- _; split; [constructor|reflexivity]|].
  cbn [get_encs] in E. destruct (at1_cases (mkBytes f 0) i) as [(ty & T1 & _ & F)|[_ F]]; cbn [bdata] in F; rewrite F in E; cbn [also] in E; [clear F|discriminate].
  destruct (at1_cases (mkBytes f 0) (on i 1)) as [(l & T2 & _ & F)|[_ F]]; cbn [bdata] in F; rewrite F in E; cbn [also] in E; [clear F|discriminate].
  destruct (here_cases (mkBytes f 0) (on (on i 1) 1) 255) as [(x & Lx & _ & F)|[_ F]]; cbn [bdata] in F; rewrite F in E; cbn [also] in E; [clear F|discriminate].
  destruct (get_encs n f _) as [[es' j']|e|c] eqn:E'; cbn [also] in E; try discriminate. injection E as <- <-.
  apply IH in E'. destruct E' as [G <-]. split; [|reflexivity]. constructor; [|exact G]. split; [|split]; cbn [fst snd]; assumption.
Qed.

(** ** the whole buffer *)
Definition buf_tail (bd : build) (f : bytes) (fs hsz hm : N) (bs : list (N * bytes)) (c1 c2 : N * N * bytes) (i : N) : verdict (N * header) :=
  also (here ERR f i (digest_len hm)) (fun v => let i := on i (digest_len hm) in
  also (here ERR f i (digest_len hm)) (fun sa => let i := on i (digest_len hm) in
  also (num ERR f i 1) (fun n => let i := on i 1 in
  also (get_encs (N.to_nat n) f i) (fun '(es, i) =>
  let h := mkHeader 1 hm bs c1 c2 v sa es in
  also (check (hdr_len h <=? fs) ERR_FILESIZE_INVALID) (fun _ =>
  also (insist bd (i =? hsz)) (fun _ =>
  also (insist bd (hdr_len h =? hsz)) (fun _ => Gives (fs, h)))))))).
Definition buf_ans (v : verdict (N * header)) : dres dheader := ver (also v (fun '(fs, h) => Gives (decoded fs h))).
Lemma tail_ref bd f fs hsz hm bs c1 c2 sa0 ix : no_tail hm bs c1 c2 -> fs < two64 ->
  soft (mem_tail bd f fs hsz (D hm None sa0 bs [] (to_ch c1) (to_ch c2) None) ix) = buf_ans (buf_tail bd (bdata f) fs hsz hm bs c1 c2 ix).
Proof.
  intros (V & Nb & B & C1 & C2) Hf. unfold mem_tail, buf_tail.
  change (d_hsize (D hm None sa0 bs [] (to_ch c1) (to_ch c2) None)) with (digest_len hm).
  destruct (here_cases f ix (digest_len hm)) as [(v & Lv & -> & ->)|[-> ->]]; [|reflexivity]. cbn [bind also].
  rewrite setValid_D by exact Lv. cbn [try_ dbind dret]. cbn zeta. cbn [D d_hsize]. change (w16 (ix + digest_len hm)) with (on ix (digest_len hm)).
  fold (D hm (Some (copyBytes (mkBytes v (digest_len hm)))) sa0 bs [] (to_ch c1) (to_ch c2) None).
  destruct (here_cases f (on ix (digest_len hm)) (digest_len hm)) as [(sa & Ls & -> & ->)|[-> ->]]; [|reflexivity]. cbn [bind also].
  rewrite setSalt_D by exact Ls. cbn [try_ dbind dret]. cbn [D d_hsize]. change (w16 (on ix (digest_len hm) + digest_len hm)) with (on (on ix (digest_len hm)) (digest_len hm)).
  destruct (at1_cases f (on (on ix (digest_len hm)) (digest_len hm))) as [(n & Hn & -> & ->)|[-> ->]]; [|reflexivity]. unfold lift at 1. cbn [bind dbind dret also].
  change (w16 (on (on ix (digest_len hm)) (digest_len hm) + 1)) with (on (on (on ix (digest_len hm)) (digest_len hm)) 1). set (j := on _ 1). clearbody j.
  match goal with |- context [m_encs _ _ ?d _] => change d with (D hm (Some (mkBytes v (digest_len hm))) (mkBytes sa (digest_len hm)) bs [] (to_ch c1) (to_ch c2) None) end.
  rewrite soft_bind, (encs_ref f _ _ _ _ _ _ _ (conj B Nb) (N.to_nat n) [] j) by (change (lenN (@nil (N * N * bytes))) with 0; lia).
  destruct (get_encs (N.to_nat n) (bdata f) j) as [[es i]|e|c] eqn:E; cbn [also ver dbind dret dfail]; try reflexivity. cbn [app].
  apply encs_good in E. destruct E as [Ge Le]. set (h := mkHeader 1 hm bs c1 c2 v sa es). assert (lenN es = n) as Ln by (unfold lenN; lia).
  assert (header_ok h) as Hh.
  { unfold header_ok, h. cbn [h_fmode h_hmode h_blocks h_ch1 h_ch2 h_valid h_salt h_encs]. spl; try assumption; try lia; try apply V. }
  match goal with |- context [setFileSize fs ?d] => change d with (obj None h) end. rewrite (set_size_obj h fs Hh).
  destruct (N.ltb_spec fs (hdr_len h)) as [Lt|Ge']; destruct (N.leb_spec (hdr_len h) fs) as [Le'|Gt']; try lia; [reflexivity|]. cbn [try_ dbind dret check also].
  rewrite (calc_obj h fs Hh Ge' Hf). cbn [try_ dbind dret].
  rewrite (header_length _ _ h (decoded_hinv fs h Hh Hf) (decoded_contents fs h Hh)). unfold lift. cbn [bind dbind dret].
  unfold dassert, assertC, insist. destruct bd; cbn [dbind dret also]; [|reflexivity].
  destruct (i =? hsz); cbn [dbind dret also]; [|reflexivity]. destruct (hdr_len h =? hsz); reflexivity.
Qed.
Lemma soft_out bd rnd f v : soft (decode_mem_body bd rnd f) = buf_ans v -> decode_mem bd rnd f = buf_ans v.
Proof.
  intros E. transitivity (noexcept (soft (decode_mem_body bd rnd f))); [unfold decode_mem; destruct (decode_mem_body bd rnd f) as [|[]| |]; reflexivity|].
  rewrite E. destruct v as [[fs h]|e|c]; reflexivity.
Qed.
Theorem buffer_refines bd rnd f : (forall k, lenN (rnd k) = k) -> decode_mem bd rnd f = buf_ans (read_buffer bd (bdata f)).
Proof.
  intros Hr. apply soft_out. unfold decode_mem_body, read_buffer.
  destruct (at8_cases f 0) as [(fs & Hfs & -> & ->)|[-> ->]]; [|reflexivity]. cbn [try_ dbind dret also].
  destruct (at8_cases f 8) as [(hsz & Hhs & -> & ->)|[-> ->]]; [|reflexivity]. cbn [try_ dbind dret also]. unfold getLen.
  destruct (N.ltb_spec (lenN (bdata f)) hsz) as [Lt|Ge]; destruct (N.leb_spec hsz (lenN (bdata f))) as [Le|Gt]; try lia; [reflexivity|]. cbn [check also].
  destruct (at1_cases f 16) as [(fm & Hfm & -> & ->)|[-> ->]]; [|reflexivity]. unfold lift at 1. cbn [bind dbind dret also].
  destruct (at1_cases f 17) as [(hm & Hhm & -> & ->)|[-> ->]]; [|reflexivity]. unfold lift at 1. cbn [bind dbind dret also].
  destruct (hash_mode_valid hm) eqn:V.
  2:{ assert ((1 <=? hm) && (hm <=? 3) = false) as ->.
      { apply not_true_iff_false. rewrite andb_true_iff, !N.leb_le. intros A. apply hash_mode_valid_spec in A. congruence. }
      unfold newDataHeader, p_setHashMode. rewrite V. reflexivity. }
  apply hash_mode_valid_spec in V. assert ((1 <=? hm) && (hm <=? 3) = true) as -> by (rewrite andb_true_iff, !N.leb_le; exact V). cbn [check also].
  rewrite (new_start rnd hm Hr V). cbn [try_ dbind dret].
  destruct (N.eqb_spec fm 1) as [->|Hf1].
  2:{ unfold d_setFileDataMode, p_setFileDataMode. destruct (file_mode_valid fm) eqn:F; [apply file_mode_valid_spec in F; congruence|reflexivity]. }
  cbn [check also].
  change (d_setFileDataMode 1 (start rnd hm)) with (Ret (D hm None (salt0 rnd hm) [] [] ch_default ch_default None)). cbn [try_ dbind dret].
  destruct (at1_cases f 18) as [(n & Hn & -> & ->)|[-> ->]]; [|reflexivity]. unfold lift at 1. cbn [bind dbind dret also].
  change (soft ('(d, ix) <~ m_blocks (N.to_nat n) f (D hm None (salt0 rnd hm) [] [] ch_default ch_default None) 19 ;; mem_chains bd f fs hsz d ix) =
    buf_ans (also (get_blocks (N.to_nat n) (bdata f) 19) (fun '(bs, i) =>
      also (get_chain bd ERR_CHAINHASH1_INVALID (bdata f) i) (fun '(c1, i) =>
      also (get_chain bd ERR_CHAINHASH2_INVALID (bdata f) i) (fun '(c2, i) => buf_tail bd (bdata f) fs hsz hm bs c1 c2 i))))).
  rewrite soft_bind, blocks_ref; [|constructor|change (lenN (@nil (N * bytes))) with 0; lia].
  destruct (get_blocks (N.to_nat n) (bdata f) 19) as [[bs i]|e|c] eqn:Eb; cbn [also ver dbind dret dfail]; try reflexivity. cbn [app].
  apply blocks_good in Eb. destruct Eb as [Gb Lb]. unfold mem_chains. rewrite soft_bind, chain_ref.
  destruct (get_chain bd ERR_CHAINHASH1_INVALID (bdata f) i) as [[c1 i1]|e|c] eqn:E1; cbn [also ver dbind dret dfail]; try reflexivity. apply chain_good in E1.
  rewrite soft_bind, chain_ref.
  destruct (get_chain bd ERR_CHAINHASH2_INVALID (bdata f) i1) as [[c2 i2]|e|c] eqn:E2; cbn [also ver dbind dret dfail]; try reflexivity. apply chain_good in E2.
  change (with_chain false (to_ch c2) _) with (D hm None (salt0 rnd hm) bs [] (to_ch c1) (to_ch c2) None).
  apply tail_ref; [|exact Hfs]. split; [exact V|]. spl; try assumption; [unfold lenN; lia|apply good_ok; exact Gb].
Qed.
Lemma buffer_good bd f fs h : read_buffer bd f = Gives (fs, h) -> header_ok h /\ fs < two64.
Proof.
  unfold read_buffer.
  destruct (at8_cases (mkBytes f 0) 0) as [(fs' & Hfs & _ & F)|[_ F]]; cbn [bdata] in F; rewrite F; cbn [also]; [clear F|discriminate].
  destruct (at8_cases (mkBytes f 0) 8) as [(hsz & Hhs & _ & F)|[_ F]]; cbn [bdata] in F; rewrite F; cbn [also]; [clear F|discriminate].
  destruct (hsz <=? lenN f); cbn [check also]; [|discriminate].
  destruct (at1_cases (mkBytes f 0) 16) as [(fm & Hfm & _ & F)|[_ F]]; cbn [bdata] in F; rewrite F; cbn [also]; [clear F|discriminate].
  destruct (at1_cases (mkBytes f 0) 17) as [(hm & Hhm & _ & F)|[_ F]]; cbn [bdata] in F; rewrite F; cbn [also]; [clear F|discriminate].
  destruct ((1 <=? hm) && (hm <=? 3)) eqn:V; cbn [check also]; [|discriminate]. rewrite andb_true_iff, !N.leb_le in V.
  destruct (N.eqb_spec fm 1) as [->|]; cbn [check also]; [|discriminate].
  destruct (at1_cases (mkBytes f 0) 18) as [(n & Hn & _ & F)|[_ F]]; cbn [bdata] in F; rewrite F; cbn [also]; [clear F|discriminate].
  destruct (get_blocks (N.to_nat n) f 19) as [[bs i]|e|c] eqn:Eb; cbn [also]; try discriminate. apply blocks_good in Eb. destruct Eb as [Gb Lb].
  destruct (get_chain bd ERR_CHAINHASH1_INVALID f i) as [[c1 i1]|e|c] eqn:E1; cbn [also]; try discriminate. apply chain_good in E1.
  destruct (get_chain bd ERR_CHAINHASH2_INVALID f i1) as [[c2 i2]|e|c] eqn:E2; cbn [also]; try discriminate. apply chain_good in E2.
  destruct (here_cases (mkBytes f 0) i2 (digest_len hm)) as [(v & Lv & _ & F)|[_ F]]; cbn [bdata] in F; rewrite F; cbn [also]; [clear F|discriminate].
  destruct (here_cases (mkBytes f 0) (on i2 (digest_len hm)) (digest_len hm)) as [(sa & Ls & _ & F)|[_ F]]; cbn [bdata] in F; rewrite F; cbn [also]; [clear F|discriminate].
  destruct (at1_cases (mkBytes f 0) (on (on i2 (digest_len hm)) (digest_len hm))) as [(m & Hm & _ & F)|[_ F]]; cbn [bdata] in F; rewrite F; cbn [also]; [clear F|discriminate].
  destruct (get_encs (N.to_nat m) f _) as [[es i3]|e|c] eqn:Ee; cbn [also]; try discriminate. apply encs_good in Ee. destruct Ee as [Ge Le].
  destruct (_ <=? fs'); cbn [check also]; [|discriminate].
  assert (lenN bs = n) by (unfold lenN; lia). assert (lenN es = m) by (unfold lenN; lia).
  assert (header_ok (mkHeader 1 hm bs c1 c2 v sa es)) as Hh.
  { unfold header_ok. cbn [h_fmode h_hmode h_blocks h_ch1 h_ch2 h_valid h_salt h_encs]. spl; try assumption; try lia; try apply V. apply good_ok. exact Gb. }
  unfold insist. destruct bd; [destruct (i3 =? hsz); cbn [also]; [|discriminate]; destruct (_ =? hsz); cbn [also]; [|discriminate]|cbn [also]];
    intros E; injection E as <- <-; split; assumption.
Qed.
Theorem buffer_shows bd rnd f : (forall k, lenN (rnd k) = k) ->
  match read_buffer bd (bdata f) with
  | Gives (fs, h) => exists d, decode_mem bd rnd f = Ret (inr d) /\ shows d fs h
  | Rejects e => decode_mem bd rnd f = Ret (inl e)
  | Dies c => decode_mem bd rnd f = Crash c
  end.
Proof.
  intros Hr. rewrite (buffer_refines bd rnd f Hr). destruct (read_buffer bd (bdata f)) as [[fs h]|e|c] eqn:E; try reflexivity.
  apply buffer_good in E. destruct E as [Hh Hf]. exists (decoded fs h). split; [reflexivity|]. apply decoded_view; assumption.
Qed.
