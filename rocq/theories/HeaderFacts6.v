(** The decoder of a buffer. *)
From Coq Require Import Strings.Byte.
From Verif Require Import Base BaseFacts BytesModel BytesSpec BytesFacts BytesFacts2 CipherModel CipherFacts PwModel PwFacts
  MiscModel MiscFacts ChModel ChSpec ChFacts ChFacts2 HeaderModel HeaderSpec HeaderFacts HeaderFacts2 HeaderFacts3 HeaderFacts4 HeaderFacts5.

(** ** inversion *)
Lemma dbind_inv {A B} (m : dres A) (k : A -> dres B) b : dbind m k = dret b -> exists a, m = dret a /\ k a = dret b.
Proof. unfold dret. destruct m as [[e|a]|e|c|]; cbn [dbind]; try discriminate. intros E. eauto. Qed.
Lemma lift_inv {A} (m : outcome A) a : lift m = dret a -> m = Ret a.
Proof. unfold lift. destruct m; cbn; try discriminate. intros [= ->]. reflexivity. Qed.
Lemma try_inv {A} h (m : outcome A) a : try_ h m = dret a -> m = Ret a.
Proof. unfold try_. destruct m as [x|e|c|]; cbn; try discriminate; [intros [= ->]; reflexivity|]. destruct (h e); discriminate. Qed.
Lemma assert_inv bd b u : dassert bd b = dret u -> bd = Debug -> b = true.
Proof. unfold dassert, assertC. intros E ->. destruct b; [reflexivity|discriminate]. Qed.
Lemma w16_small n : n < 65536 -> w16 n = n.
Proof. apply N.mod_small. Qed.
Lemma w16_lt n : w16 n < 65536.
Proof. apply N.mod_lt. lia. Qed.
Lemma w16_add a b : w16 (w16 a + b) = w16 (a + b).
Proof. unfold w16. rewrite N.add_mod_idemp_l by lia. reflexivity. Qed.

Ltac w16n := repeat (rewrite <- ?N.add_assoc; rewrite w16_add).

(** ** positions *)
Lemma app_len_inj {A} (p x p' x' : list A) : p ++ x = p' ++ x' -> lenN p = lenN p' -> p = p' /\ x = x'.
Proof.
  intros E L. split.
  - rewrite <- (takeN_app_exact p x), <- (takeN_app_exact p' x'), E, L. reflexivity.
  - rewrite <- (dropN_app_exact p x), <- (dropN_app_exact p' x'), E, L. reflexivity.
Qed.
Lemma found_app f i x y : found f i (x ++ y) <-> found f i x /\ found f (i + lenN x) y.
Proof.
  split.
  - intros (p & r & -> & <-). split; [exists p, (y ++ r)|exists (p ++ x), r]; rewrite <- ?app_assoc, ?lenN_app; auto.
  - intros [(p & r & -> & <-) (p' & r' & E & L)]. exists p, r'. split; [|reflexivity].
    rewrite app_assoc in E. destruct (app_len_inj (p ++ x) r p' (y ++ r') E) as [_ ->]; [rewrite lenN_app; lia|]. rewrite <- app_assoc. reflexivity.
Qed.
Lemma found_here p x r : found (p ++ x ++ r) (lenN p) x.
Proof. exists p, r. auto. Qed.
Lemma found_nil f i : i <= lenN f -> found f i [].
Proof. intros L. exists (takeN i f), (dropN i f). cbn [app]. rewrite takeN_dropN, lenN_takeN. split; [reflexivity|lia]. Qed.
Lemma found_len f i x : found f i x -> i + lenN x <= lenN f.
Proof. intros (p & r & -> & <-). rewrite !lenN_app. lia. Qed.
Lemma sub_iff f i n b : copySubBytes i (i + n) f = Ret b <-> exists x, lenN x = n /\ found (bdata f) i x /\ b = mkBytes x n.
Proof.
  unfold copySubBytes, getLen. destruct (N.ltb_spec (i + n) i); [lia|]. split.
  - destruct (N.ltb_spec (lenN (bdata f)) (i + n)); [discriminate|]. intros [= <-]. replace (i + n - i) with n by lia.
    exists (sliceN i (i + n) (bdata f)). rewrite lenN_sliceN by lia. spl; [lia| |reflexivity].
    exists (takeN i (bdata f)), (dropN (i + n) (bdata f)). rewrite lenN_takeN. split; [|lia].
    unfold sliceN. replace (i + n - i) with n by lia. replace (dropN (i + n) (bdata f)) with (dropN n (dropN i (bdata f))) by (rewrite dropN_dropN; f_equal; lia).
    rewrite !takeN_dropN. reflexivity.
  - intros (x & <- & (p & r & E & <-) & ->). rewrite E at 1. rewrite !lenN_app.
    destruct (N.ltb_spec (lenN p + (lenN x + lenN r)) (lenN p + lenN x)); [lia|]. rewrite E, sliceN_app_mid. do 2 f_equal. lia.
Qed.
Lemma at1_iff f i v : at1 f i = Ret v <-> v < 256 /\ found (bdata f) i (u8 v).
Proof.
  unfold at1. split.
  - intros E. apply bind_ret_inv in E. destruct E as (b & E & E'). apply sub_iff in E. destruct E as (x & L & F & ->). cbn [bdata] in E'.
    destruct x as [|c x]; [discriminate|]. injection E' as <-. rewrite lenN_cons in L. assert (lenN x = 0) as L0 by lia. apply lenN_0 in L0. subst x.
    split; [apply b2n_lt|]. unfold u8. rewrite n2b_b2n. exact F.
  - intros [Hv F]. assert (copySubBytes i (i + 1) f = Ret (mkBytes (u8 v) 1)) as -> by (apply sub_iff; exists (u8 v); auto).
    cbn. rewrite b2n_n2b_small by exact Hv. reflexivity.
Qed.
Lemma at8_iff f i v : at8 f i = Ret v <-> v < two64 /\ found (bdata f) i (u64 v).
Proof.
  unfold at8. split.
  - intros E. apply bind_ret_inv in E. destruct E as (b & E & E'). apply sub_iff in E. destruct E as (x & L & F & ->).
    destruct (u64_of_bytes x L) as (w & Hw & ->). rewrite toLong_val in E' by (unfold getLen; cbn [bdata]; rewrite u64_len; lia). cbn [bdata] in E'.
    rewrite u64_val in E' by exact Hw. injection E' as <-. auto.
  - intros [Hv F]. assert (copySubBytes i (i + 8) f = Ret (mkBytes (u64 v) 8)) as -> by (apply sub_iff; exists (u64 v); rewrite u64_len; auto).
    cbn [bind]. rewrite toLong_val by (unfold getLen; cbn [bdata]; rewrite u64_len; lia). cbn [bdata]. rewrite u64_val by exact Hv. reflexivity.
Qed.

(** ** plain blocks *)
Section Dec.
Variables (f : Bytes) (hm : N) (v : option Bytes) (sa : Bytes) (c1 c2 : chainhash) (fs : option N).
Lemma mblocks_fwd bs2 : forall bs1 ix, Forall good (bs1 ++ bs2) -> lenN (bs1 ++ bs2) <= 255 ->
  ix + lenN (concat (map ser_block bs2)) < 65536 -> found (bdata f) ix (concat (map ser_block bs2)) ->
  m_blocks (length bs2) f (D hm v sa bs1 [] c1 c2 fs) ix = dret (D hm v sa (bs1 ++ bs2) [] c1 c2 fs, ix + lenN (concat (map ser_block bs2))).
Proof using.
  induction bs2 as [|b bs2 IH]; intros bs1 ix G L W F.
  - rewrite app_nil_r. cbn [map concat length m_blocks]. change (lenN (@nil byte)) with 0. rewrite N.add_0_r. reflexivity.
  - cbn [length m_blocks map concat] in *. pose proof G as G'. apply Forall_app in G'. destruct G' as [G1 G2]. inversion G2 as [|? ? Gb G2']; subst.
    pose proof Gb as [[T1 T2] T3]. rewrite lenN_app, lenN_cons in L. rewrite lenN_app, ser_block_len in *. apply found_app in F. destruct F as [F F'].
    rewrite ser_block_len in F'. unfold ser_block in F. rewrite !found_app, !u8_len in F. destruct F as (F1 & F2 & F3).
    destruct b as [ty x]. cbn [fst snd] in *.
    assert (at1 f ix = Ret ty) as -> by (apply at1_iff; auto). unfold lift. cbn [bind dbind dret]. rewrite w16_small by lia.
    assert (at1 f (ix + 1) = Ret (lenN x)) as -> by (apply at1_iff; split; [lia|exact F2]). cbn [bind dbind dret]. rewrite w16_small by lia.
    assert (copySubBytes (ix + 1 + 1) (ix + 1 + 1 + lenN x) f = Ret (mkBytes x (lenN x))) as -> by (apply sub_iff; exists x; auto). cbn [bind dbind dret]. rewrite w16_small by lia.
    rewrite newBlock_good by exact Gb. cbn [bind].
    rewrite (addBlock_D _ _ _ bs1 [] _ _ _ (ty, x) Gb (good_ok _ G1)); [|lia|vm_compute; discriminate]. cbn [bind dbind dret].
    replace (ix + 1 + 1 + lenN x) with (ix + (2 + lenN x)) by lia.
    rewrite IH; rewrite <- ?app_assoc; cbn [app]; [do 2 f_equal; lia|exact G|rewrite !lenN_app, lenN_cons; lia|lia|exact F'].
Qed.
Lemma mblocks_inv n : forall bs1 ix d' ix', Forall good bs1 -> lenN bs1 + N.of_nat n <= 255 -> ix < 65536 ->
  m_blocks n f (D hm v sa bs1 [] c1 c2 fs) ix = dret (d', ix') ->
  exists bs2, length bs2 = n /\ Forall good bs2 /\ d' = D hm v sa (bs1 ++ bs2) [] c1 c2 fs /\
    ix' = w16 (ix + lenN (concat (map ser_block bs2))) /\
    (ix <= getLen f -> ix + lenN (concat (map ser_block bs2)) < 65536 -> found (bdata f) ix (concat (map ser_block bs2))).
Proof using.
  induction n as [|n IH]; intros bs1 ix d' ix' G L Hix E.
  - cbn [m_blocks] in E. injection E as <- <-. exists []. rewrite app_nil_r. cbn [map concat]. change (lenN (@nil byte)) with 0. rewrite N.add_0_r.
    spl; try reflexivity; [constructor|symmetry; apply w16_small; exact Hix|]. intros Hl _. apply found_nil. exact Hl.
  - cbn [m_blocks] in E. apply dbind_inv in E. destruct E as (ty & E1 & E). apply lift_inv, at1_iff in E1. destruct E1 as [T1 F1].
    apply dbind_inv in E. destruct E as (l & E2 & E). apply lift_inv, at1_iff in E2. destruct E2 as [T2 F2].
    apply dbind_inv in E. destruct E as (b & E3 & E). apply lift_inv, sub_iff in E3. destruct E3 as (x & Lx & F3 & ->).
    apply dbind_inv in E. destruct E as (d2 & E4 & E). apply lift_inv, bind_ret_inv in E4. destruct E4 as (b & E4 & E5).
    assert (x <> []) as Hx. { intros ->. subst l. cbn in E4. discriminate. }
    assert (good (ty, x)) as Gb by (split; [split; cbn [fst snd]; lia|exact Hx]).
    subst l. rewrite newBlock_good in E4 by exact Gb. injection E4 as <-.
    rewrite (addBlock_D _ _ _ bs1 [] _ _ _ (ty, x) Gb (good_ok _ G)) in E5; [|lia|vm_compute; discriminate]. injection E5 as <-.
    apply IH in E; [|apply Forall_snoc; assumption|rewrite lenN_app; change (lenN [(ty, x)]) with 1; lia|apply w16_lt].
    destruct E as (bs2 & Hn & G2 & -> & -> & F). exists ((ty, x) :: bs2). rewrite <- app_assoc. cbn [app length map concat]. rewrite lenN_app, ser_block_len. cbn [snd].
    spl; [lia|constructor; assumption|reflexivity|w16n; f_equal; lia|].
    intros Hl W. rewrite (w16_small (ix + 1)) in * by lia. rewrite (w16_small (ix + 1 + 1)) in * by lia. rewrite (w16_small (ix + 1 + 1 + lenN x)) in F by lia.
    pose proof (found_len _ _ _ F3) as Lf. apply found_app. rewrite ser_block_len. cbn [snd]. split.
    + unfold ser_block. rewrite !found_app, !u8_len. auto.
    + replace (ix + (2 + lenN x)) with (ix + 1 + 1 + lenN x) by lia. apply F; [exact Lf|lia].
Qed.
End Dec.

(** ** chain hashes *)
Definition fixed_len (m : N) (data : bytes) : N := lenN data - lenN (free_salt (m, 0, data)).
Lemma addB' bd mode blk k b n sz st nm len : nth_error (nameLens mode) (N.to_nat k) = Some (nm, len) -> len = 0 \/ len = lenN b ->
  lenN blk + lenN b <= 255 -> k < 255 ->
  cd_addBytes bd (mkBytes b n) (mkChd mode (mkBytes blk 255) sz st k) = Ret (mkChd mode (mkBytes (blk ++ b) 255) sz st (k + 1)).
Proof. exact (addB bd mode blk k b sz st nm len). Qed.
Lemma addB_inv bd mode blk k b sz st nm len c : nth_error (nameLens mode) (N.to_nat k) = Some (nm, len) -> k < 255 ->
  cd_addBytes bd b (mkChd mode (mkBytes blk 255) sz st k) = Ret c ->
  lenN blk + getLen b <= 255 /\ c = mkChd mode (mkBytes (blk ++ bdata b) 255) sz st (k + 1).
Proof.
  intros E Hk. unfold cd_addBytes. destruct (cd_complete _); [discriminate|]. cbn [cd_mode cd_ind cd_block cd_size cd_star]. rewrite E.
  destruct (_ && _); [discriminate|]. unfold addcopyToBytes at 1. cbn [bmax bdata]. unfold getLen at 2. cbn [bdata].
  destruct (N.ltb_spec 255 (getLen b + lenN blk)) as [L|L].
  - unfold assertC. destruct bd; [destruct (_ <? _)|]; discriminate.
  - intros E'. assert (w8 (k + 1) = k + 1) as W by (unfold w8; lia). rewrite W in E'. split; [lia|].
    unfold assertC in E'. destruct bd; [destruct (_ <=? _); [|discriminate]|]; congruence.
Qed.

Lemma end_ok ix lb n : n <= lb -> lb < 256 -> ix < 65536 ->
  Z.to_N ((Z.of_N ix + (Z.of_N lb - Z.of_N n)) mod 18446744073709551616) = ix + (lb - n).
Proof. intros A B C. rewrite Z.mod_small by lia. lia. Qed.
(** a free part announced shorter than the fixed ones is not accepted *)
Lemma end_bad ix lb n f b : lb < n -> n < 256 -> ix < 65536 ->
  copySubBytes ix (Z.to_N ((Z.of_N ix + (Z.of_N lb - Z.of_N n)) mod 18446744073709551616)) f = Ret b -> 255 < getLen b.
Proof.
  intros A B C. unfold copySubBytes. destruct (Z_lt_le_dec (Z.of_N ix + (Z.of_N lb - Z.of_N n)) 0) as [L|L].
  - replace ((Z.of_N ix + (Z.of_N lb - Z.of_N n)) mod 18446744073709551616)%Z with (Z.of_N ix + (Z.of_N lb - Z.of_N n) + 18446744073709551616)%Z
      by (apply Z.mod_unique with (-1)%Z; lia).
    set (e := Z.to_N _). assert (18446744073709551616 - 256 <= e) by (unfold e; lia). clearbody e.
    destruct (N.ltb_spec e ix); [discriminate|]. destruct (N.ltb_spec (getLen f) e); [discriminate|]. intros [= <-]. unfold getLen in *. cbn [bdata].
    rewrite lenN_sliceN by lia. lia.
  - rewrite Z.mod_small by lia. destruct (N.ltb_spec (Z.to_N (Z.of_N ix + (Z.of_N lb - Z.of_N n))) ix); [discriminate|lia].
Qed.
Lemma mparts_fwd bd m f data lb ix : 1 <= m <= 5 -> data_fits m data -> lb_ok m data lb -> lb < 256 ->
  ix + fixed_len m data < 65536 -> found (bdata f) ix data ->
  m_parts bd (nameLens m) f lb 0 (newChd m) ix = dret (lenN data, to_chd m data, ix + fixed_len m data).
Proof.
  intros Hm F Lb L. unfold fixed_len, free_salt. cbn [fst snd]. revert F Lb. pattern m. apply modes5; [exact Hm|..]; cbn [data_fits]; intros F Lb W Fd.
  - apply lenN_0 in F. subst data. cbn [nameLens m_parts]. change (lenN (@nil byte)) with 0. rewrite N.sub_0_r, N.add_0_r. reflexivity.
  - rewrite (Lb ltac:(auto)). cbn [nameLens m_parts]. cbn [N.eqb negb]. rewrite (end_ok ix (lenN data) 0) by lia. rewrite N.sub_0_r, N.sub_diag, N.add_0_r in *.
    assert (copySubBytes ix (ix + lenN data) f = Ret (mkBytes data (lenN data))) as -> by (apply sub_iff; exists data; auto). cbn [bind].
    change (newChd 2) with (mkChd 2 (mkBytes [] 255) (datablockSize 2) (star_of 2) 0).
    rewrite (addB' bd 2 [] 0 data _ _ _ _ _ eq_refl); [|auto|change (lenN (@nil byte)) with 0; lia|lia]. reflexivity.
  - change (lenN (@nil byte)) with 0 in *. rewrite N.sub_0_r in *. cbn [nameLens m_parts]. cbn [N.eqb negb].
    assert (copySubBytes ix (ix + 8) f = Ret (mkBytes data 8)) as -> by (apply sub_iff; exists data; auto). cbn [bind].
    change (newChd 3) with (mkChd 3 (mkBytes [] 255) (datablockSize 3) (star_of 3) 0).
    rewrite (addB' bd 3 [] 0 data _ _ _ _ _ eq_refl); [|auto|change (lenN (@nil byte)) with 0; lia|lia]. cbn [try_ dbind dret m_parts].
    rewrite w16_small by lia. rewrite F. reflexivity.
  - rewrite (Lb ltac:(auto)). destruct (cut_bytes 8 data ltac:(lia)) as (a & b & -> & La & Lb').
    assert (dropN 8 (a ++ b) = b) as Dr by (rewrite <- La; apply dropN_app_exact). rewrite Dr in *. rewrite lenN_app in *.
    replace (lenN a + lenN b - lenN b) with 8 in * by lia. apply found_app in Fd. destruct Fd as [Fa Fb]. rewrite La in Fb.
    cbn [nameLens m_parts]. cbn [N.eqb negb].
    assert (copySubBytes ix (ix + 8) f = Ret (mkBytes a 8)) as -> by (apply sub_iff; exists a; auto). cbn [bind].
    change (newChd 4) with (mkChd 4 (mkBytes [] 255) (datablockSize 4) (star_of 4) 0).
    rewrite (addB' bd 4 [] 0 a _ _ _ _ _ eq_refl); [|auto|change (lenN (@nil byte)) with 0; lia|lia]. cbn [try_ dbind dret m_parts app].
    rewrite w16_small by lia. change (0 + 8) with 8. rewrite (end_ok (ix + 8) (lenN a + lenN b) 8) by lia. replace (lenN a + lenN b - 8) with (lenN b) by lia.
    assert (copySubBytes (ix + 8) (ix + 8 + lenN b) f = Ret (mkBytes b (lenN b))) as -> by (apply sub_iff; exists b; auto). cbn [bind].
    rewrite (addB' bd 4 a 1 b _ _ _ _ _ eq_refl); [|auto|lia|lia]. reflexivity.
  - change (lenN (@nil byte)) with 0 in *. rewrite N.sub_0_r in *. destruct (cut_bytes 8 data ltac:(lia)) as (a & x & -> & La & Lx).
    destruct (cut_bytes 8 x ltac:(lia)) as (b & y & -> & Lb' & Ly). destruct (cut_bytes 8 y ltac:(lia)) as (c & e & -> & Lc & Le).
    rewrite !lenN_app in *. rewrite !found_app, La, Lb', Lc in Fd. destruct Fd as (Fa & Fb & Fc & Fe). assert (lenN e = 8) as Le' by lia. clear Le Ly Lx. cbn [nameLens m_parts]. cbn [N.eqb negb].
    change (newChd 5) with (mkChd 5 (mkBytes [] 255) (datablockSize 5) (star_of 5) 0).
    assert (copySubBytes ix (ix + 8) f = Ret (mkBytes a 8)) as -> by (apply sub_iff; exists a; auto). cbn [bind].
    rewrite (addB' bd 5 [] 0 a _ _ _ _ _ eq_refl); [|auto|change (lenN (@nil byte)) with 0; lia|lia]. cbn [try_ dbind dret app]. rewrite (w16_small (ix + 8)) by lia.
    assert (copySubBytes (ix + 8) (ix + 8 + 8) f = Ret (mkBytes b 8)) as -> by (apply sub_iff; exists b; auto). cbn [bind].
    rewrite (addB' bd 5 a (0 + 1) b _ _ _ _ _ eq_refl); [|auto|lia|lia]. cbn [try_ dbind dret app]. rewrite (w16_small (ix + 8 + 8)) by lia.
    assert (copySubBytes (ix + 8 + 8) (ix + 8 + 8 + 8) f = Ret (mkBytes c 8)) as -> by (apply sub_iff; exists c; auto). cbn [bind].
    rewrite (addB' bd 5 (a ++ b) (0 + 1 + 1) c _ _ _ _ _ eq_refl); [|auto|rewrite lenN_app; lia|lia]. cbn [try_ dbind dret app]. rewrite (w16_small (ix + 8 + 8 + 8)) by lia.
    assert (copySubBytes (ix + 8 + 8 + 8) (ix + 8 + 8 + 8 + 8) f = Ret (mkBytes e 8)) as -> by (apply sub_iff; exists e; auto). cbn [bind].
    rewrite (addB' bd 5 ((a ++ b) ++ c) (0 + 1 + 1 + 1) e _ _ _ _ _ eq_refl); [|auto|rewrite !lenN_app; lia|lia]. cbn [try_ dbind dret app].
    rewrite w16_small by lia. replace (ix + 8 + 8 + 8 + 8) with (ix + (lenN a + (lenN b + (lenN c + lenN e)))) by lia.
    replace (0 + 8 + 8 + 8 + 8) with (lenN a + (lenN b + (lenN c + lenN e))) by lia. rewrite <- !app_assoc. reflexivity.
Qed.
Ltac step_inv E x := apply dbind_inv in E; let E' := fresh "E" in destruct E as (x & E' & E); apply try_inv, bind_ret_inv in E';
  let b := fresh "b" in let E2 := fresh "E" in destruct E' as (b & E2 & E').
Lemma mparts_inv bd m f lb ix dl c ix' : 1 <= m <= 5 -> lb < 256 -> ix < 65536 ->
  m_parts bd (nameLens m) f lb 0 (newChd m) ix = dret (dl, c, ix') ->
  exists data, data_fits m data /\ lb_ok m data lb /\ dl = lenN data /\ c = to_chd m data /\ ix' = w16 (ix + fixed_len m data) /\
    (ix <= getLen f -> ix + fixed_len m data < 65536 -> found (bdata f) ix data).
Proof.
  intros Hm L Hix. unfold fixed_len, free_salt, lb_ok. cbn [fst snd]. pattern m. apply modes5; [exact Hm|..]; cbn [data_fits]; intros E.
  - cbn [nameLens m_parts] in E. injection E as <- <- <-. exists []. change (lenN (@nil byte)) with 0. rewrite N.sub_0_r, N.add_0_r.
    spl; try reflexivity; [intros [|]; lia|symmetry; apply w16_small; exact Hix|]. intros Hl _. apply found_nil. exact Hl.
  - cbn [nameLens m_parts] in E. cbn [N.eqb negb] in E. step_inv E x. rewrite (end_ok ix lb 0) in E1 by lia. rewrite N.sub_0_r in E1.
    apply sub_iff in E1. destruct E1 as (d & Ld & Fd & ->).
    change (newChd 2) with (mkChd 2 (mkBytes [] 255) (datablockSize 2) (star_of 2) 0) in E0.
    apply (addB_inv bd 2 [] 0 _ _ _ _ _ _ eq_refl) in E0; [|lia]. destruct E0 as [_ ->]. injection E as <- <- <-.
    exists d. rewrite N.sub_diag, N.add_0_r. subst lb. spl; try reflexivity; try lia; [symmetry; apply w16_small; exact Hix|]. intros _ _. exact Fd.
  - cbn [nameLens m_parts] in E. cbn [N.eqb negb] in E. step_inv E x. apply sub_iff in E1. destruct E1 as (d & Ld & Fd & ->).
    change (newChd 3) with (mkChd 3 (mkBytes [] 255) (datablockSize 3) (star_of 3) 0) in E0.
    apply (addB_inv bd 3 [] 0 _ _ _ _ _ _ eq_refl) in E0; [|lia]. destruct E0 as [_ ->]. cbn [m_parts] in E. injection E as <- <- <-.
    exists d. change (lenN (@nil byte)) with 0. rewrite N.sub_0_r, Ld. spl; try reflexivity; [intros [|]; lia|]. intros _ _. exact Fd.
  - cbn [nameLens m_parts] in E. cbn [N.eqb negb] in E. step_inv E x. apply sub_iff in E1. destruct E1 as (d & Ld & Fd & ->).
    change (newChd 4) with (mkChd 4 (mkBytes [] 255) (datablockSize 4) (star_of 4) 0) in E0.
    apply (addB_inv bd 4 [] 0 _ _ _ _ _ _ eq_refl) in E0; [|lia]. destruct E0 as [_ ->]. cbn [app bdata] in E. change (0 + 8) with 8 in E. change (0 + 1) with 1 in E.
    step_inv E x. destruct (N.ltb_spec lb 8) as [Lt|Lt].
    { apply end_bad in E1; [|lia|lia|apply w16_lt]. apply (addB_inv bd 4 d 1 _ _ _ _ _ _ eq_refl) in E0; [|lia]. lia. }
    rewrite end_ok in E1; [|lia|lia|apply w16_lt]. apply sub_iff in E1. destruct E1 as (s & Ls & Fs & ->).
    apply (addB_inv bd 4 d 1 _ _ _ _ _ _ eq_refl) in E0; [|lia]. destruct E0 as [L2 ->]. unfold getLen in L2. cbn [bdata] in L2. injection E as <- <- <-.
    exists (d ++ s). assert (dropN 8 (d ++ s) = s) as -> by (rewrite <- Ld; apply dropN_app_exact). rewrite lenN_app. replace (lenN d + lenN s - lenN s) with 8 by lia.
    spl; try reflexivity; try lia. intros _ W. rewrite w16_small in Fs by exact W. apply found_app. rewrite Ld. auto.
  - cbn [nameLens m_parts] in E. cbn [N.eqb negb] in E. change (newChd 5) with (mkChd 5 (mkBytes [] 255) (datablockSize 5) (star_of 5) 0) in E.
    step_inv E x. apply sub_iff in E1. destruct E1 as (a & La & Fa & ->).
    apply (addB_inv bd 5 [] 0 _ _ _ _ _ _ eq_refl) in E0; [|lia]. destruct E0 as [_ ->]. cbn [app bdata] in E.
    step_inv E x. apply sub_iff in E1. destruct E1 as (bb & Lb & Fb & ->).
    apply (addB_inv bd 5 a (0 + 1) _ _ _ _ _ _ eq_refl) in E0; [|lia]. destruct E0 as [_ ->]. cbn [app bdata] in E.
    step_inv E x. apply sub_iff in E1. destruct E1 as (e & Le & Fe & ->).
    apply (addB_inv bd 5 (a ++ bb) (0 + 1 + 1) _ _ _ _ _ _ eq_refl) in E0; [|lia]. destruct E0 as [_ ->]. cbn [app bdata] in E.
    step_inv E x. apply sub_iff in E1. destruct E1 as (g & Lg & Fg & ->).
    apply (addB_inv bd 5 ((a ++ bb) ++ e) (0 + 1 + 1 + 1) _ _ _ _ _ _ eq_refl) in E0; [|lia]. destruct E0 as [_ ->]. cbn [app bdata] in E.
    injection E as <- <- <-. exists (((a ++ bb) ++ e) ++ g). change (lenN (@nil byte)) with 0. rewrite !lenN_app, La, Lb, Le, Lg, N.sub_0_r.
    spl; try reflexivity; [intros [|]; lia|w16n; f_equal; lia|]. intros _ W.
    rewrite (w16_small (ix + 8)) in * by lia. rewrite (w16_small (ix + 8 + 8)) in * by lia. rewrite (w16_small (ix + 8 + 8 + 8)) in * by lia.
    rewrite !found_app, !lenN_app, La, Lb, Le. replace (ix + (8 + 8)) with (ix + 8 + 8) by lia. replace (ix + (8 + 8 + 8)) with (ix + 8 + 8 + 8) by lia. auto.
Qed.
