(** The stream decoder: what it does on every byte string. *)
From Coq Require Import Strings.Byte.
From Verif Require Import Base BaseFacts BytesModel BytesSpec BytesFacts BytesFacts2 CipherModel CipherFacts PwModel PwFacts
  MiscModel MiscFacts ChModel ChSpec ChFacts ChFacts2 HeaderModel HeaderSpec HeaderFacts HeaderFacts2.

(** ** reading *)
Definition read_n (cap n : N) (s : bytes) : option (bytes * bytes) :=
  if (n <=? cap) && (n <=? lenN s) then Some (takeN n s, dropN n s) else None.
Lemma readBytes_N cap n s : n < two32 -> readBytes cap (Z.of_N n) s = read_n cap n s.
Proof.
  intros Hn. unfold readBytes, read_n. rewrite Z.mod_small by (unfold two32 in Hn; lia). rewrite N2Z.id.
  destruct (N.ltb_spec cap n), (N.leb_spec n cap); try lia; cbn [andb]; [reflexivity|].
  destruct (N.ltb_spec (lenN s) n), (N.leb_spec n (lenN s)); try lia; reflexivity.
Qed.
(** the reads of the decoder are calls of readData, whatever the stream has buffered *)
Lemma readBytes_is_readData g cap size s fuel : cap < two32 -> (N.to_nat (Z.to_N (size mod 4294967296)) + 2 <= fuel)%nat ->
  match readBytes cap size s with
  | Some (b, r) => readData fuel g (Z.to_N (size mod 4294967296)) (mkBytes [] cap) s = Ret (true, mkBytes b cap, r)
  | None => exists r, readData fuel g (Z.to_N (size mod 4294967296)) (mkBytes [] cap) s = Ret (false, mkBytes [] cap, r)
  end.
Proof.
  intros Hc Hf. unfold readBytes. set (m := Z.to_N (size mod 4294967296)) in *.
  destruct (readData_ok g m (mkBytes [] cap) s fuel) as [A B]; [apply N.le_0_l|cbn; unfold two32, two64 in *; lia|exact Hf|].
  unfold getLen in A, B. cbn [bdata bmax app] in A, B. change (lenN (@nil byte)) with 0 in A, B. rewrite N.sub_0_r in A, B.
  destruct (N.ltb_spec cap m); [apply B; lia|]. destruct (N.ltb_spec (lenN s) m); [apply B; lia|]. apply A. lia.
Qed.
Lemma read_n_app cap x s : lenN x <= cap -> read_n cap (lenN x) (x ++ s) = Some (x, s).
Proof.
  intros Hc. unfold read_n. rewrite lenN_app. destruct (N.leb_spec (lenN x) cap); [|lia].
  destruct (N.leb_spec (lenN x) (lenN x + lenN s)); [|lia]. cbn [andb]. rewrite takeN_app_exact, dropN_app_exact. reflexivity.
Qed.
Lemma read_n_eq cap n x s : lenN x = n -> n <= cap -> read_n cap n (x ++ s) = Some (x, s).
Proof. intros <-. apply read_n_app. Qed.
Lemma read_n_cases cap n s : n <= cap ->
  (exists x r, lenN x = n /\ s = x ++ r) \/ (read_n cap n s = None /\ lenN s < n).
Proof.
  intros Hc. unfold read_n. destruct (N.leb_spec n cap); [|lia]. cbn [andb].
  destruct (N.leb_spec n (lenN s)); [left|right; split; [reflexivity|lia]].
  exists (takeN n s), (dropN n s). rewrite takeN_dropN, lenN_takeN. split; [lia|reflexivity].
Qed.
Lemma read1_u8 v s : v < 256 -> read1 (u8 v ++ s) = Some (v, s).
Proof. intros Hv. cbn [u8 app read1]. rewrite b2n_n2b_small by exact Hv. reflexivity. Qed.
Lemma read1_cases s : (exists v r, v < 256 /\ s = u8 v ++ r) \/ s = [].
Proof. destruct s as [|x r]; [auto|]. left. exists (b2n x), r. split; [apply b2n_lt|]. cbn. rewrite n2b_b2n. reflexivity. Qed.
Lemma read8_u64 v s : v < two64 -> read8 (u64 v ++ s) = dret (v, s).
Proof.
  intros Hv. unfold read8. change 8%Z with (Z.of_N 8). rewrite (readBytes_N 8 8 _ eq_refl). pose proof (read_n_app 8 (u64 v) s) as R. rewrite u64_len in R. rewrite R by lia.
  cbn [need dbind dret lift]. rewrite toLong_val; [|unfold getLen; cbn [bdata]; rewrite u64_len; lia]. cbn [bdata]. rewrite u64_val by exact Hv. reflexivity.
Qed.
Lemma u64_of_bytes x : lenN x = 8 -> exists v, v < two64 /\ x = u64 v.
Proof.
  intros Hx. exists (be_val x). pose proof (be_val_lt x) as L. rewrite Hx in L. change (256 ^ 8) with two64 in L. split; [exact L|].
  apply be_val_inj; [rewrite u64_len; exact Hx|]. rewrite u64_val by exact L. reflexivity.
Qed.
Lemma read8_cases s : (exists v r, v < two64 /\ s = u64 v ++ r) \/ (read8 s = dfail ERR_NOT_ENOUGH_DATA /\ lenN s < 8).
Proof.
  destruct (read_n_cases 8 8 s ltac:(lia)) as [(x & r & L & ->)|[E L]].
  - left. destruct (u64_of_bytes x L) as (v & Hv & ->). eauto.
  - right. split; [|exact L]. unfold read8. change 8%Z with (Z.of_N 8). rewrite (readBytes_N 8 8 s eq_refl), E. reflexivity.
Qed.

(** ** the state of the decoder *)
Definition to_db (b : N * bytes) : datablock := mkDB (fst b) (mkBytes (snd b) (lenN (snd b))).
Definition to_eb (e : N * N * bytes) : encblock := mkEB (mkDB (fst (fst e)) (mkBytes (snd e) 255)) (snd (fst e)).
Definition to_chd (m : N) (data : bytes) : chd := mkChd m (mkBytes data 255) (datablockSize m) (star_of m) (lenN (layout m)).
Definition to_ch (c : N * N * bytes) : chainhash := mkCH (Some (fst (fst c))) (Some (to_chd (fst (fst c)) (snd c))) (snd (fst c)) true.
Definition D (hm : N) (v : option Bytes) (s : Bytes) (bs : list (N * bytes)) (es : list (N * N * bytes)) (c1 c2 : chainhash) (fs : option N) : dheader :=
  mkDH (mkParts (Some hm) (Some 1) v (Some s) (map to_db bs) (map to_eb es) c1 c2) (digest_len hm) (mkBytes [] 0) fs
    (lenN (concat (map ser_block bs)) + 257 * lenN es).
Lemma good_ok bs : Forall good bs -> Forall block_ok bs.
Proof. apply Forall_impl. intros b [A _]. exact A. Qed.
Lemma nonempty_len (l : bytes) : l <> [] -> 0 < lenN l.
Proof. destruct l; [congruence|]. rewrite lenN_cons. lia. Qed.
Lemma blocks_len_bound bs : Forall block_ok bs -> lenN (concat (map ser_block bs)) <= 257 * lenN bs.
Proof.
  intros F. rewrite ser_blocks_len. assert (sum (map (fun b => lenN (snd b)) bs) <= 255 * lenN bs); [|lia].
  apply (sum_bound (fun b => lenN (snd b))). eapply Forall_impl; [|exact F]. intros b [_ Hx]. exact Hx.
Qed.
Lemma blocks_snoc bs b : concat (map ser_block (bs ++ [b])) = concat (map ser_block bs) ++ ser_block b.
Proof. rewrite map_app, concat_app. cbn [map concat]. rewrite app_nil_r. reflexivity. Qed.
Lemma addBlock_D hm v s bs es c1 c2 fs b : good b -> Forall block_ok bs -> lenN bs < 255 -> lenN es <= 255 ->
  addDataBlock (to_db b) (D hm v s bs es c1 c2 fs) = Ret (D hm v s (bs ++ [b]) es c1 c2 fs).
Proof.
  intros [[G1 G2] G3] F L Le. unfold addDataBlock, D. cbn [d_parts p_dec d_blen d_hsize d_bytes d_fsize]. rewrite lenN_map.
  destruct (N.leb_spec 255 (lenN bs)); [lia|]. unfold getLen. change (bdata (db_data (to_db b))) with (snd b).
  pose proof (blocks_len_bound bs F). rewrite blocks_snoc, lenN_app, ser_block_len.
  rewrite w32_small by (unfold two32; cbn [db_data bdata]; lia). cbn [clearBytes bmax p_setDec p_hmode p_fmode p_valid p_salt p_enc p_ch1 p_ch2].
  rewrite map_app. cbn [map]. do 2 f_equal. lia.
Qed.
Lemma newBlock_good ty x : good (ty, x) -> newDataBlock ty (mkBytes x (lenN x)) = Ret (to_db (ty, x)).
Proof.
  intros [[_ G2] G3]. cbn [snd] in *. apply nonempty_len in G3. unfold newDataBlock, db_setData, getLen. cbn [bdata].
  destruct (N.ltb_spec 0 (lenN x)); [|lia]. destruct (N.leb_spec (lenN x) 255); [|lia]. reflexivity.
Qed.

Section Dec.
Variables (hm : N) (v : option Bytes) (sa : Bytes) (c1 c2 : chainhash) (fs : option N).

Lemma blocks_fwd bs2 : forall bs1 r, Forall good (bs1 ++ bs2) -> lenN (bs1 ++ bs2) <= 255 ->
  s_blocks (length bs2) (D hm v sa bs1 [] c1 c2 fs) (concat (map ser_block bs2) ++ r) = dret (D hm v sa (bs1 ++ bs2) [] c1 c2 fs, r).
Proof using.
  induction bs2 as [|b bs2 IH]; intros bs1 r G L.
  - rewrite app_nil_r. reflexivity.
  - cbn [length s_blocks map concat]. unfold ser_block at 1. rewrite <- !app_assoc.
    pose proof G as G'. apply Forall_app in G'. destruct G' as [G1 G2]. inversion G2 as [|? ? Gb G2']; subst.
    pose proof Gb as [[T1 T2] T3]. rewrite lenN_app, lenN_cons in L. destruct b as [ty x]. cbn [fst snd] in *.
    rewrite read1_u8 by exact T1. cbn [need dbind dret]. rewrite read1_u8 by lia. cbn [need dbind dret].
    rewrite readBytes_N by (unfold two32; lia). rewrite read_n_app by lia. cbn [need dbind dret]. rewrite newBlock_good by exact Gb. cbn [bind].
    rewrite (addBlock_D _ _ _ bs1 [] _ _ _ (ty, x) Gb (good_ok _ G1)); [|lia|vm_compute; discriminate]. cbn [lift bind dbind dret].
    rewrite IH; rewrite <- app_assoc; cbn [app]; [reflexivity|exact G|rewrite !lenN_app, lenN_cons; lia].
Qed.
Lemma blocks_zero bs2 : forall n bs1 ty r, Forall good (bs1 ++ bs2) -> lenN (bs1 ++ bs2) <= 255 -> (length bs2 < n)%nat -> ty < 256 ->
  s_blocks n (D hm v sa bs1 [] c1 c2 fs) (concat (map ser_block bs2) ++ u8 ty ++ u8 0 ++ r) = Throw InvalidArgument.
Proof using.
  induction bs2 as [|b bs2 IH]; intros n bs1 ty r G L Hn Ht; destruct n as [|n]; cbn [length] in Hn; try lia; cbn [s_blocks map concat].
  - cbn [app]. change (n2b ty :: n2b 0 :: r) with (u8 ty ++ u8 0 ++ r). rewrite read1_u8 by exact Ht. cbn [need dbind dret].
    rewrite read1_u8 by lia. cbn [need dbind dret]. rewrite (readBytes_N 0 0 r eq_refl).
    change (read_n 0 0 r) with (read_n 0 (lenN (@nil byte)) ([] ++ r)). rewrite read_n_app by (vm_compute; discriminate). reflexivity.
  - unfold ser_block at 1. rewrite <- !app_assoc.
    pose proof G as G'. apply Forall_app in G'. destruct G' as [G1 G2]. inversion G2 as [|? ? Gb G2']; subst.
    pose proof Gb as [[T1 T2] T3]. rewrite lenN_app, lenN_cons in L. destruct b as [ty0 x]. cbn [fst snd] in *.
    rewrite read1_u8 by exact T1. cbn [need dbind dret]. rewrite read1_u8 by lia. cbn [need dbind dret].
    rewrite readBytes_N by (unfold two32; lia). rewrite read_n_app by lia. cbn [need dbind dret]. rewrite newBlock_good by exact Gb. cbn [bind].
    rewrite (addBlock_D _ _ _ bs1 [] _ _ _ (ty0, x) Gb (good_ok _ G1)); [|lia|vm_compute; discriminate]. cbn [lift bind dbind dret].
    apply IH; rewrite <- ?app_assoc; cbn [app]; [exact G|rewrite !lenN_app, lenN_cons; lia|lia|exact Ht].
Qed.
End Dec.
Lemma blocks_cases n : forall s,
  (exists bs r, length bs = n /\ Forall good bs /\ s = concat (map ser_block bs) ++ r) \/
  (exists bs ty r, (length bs < n)%nat /\ Forall good bs /\ ty < 256 /\ s = concat (map ser_block bs) ++ u8 ty ++ u8 0 ++ r) \/
  (forall hm v sa c1 c2 fs bs1, Forall good bs1 -> lenN bs1 + N.of_nat n <= 255 -> s_blocks n (D hm v sa bs1 [] c1 c2 fs) s = dfail ERR_NOT_ENOUGH_DATA).
Proof.
  induction n as [|n IH]; intros s; [left; exists [], s; cbn; auto|].
  destruct (read1_cases s) as [(ty & s1 & T & ->)| ->]; [|right; right; reflexivity].
  destruct (read1_cases s1) as [(l & s2 & T2 & ->)| ->].
  2:{ right; right. intros hm v sa c1 c2 fs bs1 _ _. cbn [s_blocks]. rewrite read1_u8 by exact T. reflexivity. }
  destruct (read_n_cases l l s2 ltac:(lia)) as [(x & s3 & L & ->)|[E L]].
  2:{ right; right. intros hm v sa c1 c2 fs bs1 _ _. cbn [s_blocks]. rewrite read1_u8 by exact T. cbn [need dbind dret]. rewrite read1_u8 by exact T2. cbn [need dbind dret].
      rewrite readBytes_N by (unfold two32; lia). rewrite E. reflexivity. }
  destruct (N.eq_dec l 0) as [->|Hl].
  { apply lenN_0 in L. subst x. right; left. exists [], ty, s3. cbn [length map concat app]. spl; try lia; try constructor; reflexivity. }
  assert (good (ty, x)) as Gb.
  { split; [split; cbn [fst snd]; lia|]. cbn [snd]. intros ->. change (lenN (@nil byte)) with 0 in L. lia. }
  destruct (IH s3) as [(bs & r & Hn & G & ->)|[(bs & ty' & r & Hn & G & T' & ->)|F]].
  - left. exists ((ty, x) :: bs), r. spl; [cbn; lia|constructor; assumption|]. cbn [map concat]. unfold ser_block at 2. cbn [fst snd].
    rewrite <- !app_assoc, L. reflexivity.
  - right; left. exists ((ty, x) :: bs), ty', r. spl; [cbn; lia|constructor; assumption|exact T'|]. cbn [map concat]. unfold ser_block at 2. cbn [fst snd].
    rewrite <- !app_assoc, L. reflexivity.
  - right; right. intros hm v sa c1 c2 fs bs1 G L1. cbn [s_blocks]. rewrite read1_u8 by exact T. cbn [need dbind dret]. rewrite read1_u8 by exact T2. cbn [need dbind dret].
    rewrite readBytes_N by (unfold two32; lia). rewrite read_n_eq by lia. cbn [need dbind dret].
    pose proof (newBlock_good ty x Gb) as Nb. rewrite L in Nb. rewrite Nb. cbn [bind].
    rewrite (addBlock_D _ _ _ bs1 [] _ _ _ (ty, x) Gb (good_ok _ G)); [|lia|vm_compute; discriminate]. cbn [lift bind dbind dret].
    apply F; [apply Forall_snoc; assumption|]. rewrite lenN_app. change (lenN [(ty, x)]) with 1. lia.
Qed.

(** ** chain hashes *)
Lemma cut_bytes k (data : bytes) : k <= lenN data -> exists a r, data = a ++ r /\ lenN a = k /\ lenN r = lenN data - k.
Proof. intros L. exists (takeN k data), (dropN k data). rewrite takeN_dropN, lenN_takeN, lenN_dropN. spl; try reflexivity; lia. Qed.
Lemma addB bd mode blk k b sz st nm len : nth_error (nameLens mode) (N.to_nat k) = Some (nm, len) -> len = 0 \/ len = lenN b ->
  lenN blk + lenN b <= 255 -> k < 255 ->
  cd_addBytes bd (mkBytes b 255) (mkChd mode (mkBytes blk 255) sz st k) = Ret (mkChd mode (mkBytes (blk ++ b) 255) sz st (k + 1)).
Proof.
  intros E Hl L Hk. unfold cd_addBytes, cd_complete. cbn [cd_ind cd_mode cd_block cd_size cd_star].
  assert (N.to_nat k < length (nameLens mode))%nat by (apply nth_error_Some; congruence).
  destruct (N.eqb_spec k (lenN (nameLens mode))); [unfold lenN in *; lia|]. rewrite E. unfold getLen at 1. cbn [bdata].
  assert (negb (len =? lenN b) && negb (len =? 0) = false) as ->.
  { destruct Hl as [->| ->]; [rewrite andb_false_r|rewrite N.eqb_refl]; reflexivity. }
  rewrite addcopy_ok by (unfold getLen; cbn [bdata bmax]; lia). cbn [bdata bmax]. unfold cd_len, getLen. cbn [cd_block bdata].
  assert (w8 (lenN (blk ++ b)) <= 255). { rewrite lenN_app. unfold w8. lia. }
  destruct (N.leb_spec (w8 (lenN (blk ++ b))) 255); [|lia]. replace (w8 (k + 1)) with (k + 1) by (unfold w8; lia).
  destruct bd; reflexivity.
Qed.
Lemma read_z cap lb n s : n <= lb -> lb < 256 -> readBytes cap (Z.of_N lb - Z.of_N n) s = read_n cap (lb - n) s.
Proof. intros A B. rewrite <- N2Z.inj_sub by exact A. apply readBytes_N. unfold two32. lia. Qed.
Lemma read_neg cap lb n s : lb < n -> n < 256 -> cap < 256 -> readBytes cap (Z.of_N lb - Z.of_N n) s = None.
Proof.
  intros A B C. unfold readBytes. replace ((Z.of_N lb - Z.of_N n) mod 4294967296)%Z with (Z.of_N lb - Z.of_N n + 4294967296)%Z.
  - destruct (N.ltb_spec cap (Z.to_N (Z.of_N lb - Z.of_N n + 4294967296))); [reflexivity|lia].
  - apply Z.mod_unique with (-1)%Z; lia.
Qed.

Ltac part_step E := rewrite readBytes_N by (unfold two32; lia); rewrite E; cbn [need dbind dret].
Lemma parts_fwd bd m data lb r : 1 <= m <= 5 -> data_fits m data -> lb_ok m data lb -> lb < 256 ->
  s_parts bd (nameLens m) lb 0 (newChd m) (data ++ r) = dret (lenN data, to_chd m data, r).
Proof.
  intros Hm F Lb L. revert F Lb. pattern m. apply modes5; [exact Hm|..]; cbn [data_fits]; intros F Lb.
  - apply lenN_0 in F. subst data. reflexivity.
  - rewrite (Lb ltac:(auto)). cbn [nameLens s_parts]. cbn [N.eqb negb]. rewrite read_z by lia. rewrite N.sub_0_r, read_n_app by lia. cbn [need dbind dret].
    change (newChd 2) with (mkChd 2 (mkBytes [] 255) (datablockSize 2) (star_of 2) 0).
    rewrite (addB bd 2 [] 0 data _ _ _ _ eq_refl); [|auto|change (lenN (@nil byte)) with 0; lia|lia]. reflexivity.
  - cbn [nameLens s_parts]. cbn [N.eqb negb]. rewrite (readBytes_N 255 8) by (unfold two32; lia).
    rewrite read_n_eq by lia. cbn [need dbind dret].
    change (newChd 3) with (mkChd 3 (mkBytes [] 255) (datablockSize 3) (star_of 3) 0).
    rewrite (addB bd 3 [] 0 data _ _ _ _ eq_refl); [|auto|change (lenN (@nil byte)) with 0; lia|lia]. rewrite F. reflexivity.
  - rewrite (Lb ltac:(auto)). destruct (cut_bytes 8 data ltac:(lia)) as (a & b & -> & La & Lb').
    cbn [nameLens s_parts]. cbn [N.eqb negb]. rewrite (readBytes_N 255 8) by (unfold two32; lia). rewrite <- app_assoc.
    rewrite read_n_eq by lia. cbn [need dbind dret].
    change (newChd 4) with (mkChd 4 (mkBytes [] 255) (datablockSize 4) (star_of 4) 0). rewrite lenN_app in *.
    rewrite (addB bd 4 [] 0 a _ _ _ _ eq_refl); [|auto|change (lenN (@nil byte)) with 0; lia|lia]. cbn [try_ dbind].
    change (0 + 8) with 8. change (0 + 1) with 1. cbn [app]. rewrite read_z by lia. replace (lenN a + lenN b - 8) with (lenN b) by lia.
    rewrite read_n_app by lia. cbn [need dbind dret].
    rewrite (addB bd 4 a 1 b _ _ _ _ eq_refl); [|auto|lia|lia]. reflexivity.
  - destruct (cut_bytes 8 data ltac:(lia)) as (a & x & -> & La & Lx).
    destruct (cut_bytes 8 x ltac:(lia)) as (b & y & -> & Lb' & Ly). destruct (cut_bytes 8 y ltac:(lia)) as (c & e & -> & Lc & Le).
    rewrite !lenN_app in *. rewrite <- !app_assoc. cbn [nameLens s_parts]. cbn [N.eqb negb].
    change (newChd 5) with (mkChd 5 (mkBytes [] 255) (datablockSize 5) (star_of 5) 0).
    rewrite (readBytes_N 255 8) by (unfold two32; lia). rewrite read_n_eq by lia. cbn [need dbind dret].
    rewrite (addB bd 5 [] 0 a _ _ _ _ eq_refl); [|auto|change (lenN (@nil byte)) with 0; lia|lia]. cbn [try_ dbind app].
    rewrite (readBytes_N 255 8) by (unfold two32; lia). rewrite read_n_eq by lia. cbn [need dbind dret].
    rewrite (addB bd 5 a (0 + 1) b _ _ _ _ eq_refl); [|auto|lia|lia]. cbn [try_ dbind app].
    rewrite (readBytes_N 255 8) by (unfold two32; lia). rewrite read_n_eq by lia. cbn [need dbind dret].
    rewrite (addB bd 5 (a ++ b) (0 + 1 + 1) c _ _ _ _ eq_refl); [|auto|rewrite lenN_app; lia|lia]. cbn [try_ dbind app].
    rewrite (readBytes_N 255 8) by (unfold two32; lia). rewrite read_n_eq by lia. cbn [need dbind dret].
    rewrite (addB bd 5 ((a ++ b) ++ c) (0 + 1 + 1 + 1) e _ _ _ _ eq_refl); [|right; lia|rewrite !lenN_app; lia|lia]. cbn [try_ dbind app].
    replace (lenN a + (lenN b + (lenN c + lenN e))) with (0 + 8 + 8 + 8 + 8) by lia. rewrite <- !app_assoc. reflexivity.
Qed.
Lemma parts_cases m lb s : 1 <= m <= 5 -> lb < 256 ->
  (exists data r, data_fits m data /\ lb_ok m data lb /\ s = data ++ r) \/
  (forall bd, s_parts bd (nameLens m) lb 0 (newChd m) s = dfail ERR_NOT_ENOUGH_DATA).
Proof.
  intros Hm L. unfold lb_ok. pattern m. apply modes5; [exact Hm|..]; cbn [data_fits].
  - left. exists [], s. spl; try reflexivity. intros [|]; lia.
  - destruct (read_n_cases 255 lb s ltac:(lia)) as [(x & r & E & ->)|[E _]].
    + left. exists x, r. spl; try reflexivity; lia.
    + right. intros bd. cbn [nameLens s_parts]. cbn [N.eqb negb]. rewrite read_z by lia. rewrite N.sub_0_r, E. reflexivity.
  - destruct (read_n_cases 255 8 s ltac:(lia)) as [(x & r & E & ->)|[E _]].
    + left. exists x, r. spl; try reflexivity; lia.
    + right. intros bd. cbn [nameLens s_parts]. cbn [N.eqb negb]. rewrite (readBytes_N 255 8) by (unfold two32; lia). rewrite E. reflexivity.
  - destruct (read_n_cases 255 8 s ltac:(lia)) as [(x & r & E & ->)|[E _]].
    2:{ right. intros bd. cbn [nameLens s_parts]. cbn [N.eqb negb]. rewrite (readBytes_N 255 8) by (unfold two32; lia). rewrite E. reflexivity. }
    assert (forall bd, s_parts bd (nameLens 4) lb 0 (newChd 4) (x ++ r) =
      s_parts bd [([x53], 0)] lb 8 (mkChd 4 (mkBytes x 255) (datablockSize 4) (star_of 4) 1) r) as K.
    { intros bd. cbn [nameLens s_parts]. cbn [N.eqb negb]. rewrite (readBytes_N 255 8) by (unfold two32; lia). rewrite read_n_eq by lia.
      cbn [need dbind dret]. change (newChd 4) with (mkChd 4 (mkBytes [] 255) (datablockSize 4) (star_of 4) 0).
      rewrite (addB bd 4 [] 0 x _ _ _ _ eq_refl); [|auto|change (lenN (@nil byte)) with 0; lia|lia]. reflexivity. }
    destruct (N.ltb_spec lb 8) as [Lt|Lt].
    { right. intros bd. rewrite K. cbn [s_parts]. cbn [N.eqb negb]. rewrite read_neg by lia. reflexivity. }
    destruct (read_n_cases 255 (lb - 8) r ltac:(lia)) as [(y & r' & E' & ->)|[E' _]].
    + left. exists (x ++ y), r'. rewrite lenN_app, <- app_assoc. spl; try reflexivity; lia.
    + right. intros bd. rewrite K. cbn [s_parts]. cbn [N.eqb negb]. rewrite read_z by lia. rewrite E'. reflexivity.
  - destruct (N.leb_spec 32 (lenN s)) as [L32|L32].
    { left. exists (takeN 32 s), (dropN 32 s). rewrite takeN_dropN, lenN_takeN. spl; try reflexivity; lia. }
    right. intros bd. change (newChd 5) with (mkChd 5 (mkBytes [] 255) (datablockSize 5) (star_of 5) 0). cbn [nameLens].
    cbn [s_parts]. cbn [N.eqb negb]. rewrite (readBytes_N 255 8) by (unfold two32; lia).
    destruct (read_n_cases 255 8 s ltac:(lia)) as [(a & r & La & ->)|[E _]]; [|rewrite E; reflexivity].
    rewrite read_n_eq by lia. cbn [need dbind dret]. rewrite lenN_app in L32.
    rewrite (addB bd 5 [] 0 a _ _ _ _ eq_refl); [|auto|change (lenN (@nil byte)) with 0; lia|lia]. cbn [try_ dbind app].
    rewrite (readBytes_N 255 8) by (unfold two32; lia).
    destruct (read_n_cases 255 8 r ltac:(lia)) as [(b & r' & Lb' & ->)|[E _]]; [|rewrite E; reflexivity].
    rewrite read_n_eq by lia. cbn [need dbind dret]. rewrite lenN_app in L32.
    rewrite (addB bd 5 a (0 + 1) b _ _ _ _ eq_refl); [|auto|lia|lia]. cbn [try_ dbind app].
    rewrite (readBytes_N 255 8) by (unfold two32; lia).
    destruct (read_n_cases 255 8 r' ltac:(lia)) as [(c & r2 & Lc & ->)|[E _]]; [|rewrite E; reflexivity].
    rewrite read_n_eq by lia. cbn [need dbind dret]. rewrite lenN_app in L32.
    rewrite (addB bd 5 (a ++ b) (0 + 1 + 1) c _ _ _ _ eq_refl); [|auto|rewrite lenN_app; lia|lia]. cbn [try_ dbind app].
    rewrite (readBytes_N 255 8) by (unfold two32; lia).
    destruct (read_n_cases 255 8 r2 ltac:(lia)) as [(e & r3 & Le & ->)|[E _]]; [|rewrite E; reflexivity].
    rewrite lenN_app in L32. lia.
Qed.
