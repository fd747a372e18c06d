(** Lemmas for the property about changing a file without the password. *)
From Verif Require Import Base BaseFacts BytesModel BytesSpec BytesFacts MiscModel MiscFacts CipherModel CipherSpec CipherFacts CipherFacts2 PwModel ChModel ChSpec HeaderModel HeaderSpec HeaderFacts
  FileModel ApiModel ApiSpec ApiFacts4 ApiFacts7 SecSpec SecFacts TrimSpec.

Lemma ser_split n h : ser n h = u64 n ++ u64 (hdr_len h) ++ dropN 16 (ser n h).
Proof.
  unfold ser, layout_with. set (r := u8 (h_fmode h) ++ _). rewrite (app_assoc (u64 n)). rewrite dropN_app_ge by (rewrite lenN_app, !u64_len; lia).
  rewrite lenN_app, !u64_len. rewrite app_assoc. reflexivity.
Qed.
Lemma ser_resized n m h : u64 m ++ dropN 8 (ser n h) = ser m h.
Proof.
  unfold ser, layout_with. rewrite dropN_app_ge by (rewrite u64_len; lia). rewrite u64_len. reflexivity.
Qed.
Lemma resized_ser n m h x : header_ok h -> resized m (ser n h ++ x) = ser m h ++ x.
Proof.
  intros Hok. unfold resized. rewrite dropN_app_le.
  - rewrite app_assoc, ser_resized. reflexivity.
  - rewrite (ser_split n h), !lenN_app, !u64_len. lia.
Qed.
Lemma clear_ser n h x : header_ok h -> clear_len (ser n h ++ x) = hdr_len h.
Proof.
  intros Hok. unfold clear_len, sliceN. rewrite (ser_split n h), <- !app_assoc. rewrite dropN_app_ge by (rewrite u64_len; lia). rewrite u64_len. change (8 - 8) with 0. rewrite dropN_0.
  change (16 - 8) with 8. rewrite takeN_app_le by (rewrite u64_len; lia). rewrite takeN_all by (rewrite u64_len; lia). apply u64_val.
  pose proof (hdr_len_small h Hok). unfold two64. lia.
Qed.

Section T.
  Context (H : hashes) (HH : hashes_ok H).
  Lemma cipher_take h pw data j : header_ok h -> takeN j (cipher_of H h pw data) = cipher_of H h pw (takeN j data).
  Proof using HH.
    intros Hok. destruct (N.le_gt_cases (lenN data) j) as [G|G].
    - rewrite !takeN_all by (try rewrite (cipher_len H HH h pw data Hok); lia). reflexivity.
    - destruct (cipher_prefix H HH h pw (takeN j data) (dropN j data) Hok) as (r & E). rewrite takeN_dropN in E. rewrite E.
      assert (lenN (cipher_of H h pw (takeN j data)) = j) as L by (rewrite (cipher_len H HH h pw _ Hok), lenN_takeN; lia).
      rewrite takeN_app_le by lia. apply takeN_all. lia.
  Qed.
  Lemma shorten_sealed h pw data c j : sealed H h pw data c -> j <= lenN data -> sealed H h pw (takeN j data) (shorten j c).
  Proof using HH.
    intros (Hok & O & ->) J. split; [exact Hok|]. split; [exact O|]. unfold shorten. rewrite (clear_ser _ h _ Hok), (resized_ser _ _ h _ Hok).
    rewrite takeN_app_ge by (rewrite (ser_len _ h Hok); lia). rewrite (ser_len _ h Hok). replace (hdr_len h + j - hdr_len h) with j by lia.
    rewrite (cipher_take h pw data j Hok), lenN_takeN, N.min_l by exact J. reflexivity.
  Qed.
  (** a body that starts like the one of [p] decrypts to something that starts with [p] *)
  Lemma behind h pw p z : header_ok h -> exists z', lenN z' = lenN z /\ cipher_of H h pw (p ++ z') = cipher_of H h pw p ++ z.
  Proof using HH.
    intros Hok. set (b := cipher_of H h pw p ++ z). set (d := plain_of H h pw b).
    assert (cipher_of H h pw d = b) as E.
    { destruct (header_hash H HH h Hok) as (hf & (Hp & Hl & Hn) & Hf & Hs). unfold d, plain_of, cipher_of. rewrite <- Hf, <- Hs.
      rewrite <- (crypt_spec_enc hf Hp Hl Hn), <- (crypt_spec_dec hf Hp Hl Hn). apply (enc_dec hf Hp Hl Hn). }
    assert (lenN d = lenN p + lenN z) as L by (rewrite <- (cipher_len H HH h pw d Hok), E; unfold b; rewrite lenN_app, (cipher_len H HH h pw p Hok); reflexivity).
    assert (takeN (lenN p) d = p) as P.
    { rewrite <- (plain_of_cipher H HH h pw (takeN (lenN p) d) Hok), <- (cipher_take h pw d _ Hok), E. unfold b.
      rewrite takeN_app_le by (rewrite (cipher_len H HH h pw p Hok); lia). rewrite takeN_all by (rewrite (cipher_len H HH h pw p Hok); lia).
      apply (plain_of_cipher H HH); exact Hok. }
    exists (dropN (lenN p) d). split; [rewrite lenN_dropN; lia|]. rewrite <- P at 1. rewrite takeN_dropN. exact E.
  Qed.
  Lemma lengthen_sealed h pw data c z : sealed H h pw data c -> exists z', lenN z' = lenN z /\ sealed H h pw (data ++ z') (lengthen z c).
  Proof using HH.
    intros (Hok & O & ->). destruct (behind h pw data z Hok) as (z' & L & E). exists z'. split; [exact L|]. split; [exact Hok|]. split; [exact O|].
    unfold lengthen. rewrite (resized_ser _ _ h _ Hok), E, <- app_assoc, !lenN_app, (ser_len _ h Hok), (cipher_len H HH h pw data Hok), L, N.add_assoc. reflexivity.
  Qed.
  Lemma patch_sealed h pw x y z y' c : sealed H h pw (x ++ y ++ z) c -> (exists j, lenN x = j * digest_len (h_hmode h)) -> lenN y <= digest_len (h_hmode h) -> lenN y' = lenN y ->
    exists z', lenN z' = lenN z /\ sealed H h pw (x ++ y' ++ z') (patch (lenN x) y y' c).
  Proof using HH.
    intros (Hok & O & ->) J L L'. destruct (cipher_split H HH h pw x Hok J) as (u & pad & Lu & Lp & C).
    destruct (cipher_prefix H HH h pw (x ++ y) z Hok) as (w & E). rewrite <- app_assoc in E.
    destruct (behind h pw (x ++ y') w Hok) as (z' & Lz & E'). rewrite <- app_assoc in E'. exists z'.
    assert (lenN w = lenN z) as Lw.
    { pose proof (f_equal lenN E) as X. rewrite lenN_app, !(cipher_len H HH h pw _ Hok), !lenN_app in X. lia. }
    split; [lia|]. split; [exact Hok|]. split; [exact O|]. rewrite E, E', !C by lia. unfold patch. rewrite (clear_ser _ h _ Hok).
    set (s := ser _ h). assert (lenN s = hdr_len h) as Ls by (apply ser_len; exact Hok).
    assert (lenN (bsum y pad) = lenN y) as Ly by (rewrite lenN_bsum; lia).
    replace (s ++ (u ++ bsum y pad) ++ w) with ((s ++ u) ++ bsum y pad ++ w) by (rewrite <- !app_assoc; reflexivity).
    assert (lenN (s ++ u) = hdr_len h + lenN x) as Lsu by (rewrite lenN_app; lia).
    rewrite <- Lsu. rewrite takeN_app_exact. unfold sliceN. rewrite dropN_app_exact. replace (lenN (s ++ u) + lenN y - lenN (s ++ u)) with (lenN y) by lia.
    rewrite <- Ly at 1. rewrite takeN_app_exact. rewrite zip_forge by lia.
    rewrite (dropN_app_ge (lenN (s ++ u) + lenN y)) by lia. replace (lenN (s ++ u) + lenN y - lenN (s ++ u)) with (lenN y) by lia.
    replace (dropN (lenN y) (bsum y pad ++ w)) with w by (rewrite <- Ly at 1; rewrite dropN_app_exact; reflexivity). rewrite <- !app_assoc. unfold s. rewrite !lenN_app, L', Lz, Lw. reflexivity.
  Qed.
End T.
Lemma shorten_opens H : hashes_ok H -> forall bd ws p l f h pw data c j t,
  (forall i, at_hand bd H (ws i) p l) -> enc_path p -> sealed H h pw data c -> f l = Some (shorten j c) -> no_empty_block h -> lenN data < 2 ^ 31 -> j <= lenN data ->
  t < 2 ^ 64 -> verify_in_time (ws 1%nat) t (iterations (h_ch1 h)) (iterations (h_ch2 h)) -> patient (ws 2%nat) j ->
  exists b a', calls [(ws 0%nat, OSelect p); (ws 1%nat, OVerify pw t); (ws 2%nat, ODecrypt)] (fresh 1) f = Some ([ROk; ROk; RData (mkFD (Some 1) (Some b))], a', f) /\
    bdata b = takeN j data.
Proof.
  intros HH bd ws p l f h pw data c j t A Ep S F Ne L J Lt T P. pose proof (shorten_sealed H HH h pw data c j S J) as S'.
  assert (lenN (takeN j data) = j) as Lj by (rewrite lenN_takeN; lia).
  destruct (reopen H HH bd ws p l f h pw (takeN j data) _ t A Ep F S' Ne ltac:(lia) Lt T ltac:(rewrite Lj; exact P)) as (b & a' & E & D & _).
  exists b, a'. auto.
Qed.
Lemma patch_opens H : hashes_ok H -> forall bd ws p l f h pw x y z y' c t,
  (forall i, at_hand bd H (ws i) p l) -> enc_path p -> sealed H h pw (x ++ y ++ z) c -> (exists j, lenN x = j * digest_len (h_hmode h)) -> lenN y <= digest_len (h_hmode h) -> lenN y' = lenN y ->
  f l = Some (patch (lenN x) y y' c) -> no_empty_block h -> lenN (x ++ y ++ z) < 2 ^ 31 ->
  t < 2 ^ 64 -> verify_in_time (ws 1%nat) t (iterations (h_ch1 h)) (iterations (h_ch2 h)) -> patient (ws 2%nat) (lenN (x ++ y ++ z)) ->
  exists b z' a', calls [(ws 0%nat, OSelect p); (ws 1%nat, OVerify pw t); (ws 2%nat, ODecrypt)] (fresh 1) f = Some ([ROk; ROk; RData (mkFD (Some 1) (Some b))], a', f) /\
    bdata b = x ++ y' ++ z' /\ lenN z' = lenN z.
Proof.
  intros HH bd ws p l f h pw x y z y' c t A Ep S J Ly Ly' F Ne L Lt T P. destruct (patch_sealed H HH h pw x y z y' c S J Ly Ly') as (z' & Lz & S').
  assert (lenN (x ++ y' ++ z') = lenN (x ++ y ++ z)) as E1 by (rewrite !lenN_app; lia).
  destruct (reopen H HH bd ws p l f h pw (x ++ y' ++ z') _ t A Ep F S' Ne ltac:(lia) Lt T ltac:(rewrite E1; exact P)) as (b & a' & E & D & _).
  exists b, z', a'. auto.
Qed.
Lemma lengthen_opens H : hashes_ok H -> forall bd ws p l f h pw data c z t,
  (forall i, at_hand bd H (ws i) p l) -> enc_path p -> sealed H h pw data c -> f l = Some (lengthen z c) -> no_empty_block h -> lenN data + lenN z < 2 ^ 31 ->
  t < 2 ^ 64 -> verify_in_time (ws 1%nat) t (iterations (h_ch1 h)) (iterations (h_ch2 h)) -> patient (ws 2%nat) (lenN data + lenN z) ->
  exists b z' a', calls [(ws 0%nat, OSelect p); (ws 1%nat, OVerify pw t); (ws 2%nat, ODecrypt)] (fresh 1) f = Some ([ROk; ROk; RData (mkFD (Some 1) (Some b))], a', f) /\
    bdata b = data ++ z' /\ lenN z' = lenN z.
Proof.
  intros HH bd ws p l f h pw data c z t A Ep S F Ne L Lt T P. destruct (lengthen_sealed H HH h pw data c z S) as (z' & Lz & S').
  assert (lenN (data ++ z') = lenN data + lenN z) as E1 by (rewrite lenN_app; lia).
  destruct (reopen H HH bd ws p l f h pw (data ++ z') _ t A Ep F S' Ne ltac:(lia) Lt T ltac:(rewrite E1; exact P)) as (b & a' & E & D & _).
  exists b, z', a'. auto.
Qed.
