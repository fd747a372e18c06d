(** C114: how often renewed salts repeat, and what a repetition does. *)
From Coq Require Import Strings.String Lia.
From Verif Require Import Base BaseFacts BytesModel BytesSpec MiscModel CipherModel CipherSpec PwModel PwSpec ChModel ChSpec HeaderModel HeaderSpec Toy FileModel ApiModel ApiSpec
  CountSpec CountFacts EditSpec EditFacts SaltSpec SaltFacts Properties_Header Properties_File Properties_Api Properties_Sys Properties_Edit.

(** of all the byte sequences a generator can deliver for [k] salts of [n] bytes, exactly these many contain a salt twice *)
Theorem C114_number : forall n k, exists u, number (N.of_nat k * n) (repeats n k) u /\ u + falling (256 ^ n) k = 256 ^ (N.of_nat k * n).
Proof. exact repeats_number. Qed.
Print Assumptions C114_number.
(** at most k (k - 1) / 2 in 256^n *)
Theorem C114_bound : forall n k u, number (N.of_nat k * n) (repeats n k) u -> 2 * 256 ^ n * u <= N.of_nat k * (N.of_nat k - 1) * 256 ^ (N.of_nat k * n).
Proof. exact repeats_bound. Qed.
Print Assumptions C114_bound.
(** more salts than there are values repeat for certain *)
Theorem C114_certain : forall n k l, lenN l = N.of_nat k * n -> 256 ^ n < N.of_nat k -> repeats n k l.
Proof. exact repeats_certain. Qed.
Print Assumptions C114_certain.
(** sittings that renew the salt each time leave the header as it was apart from the last salt drawn *)
Theorem C114_header : forall bd H p lo n ss l h pw d h' pw' d', digest_len (h_hmode h) = n -> draws_from n l ss -> edits bd H p lo h pw d ss h' pw' d' ->
  pw' = pw /\ h' = match List.length ss with O => h | S k => with_salt (draw n l k) h end.
Proof. exact resalted. Qed.
Print Assumptions C114_header.
(** two versions of the file are the same exactly if they hold the same data and their salts are the same draw *)
Theorem C114_versions : forall H, hashes_ok H -> forall bd p lo n l h pw d ss1 ts1 ss2 ts2 i j h1 pw1 d1 c1 h2 pw2 d2 c2,
  digest_len (h_hmode h) = n -> no_empty_block h ->
  draws_from n l (ss1 ++ ts1) -> ss1 ++ ts1 = ss2 ++ ts2 -> List.length ss1 = S i -> List.length ss2 = S j ->
  edits bd H p lo h pw d ss1 h1 pw1 d1 -> sealed H h1 pw1 d1 c1 -> lenN d1 < 2 ^ 31 ->
  edits bd H p lo h pw d ss2 h2 pw2 d2 -> sealed H h2 pw2 d2 c2 -> lenN d2 < 2 ^ 31 ->
  (c1 = c2 <-> draw n l i = draw n l j /\ d1 = d2).
Proof. exact versions. Qed.
Print Assumptions C114_versions.

(** two salts of 32 bytes are the same for one sequence in 256^32 *)
Example C114_ex_two : number (N.of_nat 2 * 32) (repeats 32 2) (256 ^ 32).
Proof.
  destruct (C114_number 32 2) as (u & U & E). assert (256 ^ 32 + falling (256 ^ 32) 2 = 256 ^ (N.of_nat 2 * 32)) as F by (vm_compute; reflexivity).
  rewrite <- E in F. apply N.add_cancel_r in F. rewrite F. exact U.
Qed.
(** a million sittings repeat a salt of 32 bytes for less than one sequence in 2^216 *)
Example C114_ex_million : forall u, number (N.of_nat (N.to_nat 1000000) * 32) (repeats 32 (N.to_nat 1000000)) u -> 2 ^ 216 * u <= 256 ^ (1000000 * 32).
Proof.
  intros u U. apply C114_bound in U. rewrite N2Nat.id in U. remember (256 ^ (1000000 * 32)) as T eqn:ET. clear ET.
  change (2 * 256 ^ 32) with (2 ^ 41 * 2 ^ 216) in U. change (1000000 * (1000000 - 1)) with 999999000000 in U.
  assert (2 ^ 41 * (2 ^ 216 * u) <= 2 ^ 41 * T) as V; [|apply (N.mul_le_mono_pos_l _ _ (2 ^ 41)); [reflexivity|exact V]].
  rewrite N.mul_assoc. change (2 ^ 41) with 2199023255552 in *. lia.
Qed.
(** a chain of 257 one-byte draws *)
Example C114_ex_certain : repeats 1 (N.to_nat 257) (repeat x00 (N.to_nat 257)).
Proof. apply C114_certain; [vm_compute; reflexivity|vm_compute; reflexivity]. Qed.
(** not every longer sequence repeats *)
Example C114_ex_distinct : ~ repeats 1 3 [x01; x02; x03] /\ repeats 1 3 [x01; x02; x01].
Proof.
  split; [|exists 0%nat, 2%nat; split; [lia|reflexivity]].
  intros (i & j & [A B] & E). destruct j as [|[|[|j]]]; [lia| | |lia]; destruct i as [|[|i]]; try lia; discriminate E.
Qed.
(** two sittings that save the same data, with the same salt drawn twice and with two salts *)
Definition twice (w1 w2 : world) : list sitting := [in_turn w1 Resalt data1; in_turn w2 Resalt data1].
Lemma ex_resalts w1 w2 : at_hand Release ex_hashes w1 a_enc_path (ex_loc a_enc_path) -> at_hand Release ex_hashes w2 a_enc_path (ex_loc a_enc_path) ->
  hdr_len (with_salt (w_rnd w1 0 32) ex_head) <= 1000 -> hdr_len (with_salt (w_rnd w2 0 32) ex_head) <= 1000 ->
  edits Release ex_hashes a_enc_path (ex_loc a_enc_path) ex_head ex_pw (bdata ex_data) [in_turn w1 Resalt data1] (with_salt (w_rnd w1 0 32) ex_head) ex_pw (bdata data1) /\
  edits Release ex_hashes a_enc_path (ex_loc a_enc_path) ex_head ex_pw (bdata ex_data) (twice w1 w2) (with_salt (w_rnd w2 0 32) ex_head) ex_pw (bdata data1).
Proof.
  intros A1 A2 L1 L2.
  assert (forall w d0 h, at_hand Release ex_hashes w a_enc_path (ex_loc a_enc_path) -> lenN d0 <= 100 -> h_hmode h = 1 -> with_salt (w_rnd w 0 32) h = with_salt (w_rnd w 0 32) ex_head ->
    hdr_len (with_salt (w_rnd w 0 32) ex_head) <= 1000 -> unhindered Release ex_hashes a_enc_path (ex_loc a_enc_path) h d0 (in_turn w Resalt data1)) as U.
  { intros w d0 h A L M Es Lh. apply ex_unhindered; [exact A|exact L|vm_compute; discriminate| |exact I].
    intros h' Hr. unfold renewed in Hr. cbn [in_turn si_change si_ws] in Hr. rewrite M in Hr. change (digest_len 1) with 32 in Hr. rewrite Hr, Es. exact Lh. }
  split.
  - eapply ed_sit; [apply U; [exact A1|vm_compute; discriminate|reflexivity|reflexivity|exact L1]|reflexivity|apply ed_none].
  - eapply ed_sit; [apply U; [exact A1|vm_compute; discriminate|reflexivity|reflexivity|exact L1]|reflexivity|].
    eapply ed_sit; [apply U; [exact A2|vm_compute; discriminate|reflexivity|reflexivity|exact L2]|reflexivity|apply ed_none].
Qed.
Example ex_draws : draws_from 32 (ones 32 ++ ones 32) (twice with_ones with_ones) /\ draws_from 32 (ones 32 ++ w_rnd ex_world 0 32) (twice with_ones ex_world).
Proof.
  split; intros i s E; destruct i as [|[|i]]; cbn in E;
    [injection E as <-|injection E as <-|destruct i; discriminate E|injection E as <-|injection E as <-|destruct i; discriminate E]; (split; [reflexivity|vm_compute; reflexivity]).
Qed.
Example C114_ex_versions : exists rs1 f1 rs2 f2 rs3 f3,
  calls (sits a_enc_path ex_pw [in_turn with_ones Resalt data1]) (fresh 1) ex_files = Some (rs1, fresh 1, f1) /\
  calls (sits a_enc_path ex_pw (twice with_ones with_ones)) (fresh 1) ex_files = Some (rs2, fresh 1, f2) /\
  calls (sits a_enc_path ex_pw (twice with_ones ex_world)) (fresh 1) ex_files = Some (rs3, fresh 1, f3) /\
  f1 (ex_loc a_enc_path) = f2 (ex_loc a_enc_path) /\ f1 (ex_loc a_enc_path) <> f3 (ex_loc a_enc_path).
Proof.
  destruct (ex_resalts with_ones with_ones ex_ones_hand ex_ones_hand ltac:(vm_compute; discriminate) ltac:(vm_compute; discriminate)) as [E1 E2].
  destruct (ex_resalts with_ones ex_world ex_ones_hand ex_hand ltac:(vm_compute; discriminate) ltac:(vm_compute; discriminate)) as [_ E3].
  assert (lenN (bdata ex_data) < 2 ^ 31) as L by (vm_compute; reflexivity). assert (lenN (bdata data1) < 2 ^ 31) as L1 by (vm_compute; reflexivity).
  assert (no_empty_block ex_head) as Ne by apply ex_head_ok.
  destruct (C113_sittings _ ex_hashes_ok _ _ _ a_enc_path_ok _ _ _ _ _ _ _ E1 ex_file ex_files eq_refl ex_file_ok Ne L) as (rs1 & f1 & c1 & X1 & _ & _ & F1 & S1 & _).
  destruct (C113_sittings _ ex_hashes_ok _ _ _ a_enc_path_ok _ _ _ _ _ _ _ E2 ex_file ex_files eq_refl ex_file_ok Ne L) as (rs2 & f2 & c2 & X2 & _ & _ & F2 & S2 & _).
  destruct (C113_sittings _ ex_hashes_ok _ _ _ a_enc_path_ok _ _ _ _ _ _ _ E3 ex_file ex_files eq_refl ex_file_ok Ne L) as (rs3 & f3 & c3 & X3 & _ & _ & F3 & S3 & _).
  exists rs1, f1, rs2, f2, rs3, f3. split; [exact X1|]. split; [exact X2|]. split; [exact X3|]. rewrite F1, F2, F3. split.
  - f_equal. apply (C114_versions _ ex_hashes_ok Release a_enc_path (ex_loc a_enc_path) 32 (ones 32 ++ ones 32) ex_head ex_pw (bdata ex_data)
      [in_turn with_ones Resalt data1] [in_turn with_ones Resalt data1] (twice with_ones with_ones) [] 0 1 _ _ _ c1 _ _ _ c2 eq_refl Ne (proj1 ex_draws) eq_refl eq_refl eq_refl E1 S1 L1 E2 S2 L1).
    split; vm_compute; reflexivity.
  - intros E. injection E as E.
    apply (C114_versions _ ex_hashes_ok Release a_enc_path (ex_loc a_enc_path) 32 (ones 32 ++ w_rnd ex_world 0 32) ex_head ex_pw (bdata ex_data)
      [in_turn with_ones Resalt data1] [in_turn ex_world Resalt data1] (twice with_ones ex_world) [] 0 1 _ _ _ c1 _ _ _ c3 eq_refl Ne (proj2 ex_draws) eq_refl eq_refl eq_refl E1 S1 L1 E3 S3 L1) in E.
    destruct E as [E _]. vm_compute in E. discriminate E.
Qed.
