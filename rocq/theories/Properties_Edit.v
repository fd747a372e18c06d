(** C113: any number of sittings, and what the file remembers of them. *)
From Coq Require Import Strings.String Lia.
From Verif Require Import Base BaseFacts BytesModel BytesSpec MiscModel CipherModel CipherSpec PwModel PwSpec ChModel ChSpec HeaderModel HeaderSpec Toy FileModel ApiModel ApiSpec
  ApiFacts7 EditSpec EditFacts Properties_Header Properties_File Properties_Api Properties_Sys.

(** every call of every sitting succeeds, each sitting sees the data of the one before, and the file holds the last data *)
Theorem C113_sittings : forall H, hashes_ok H -> forall bd p l, enc_path p -> forall ss h pw data h' pw' data', edits bd H p l h pw data ss h' pw' data' ->
  forall c f, f l = Some c -> sealed H h pw data c -> no_empty_block h -> lenN data < 2 ^ 31 ->
  exists rs f' c', calls (sits p pw ss) (fresh 1) f = Some (rs, fresh 1, f') /\ shows rs = removelast (data :: map (fun s => bdata (si_new s)) ss) /\
    Forall (fun r => succeeded r = true) rs /\
    f' l = Some c' /\ sealed H h' pw' data' c' /\ (forall l', l' <> l -> f' l' = f l').
Proof. exact sittings. Qed.
Print Assumptions C113_sittings.
(** the same from any state, after logging out *)
Theorem C113_from_any_state : forall H, hashes_ok H -> forall bd p l ss h pw data h' pw' data' c f mode tr a w, enc_path p -> history bd H mode tr a ->
  edits bd H p l h pw data ss h' pw' data' -> f l = Some c -> sealed H h pw data c -> no_empty_block h -> lenN data < 2 ^ 31 ->
  exists rs a' f' c', newAPI mode = Ret a' /\ calls ((w, OLogout) :: sits p pw ss) a f = Some (RVoid :: rs, a', f') /\ shows rs = removelast (data :: map (fun s => bdata (si_new s)) ss) /\
    Forall (fun r => succeeded r = true) rs /\
    f' l = Some c' /\ sealed H h' pw' data' c' /\ (forall l', l' <> l -> f' l' = f l').
Proof. exact sittings_any. Qed.
Print Assumptions C113_from_any_state.
(** the file remembers nothing else: sittings that end with the same header, password and data end with the same bytes *)
Theorem C113_only_last : forall H, hashes_ok H -> forall bd p l, enc_path p -> forall h1 pw1 d1 ss1 h2 pw2 d2 ss2 h pw d c1 c2 f1 f2,
  edits bd H p l h1 pw1 d1 ss1 h pw d -> edits bd H p l h2 pw2 d2 ss2 h pw d ->
  f1 l = Some c1 -> sealed H h1 pw1 d1 c1 -> no_empty_block h1 -> lenN d1 < 2 ^ 31 ->
  f2 l = Some c2 -> sealed H h2 pw2 d2 c2 -> no_empty_block h2 -> lenN d2 < 2 ^ 31 ->
  exists rs1 rs2 g1 g2 c, calls (sits p pw1 ss1) (fresh 1) f1 = Some (rs1, fresh 1, g1) /\ calls (sits p pw2 ss2) (fresh 1) f2 = Some (rs2, fresh 1, g2) /\
    g1 l = Some c /\ g2 l = Some c.
Proof. exact only_last. Qed.
Print Assumptions C113_only_last.
(** saving the old data again, without a new salt, brings the old files back byte for byte *)
Theorem C113_undone : forall H, hashes_ok H -> forall bd p l, enc_path p -> forall ss h pw d h' pw' c f,
  edits bd H p l h pw d ss h' pw' d -> Forall (fun s => si_change s = Keep) ss ->
  f l = Some c -> sealed H h pw d c -> no_empty_block h -> lenN d < 2 ^ 31 ->
  exists rs f', calls (sits p pw ss) (fresh 1) f = Some (rs, fresh 1, f') /\ forall l', f' l' = f l'.
Proof. exact undone. Qed.
Print Assumptions C113_undone.
(** so whoever sees two versions with one header sees whether the data are the same *)
Theorem C113_same_version : forall H, hashes_ok H -> forall h pw d1 d2 c1 c2, sealed H h pw d1 c1 -> sealed H h pw d2 c2 -> (c1 = c2 <-> d1 = d2).
Proof. exact same_version. Qed.
Print Assumptions C113_same_version.
(** a new salt makes the versions differ in any case *)
Theorem C113_new_salt : forall H, hashes_ok H -> forall h s pw d1 d2 c1 c2, sealed H h pw d1 c1 -> sealed H (with_salt s h) pw d2 c2 -> no_empty_block h -> lenN d1 < 2 ^ 31 -> lenN d2 < 2 ^ 31 ->
  h_salt h <> s -> c1 <> c2.
Proof. exact other_salt. Qed.
Print Assumptions C113_new_salt.

(** three sittings: new data; new data and a new salt; new data and a new password *)
Definition in_turn (w3 : world) (ch : change) (d : Bytes) : sitting := mkSit (fun i => match i with 3%nat => w3 | _ => ex_world end) 0 ch d.
Definition three : list sitting := [in_turn ex_world Keep data1; in_turn with_ones Resalt data2; in_turn ex_world (Rekey ex_pw2 ex_ds 0) data1].
Definition ex_head3 : header :=
  let h v := mkHeader 1 1 [(7, [x61; x62])] (3, 2, zrnd 8) (2, 3, zrnd 255) v (zrnd 32) [] in
  h (validator ex_hashes (h []) (key_of ex_hashes (h []) ex_pw2)).
Example ex_created : created ex_hashes ex_world ex_ds ex_pw2 ex_head3.
Proof.
  split; [reflexivity|]. split; [reflexivity|]. split; [exists 3, 2; repeat split|]. split; [exists 2, 3; repeat split|].
  split; [reflexivity|]. split; [reflexivity|]. split; [reflexivity|]. vm_compute. reflexivity.
Qed.
Example ex_ones_hand : at_hand Release ex_hashes with_ones a_enc_path (ex_loc a_enc_path).
Proof. split; [exact with_ones_ok|]. split; [repeat split|reflexivity]. Qed.
Lemma ex_unhindered w3 ch d d0 h : at_hand Release ex_hashes w3 a_enc_path (ex_loc a_enc_path) -> lenN d0 <= 100 -> getLen d <= 100 ->
  (forall h', renewed ex_hashes (in_turn w3 ch d) h h' -> hdr_len h' <= 1000) ->
  match ch with Rekey _ ds t => settings_readable ds /\ t < 2 ^ 64 /\ exists it1 it2, s_n1 ds = Some it1 /\ s_n2 ds = Some it2 /\ create_in_time w3 t it1 it2 | _ => True end ->
  unhindered Release ex_hashes a_enc_path (ex_loc a_enc_path) h d0 (in_turn w3 ch d).
Proof.
  intros A L0 L R K. assert (forall n, n <= 100 -> patient ex_world n) as P.
  { intros n Hn. unfold patient. change (w_fuel ex_world) with (N.to_nat 3000). lia. }
  assert (forall t n, ~ reached (fun _ => 0) t n) as NR by (intros t n (T & k & _ & X); lia).
  split; [intros i; cbn; destruct i as [|[|[|[|i]]]]; first [exact A|exact ex_hand]|].
  cbn [si_t si_ws si_new si_change in_turn]. split; [reflexivity|]. split; [split; [apply NR|split; [intros X; exfalso; apply X; reflexivity|apply NR]]|].
  split; [apply P; exact L0|]. split; [change (2 ^ 31) with 2147483648; lia|]. split; [apply P; exact L|].
  split; [|exact K]. intros h' Hr. specialize (R h' Hr). change (w_room ex_world) with 1000000. lia.
Qed.
Example ex_edits : edits Release ex_hashes a_enc_path (ex_loc a_enc_path) ex_head ex_pw (bdata ex_data) three ex_head3 ex_pw2 (bdata data1).
Proof.
  unfold three. eapply ed_sit with (h1 := ex_head).
  - apply ex_unhindered; [exact ex_hand|vm_compute; discriminate|vm_compute; discriminate| |exact I].
    cbn. intros h' ->. vm_compute. discriminate.
  - reflexivity.
  - eapply ed_sit with (h1 := with_salt (w_rnd with_ones 0 (digest_len (h_hmode ex_head))) ex_head).
    + apply ex_unhindered; [exact ex_ones_hand|vm_compute; discriminate|vm_compute; discriminate| |exact I].
      intros h' Hr. unfold renewed in Hr. cbn [in_turn si_change si_ws] in Hr. rewrite Hr. vm_compute. discriminate.
    + reflexivity.
    + eapply ed_sit with (h1 := ex_head3); [|exact ex_created|apply ed_none].
      apply ex_unhindered; [exact ex_hand|vm_compute; discriminate|vm_compute; discriminate| |].
      * intros h' Hr. unfold renewed in Hr. cbn [in_turn si_change si_ws] in Hr. rewrite (created_unique _ _ _ _ _ _ Hr ex_created). vm_compute. discriminate.
      * assert (forall t n, ~ reached (fun _ => 0) t n) as NR by (intros t n (T & k & _ & X); lia).
        split; [exact ex_ds_ok|]. split; [reflexivity|]. exists 2, 3. split; [reflexivity|]. split; [reflexivity|].
        split; [apply NR|split; [intros X; exfalso; apply X; reflexivity|apply NR]].
Qed.
Example C113_ex : exists rs f', calls (sits a_enc_path ex_pw three) (fresh 1) ex_files = Some (rs, fresh 1, f') /\
  shows rs = [bdata ex_data; bdata data1; bdata data2].
Proof.
  destruct (C113_sittings ex_hashes ex_hashes_ok _ _ _ a_enc_path_ok _ _ _ _ _ _ _ ex_edits ex_file ex_files) as (rs & f' & c' & E & S' & _).
  - reflexivity.
  - exact ex_file_ok.
  - apply ex_head_ok.
  - vm_compute. reflexivity.
  - exists rs, f'. split; [exact E|exact S'].
Qed.
(** back to the old data *)
Definition there_and_back : list sitting := [in_turn ex_world Keep data2; in_turn ex_world Keep ex_data].
Example C113_ex_undone : exists rs f', calls (sits a_enc_path ex_pw there_and_back) (fresh 1) ex_files = Some (rs, fresh 1, f') /\ f' (ex_loc a_enc_path) = Some ex_file.
Proof.
  assert (edits Release ex_hashes a_enc_path (ex_loc a_enc_path) ex_head ex_pw (bdata ex_data) there_and_back ex_head ex_pw (bdata ex_data)) as E.
  { unfold there_and_back. eapply ed_sit with (h1 := ex_head); [|reflexivity|eapply ed_sit with (h1 := ex_head); [|reflexivity|apply ed_none]];
      (apply ex_unhindered; [exact ex_hand|vm_compute; discriminate|vm_compute; discriminate| |exact I]; cbn; intros h' ->; vm_compute; discriminate). }
  destruct (C113_undone ex_hashes ex_hashes_ok _ _ _ a_enc_path_ok _ _ _ _ _ _ ex_file ex_files E) as (rs & f' & X & Y).
  - repeat constructor.
  - reflexivity.
  - exact ex_file_ok.
  - apply ex_head_ok.
  - vm_compute. reflexivity.
  - exists rs, f'. split; [exact X|]. rewrite Y. reflexivity.
Qed.
Example C113_ex_salt : h_salt ex_head <> ones 32 /\ cipher_of ex_hashes (with_salt (ones 32) ex_head) ex_pw (bdata ex_data) <> cipher_of ex_hashes ex_head ex_pw (bdata ex_data).
Proof. split; vm_compute; discriminate. Qed.
