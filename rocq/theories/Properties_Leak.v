(** Property C93: files whose chain hashes use no salt. *)
From Coq Require Import Strings.String.
From Verif Require Import Base BaseFacts BytesModel BytesSpec MiscModel CipherModel CipherSpec PwModel PwSpec ChModel ChSpec HeaderModel HeaderSpec Toy FileModel ApiModel ApiSpec SecSpec RefSpec LeakSpec
  LeakFacts ApiFacts9 Properties_Header Properties_File Properties_Api.

(** a file gives away the data of every other file with the same password and more rounds in its first chain hash *)
Theorem C93_old_opens_new : forall H, hashes_ok H -> forall bd ha hb pw da db ca cb, sealed H ha pw da ca -> sealed H hb pw db cb ->
  no_empty_block ha -> no_empty_block hb -> lenN da < 2 ^ 31 -> lenN db < 2 ^ 31 ->
  unsalted ha = true -> plain_mode (h_ch1 hb) = true -> h_hmode ha = h_hmode hb -> check_rounds ha <= iterations (h_ch1 hb) -> crack bd H ca cb = Some db.
Proof. exact old_opens_new. Qed.
Print Assumptions C93_old_opens_new.
(** so a new header with more rounds for the old password makes the file readable for everyone who has the old file *)
Theorem C93_more_rounds : forall H, hashes_ok H -> forall bd h0 h pw data0 data c0 c w ds, sealed H h0 pw data0 c0 -> no_empty_block h0 -> lenN data0 < 2 ^ 31 -> unsalted h0 = true ->
  settings_readable ds -> created H w ds pw h -> sealed H h pw data c -> lenN data < 2 ^ 31 ->
  s_ch1 ds = Some 1 -> s_hmode ds = Some (h_hmode h0) -> (forall n, s_n1 ds = Some n -> check_rounds h0 <= n) -> crack bd H c0 c = Some data.
Proof. exact more_rounds. Qed.
Print Assumptions C93_more_rounds.
(** two files with one password can be recognised *)
Theorem C93_linked : forall H, hashes_ok H -> forall bd ha hb pw da db ca cb, sealed H ha pw da ca -> sealed H hb pw db cb ->
  no_empty_block ha -> no_empty_block hb -> lenN da < 2 ^ 31 -> lenN db < 2 ^ 31 ->
  unsalted ha = true -> unsalted hb = true -> h_hmode ha = h_hmode hb -> check_rounds ha <= check_rounds hb -> linked bd H ca cb = true.
Proof. exact same_password_linked. Qed.
Print Assumptions C93_linked.
(** who can write the file replaces it by one with data of his choice that takes the same password *)
Theorem C93_planted : forall H, hashes_ok H -> forall bd h pw data c data', sealed H h pw data c -> no_empty_block h -> lenN data < 2 ^ 31 ->
  unsalted h = true -> check_rounds h <= 1000000000 -> exists c', plant bd H c data' = Some c' /\ sealed H (planted H h) pw data' c'.
Proof. exact plant_sealed. Qed.
Print Assumptions C93_planted.
(** and reads what is saved into it later *)
Theorem C93_planted_session : forall H, hashes_ok H -> forall bd ws p l f h pw data c data' c' new t, (forall i, at_hand bd H (ws i) p l) -> enc_path p ->
  sealed H h pw data c -> no_empty_block h -> lenN data < 2 ^ 31 -> unsalted h = true -> check_rounds h <= 1000000000 ->
  plant bd H c data' = Some c' -> f l = Some c' -> lenN data' < 2 ^ 31 ->
  t < 2 ^ 64 -> verify_in_time (ws 1%nat) t (check_rounds h) 1 -> patient (ws 2%nat) (lenN data') ->
  getLen new < 2 ^ 31 -> patient (ws 3%nat) (getLen new) -> hdr_len (planted H h) + getLen new <= w_room (ws 4%nat) ->
  exists b c2 a' f', calls [(ws 0%nat, OSelect p); (ws 1%nat, OVerify pw t); (ws 2%nat, ODecrypt); (ws 3%nat, OEncrypt (text new)); (ws 4%nat, OWrite)] (fresh 1) f =
      Some ([ROk; ROk; RData (mkFD (Some 1) (Some b)); ROk; ROk], a', f') /\ bdata b = data' /\ f' l = Some c2 /\ tap bd H c c2 = Some (bdata new).
Proof. exact planted_session. Qed.
Print Assumptions C93_planted_session.
(** a salt of zeros and one round without salt in the second chain hash: the file is readable by itself *)
Theorem C93_zero_salt : forall H, hashes_ok H -> forall bd h pw data c, sealed H h pw data c -> no_empty_block h -> lenN data < 2 ^ 31 ->
  h_salt h = zeros h -> plain_mode (h_ch2 h) = true -> iterations (h_ch2 h) = 1 -> unzip bd H c = Some data.
Proof. exact unzip_sealed. Qed.
Print Assumptions C93_zero_salt.
(** who writes zeros over the salt reads what is saved later, also if the first chain hash has a salt *)
Theorem C93_zero_session : forall H, hashes_ok H -> forall bd ws p l f h pw data c c' new t, (forall i, at_hand bd H (ws i) p l) -> enc_path p ->
  sealed H h pw data c -> no_empty_block h -> lenN data < 2 ^ 31 -> plain_mode (h_ch2 h) = true -> iterations (h_ch2 h) = 1 ->
  set_zero bd c = Some c' -> f l = Some c' ->
  t < 2 ^ 64 -> verify_in_time (ws 1%nat) t (iterations (h_ch1 h)) 1 -> patient (ws 2%nat) (lenN data) ->
  getLen new < 2 ^ 31 -> patient (ws 3%nat) (getLen new) -> hdr_len h + getLen new <= w_room (ws 4%nat) ->
  exists b c2 a' f', calls [(ws 0%nat, OSelect p); (ws 1%nat, OVerify pw t); (ws 2%nat, ODecrypt); (ws 3%nat, OEncrypt (text new)); (ws 4%nat, OWrite)] (fresh 1) f =
      Some ([ROk; ROk; RData (mkFD (Some 1) (Some b)); ROk; ROk], a', f') /\ lenN (bdata b) = lenN data /\ f' l = Some c2 /\ unzip bd H c2 = Some (bdata new).
Proof. exact zero_session. Qed.
Print Assumptions C93_zero_session.

(** a file with 2 + 3 rounds, one with 6 + 1 rounds for the same password and one for another password *)
Definition plain_head (pw : bytes) (n1 n2 : N) : header :=
  let h v := mkHeader 1 1 [(7, [x61; x62])] (1, n1, []) (1, n2, []) v (zrnd 32) [] in
  h (validator ex_hashes (h []) (key_of ex_hashes (h []) pw)).
Definition sealed_file (h : header) (pw data : bytes) : bytes := ser (hdr_len h + lenN data) h ++ cipher_of ex_hashes h pw data.
Definition old_file : bytes := sealed_file (plain_head ex_pw 2 3) ex_pw (str "old").
Definition new_file : bytes := sealed_file (plain_head ex_pw 6 1) ex_pw (bdata ex_data).
Definition other_file : bytes := sealed_file (plain_head ex_pw2 6 1) ex_pw2 (bdata ex_data).
Example plain_ok : sealed ex_hashes (plain_head ex_pw 2 3) ex_pw (str "old") old_file /\ sealed ex_hashes (plain_head ex_pw 6 1) ex_pw (bdata ex_data) new_file /\
  no_empty_block (plain_head ex_pw 2 3) /\ no_empty_block (plain_head ex_pw 6 1).
Proof.
  split; [split; [unfold plain_head; header_tac|split; [vm_compute; reflexivity|reflexivity]]|].
  split; [split; [unfold plain_head; header_tac|split; [vm_compute; reflexivity|reflexivity]]|].
  split; (constructor; [discriminate|constructor]).
Qed.
Example C93_ex : unsalted (plain_head ex_pw 2 3) = true /\ check_rounds (plain_head ex_pw 2 3) = 5 /\
  crack Release ex_hashes old_file new_file = Some (bdata ex_data) /\ linked Release ex_hashes old_file new_file = true /\
  crack Release ex_hashes new_file old_file = None /\ linked Release ex_hashes old_file other_file = false /\ crack Release ex_hashes old_file other_file <> Some (bdata ex_data).
Proof. vm_compute. repeat split. discriminate. Qed.
Example C93_planted_ex :
  match plant Release ex_hashes old_file (str "planted") with
  | Some c' =>
      match calls (map (pair ex_world) (opening ++ [OEncrypt (text ex_data); OWrite])) (fresh 1) (one_file c') with
      | Some ([ROk; ROk; RData (mkFD _ (Some b)); ROk; ROk], _, f') =>
          bdata b = str "planted" /\ match f' (ex_loc a_enc_path) with Some c2 => tap Release ex_hashes old_file c2 = Some (bdata ex_data) | None => False end
      | _ => False
      end
  | None => False
  end.
Proof. vm_compute. auto. Qed.
(** a new file without data whose first chain hash has a salt *)
Definition bare_head : header :=
  let h v := mkHeader 1 1 [] (3, 2, zrnd 8) (1, 1, []) v (zrnd 32) [] in h (validator ex_hashes (h []) (key_of ex_hashes (h []) ex_pw)).
Example bare_ok : sealed ex_hashes bare_head ex_pw [] (sealed_file bare_head ex_pw []) /\ no_empty_block bare_head.
Proof. split; [split; [unfold bare_head; header_tac|split; [vm_compute; reflexivity|reflexivity]]|constructor]. Qed.
Example C93_zero_ex : plain_mode (h_ch2 bare_head) = true /\ plain_mode (h_ch1 bare_head) = false /\ iterations (h_ch2 bare_head) = 1 /\
  match set_zero Release (sealed_file bare_head ex_pw []) with
  | Some c' =>
      match calls (map (pair ex_world) (opening ++ [OEncrypt (text ex_data); OWrite])) (fresh 1) (one_file c') with
      | Some ([ROk; ROk; RData (mkFD _ (Some b)); ROk; ROk], _, f') =>
          bdata b = [] /\ match f' (ex_loc a_enc_path) with Some c2 => unzip Release ex_hashes c2 = Some (bdata ex_data) | None => False end
      | _ => False
      end
  | None => False
  end.
Proof. vm_compute. auto. Qed.
