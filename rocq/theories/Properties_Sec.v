(** Properties C61-C63: what protects a file and what does not. *)
From Coq Require Import Strings.String.
From Verif Require Import Base BaseFacts BytesModel BytesSpec MiscModel CipherModel CipherSpec PwModel PwSpec ChModel ChSpec HeaderModel HeaderSpec Toy FileModel ApiModel ApiSpec SecSpec
  SecFacts ApiFacts9 Properties_Header Properties_File Properties_Api.

(** C61 *)
Theorem C61_accepted_password : forall H, hashes_ok H -> forall bd mode tr a w f p c h pw data pw' t f' a',
  history bd H mode tr a -> world_ok bd H w -> t < 2 ^ 64 -> selected tr = Some (p, c) -> sealed H h pw data c -> no_empty_block h -> lenN data < 2 ^ 31 ->
  step w a f (OVerify pw' t) = (f', Ret (a', ROk)) -> pw' = pw \/ collide H h pw pw'.
Proof. exact accepted_password. Qed.
Print Assumptions C61_accepted_password.
(** the digest of the Examples has collisions that are easy to find, so another password is accepted *)
Definition twin_pw : bytes := [x72; x84; x63; x72; x65; x74].
Example C61_ex : twin_pw <> ex_pw /\ sealed ex_hashes ex_head ex_pw (bdata ex_data) ex_file /\
  check_rounds ex_head = 5 /\ check_input ex_hashes ex_head ex_pw 0 = ex_pw ++ str "506381209866536711" /\ check_input ex_hashes ex_head twin_pw 0 = twin_pw ++ str "506381209866536711" /\
  hash_of ex_hashes 1 (ex_pw ++ str "506381209866536711") = hash_of ex_hashes 1 (twin_pw ++ str "506381209866536711") /\
  exists tr a, history Release ex_hashes 1 tr a /\ selected tr = Some (a_enc_path, ex_file) /\
    match step ex_world a ex_files (OVerify twin_pw 0) with (_, Ret (_, ROk)) => True | _ => False end.
Proof.
  split; [discriminate|]. split; [exact ex_file_ok|]. split; [reflexivity|]. split; [vm_compute; reflexivity|]. split; [vm_compute; reflexivity|]. split; [vm_compute; reflexivity|].
  history_of [OSelect a_enc_path]. auto.
Qed.

(** C62 *)
Theorem C62_same_salt_leaks : forall H, hashes_ok H -> forall h pw p1 p2 x y1 y2 z1 z2, header_ok h -> split_at (digest_len (h_hmode h)) p1 p2 x y1 y2 z1 z2 ->
  leaks (cipher_of H h pw p1) (cipher_of H h pw p2) x y1 y2.
Proof. exact cipher_leak. Qed.
Print Assumptions C62_same_salt_leaks.
(** saving again uses the same header, and so the same salt and key *)
Theorem C62_saving_keeps_the_salt : forall H, hashes_ok H -> forall bd ws p l f h pw data c new t,
  (forall i, at_hand bd H (ws i) p l) -> enc_path p -> f l = Some c -> sealed H h pw data c -> no_empty_block h -> lenN data < 2 ^ 31 ->
  t < 2 ^ 64 -> verify_in_time (ws 1%nat) t (iterations (h_ch1 h)) (iterations (h_ch2 h)) -> patient (ws 2%nat) (lenN data) ->
  getLen new < 2 ^ 31 -> patient (ws 3%nat) (getLen new) -> hdr_len h + getLen new <= w_room (ws 4%nat) ->
  exists b c' a' f', calls [(ws 0%nat, OSelect p); (ws 1%nat, OVerify pw t); (ws 2%nat, ODecrypt); (ws 3%nat, OEncrypt (text new)); (ws 4%nat, OWrite)] (fresh 1) f =
      Some ([ROk; ROk; RData (mkFD (Some 1) (Some b)); ROk; ROk], a', f') /\ bdata b = data /\ f' l = Some c' /\ sealed H h pw (bdata new) c'.
Proof. exact resave. Qed.
Print Assumptions C62_saving_keeps_the_salt.
(** two versions of a file that differ first in byte 35: the old and the new file differ there by 1 and agree before *)
Definition ex_new : Bytes := fromArray (str "my passwords, in a file that is lonhes and something else").
Example C62_ex :
  split_at 32 (bdata ex_data) (bdata ex_new) (takeN 32 (bdata ex_data)) (str "longer") (str "lonhes") (dropN 38 (bdata ex_data)) (str " and something else") /\
  match calls (map (pair ex_world) [OSelect a_enc_path; OVerify ex_pw 0; ODecrypt; OEncrypt (text ex_new); OWrite]) (fresh 1) ex_files with
  | Some ([ROk; ROk; RData _; ROk; ROk], _, f') => match f' (ex_loc a_enc_path) with
      | Some c => bdiff (sliceN 156 162 c) (sliceN 156 162 ex_file) = bdiff (str "lonhes") (str "longer") /\ sliceN 16 156 c = sliceN 16 156 ex_file
      | None => False end
  | _ => False
  end.
Proof.
  split.
  - split; [reflexivity|]. split; [reflexivity|]. split; [exists 1; reflexivity|]. split; [reflexivity|]. vm_compute. discriminate.
  - vm_compute. auto.
Qed.

(** C63 *)
Theorem C63_forged_file_opens : forall H, hashes_ok H -> forall h pw x y y' c, sealed H h pw (x ++ y) c -> (exists j, lenN x = j * digest_len (h_hmode h)) ->
  lenN y <= digest_len (h_hmode h) -> lenN y' = lenN y -> sealed H h pw (x ++ y') (forge y y' c).
Proof. exact forge_sealed. Qed.
Print Assumptions C63_forged_file_opens.
(** whatever stands behind the header is accepted *)
Theorem C63_any_body_is_sealed : forall H, hashes_ok H -> forall h pw body, header_ok h -> opens H h pw ->
  sealed H h pw (plain_of H h pw body) (ser (hdr_len h + lenN body) h ++ body) /\ lenN (plain_of H h pw body) = lenN body.
Proof. exact any_body. Qed.
Print Assumptions C63_any_body_is_sealed.
Theorem C63_any_body_opens : forall H, hashes_ok H -> forall bd ws p l f h pw body t,
  (forall i, at_hand bd H (ws i) p l) -> enc_path p -> f l = Some (ser (hdr_len h + lenN body) h ++ body) -> header_ok h -> opens H h pw -> no_empty_block h -> lenN body < 2 ^ 31 ->
  t < 2 ^ 64 -> verify_in_time (ws 1%nat) t (iterations (h_ch1 h)) (iterations (h_ch2 h)) -> patient (ws 2%nat) (lenN body) ->
  exists b a', calls [(ws 0%nat, OSelect p); (ws 1%nat, OVerify pw t); (ws 2%nat, ODecrypt)] (fresh 1) f = Some ([ROk; ROk; RData (mkFD (Some 1) (Some b))], a', f) /\
    bdata b = plain_of H h pw body /\ lenN (bdata b) = lenN body.
Proof. exact any_body_opens. Qed.
Print Assumptions C63_any_body_opens.
(** the end of the file is turned into something else without the password *)
Example C63_ex : bdata ex_data = takeN 64 (bdata ex_data) ++ str "her" /\ sealed ex_hashes ex_head ex_pw (bdata ex_data) ex_file /\
  match calls (map (pair ex_world) opening) (fresh 1) (one_file (forge (str "her") (str "log") ex_file)) with
  | Some ([ROk; ROk; RData (mkFD _ (Some b))], _, _) => bdata b = takeN 64 (bdata ex_data) ++ str "log"
  | _ => False
  end.
Proof. split; [vm_compute; reflexivity|]. split; [exact ex_file_ok|]. vm_compute. reflexivity. Qed.
