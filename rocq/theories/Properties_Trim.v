(** Property C116: what a file becomes in the hands of someone without the password. *)
From Coq Require Import Strings.String.
From Verif Require Import Base BaseFacts BytesModel BytesSpec MiscModel CipherModel CipherSpec PwModel PwSpec ChModel ChSpec HeaderModel HeaderSpec Toy FileModel ApiModel ApiSpec SecSpec TrimSpec
  TrimFacts ApiFacts9 Properties_Header Properties_File Properties_Api.

Theorem C116_shortened_file : forall H, hashes_ok H -> forall h pw data c j, sealed H h pw data c -> j <= lenN data -> sealed H h pw (takeN j data) (shorten j c).
Proof. exact shorten_sealed. Qed.
Print Assumptions C116_shortened_file.
Theorem C116_shortened_opens : forall H, hashes_ok H -> forall bd ws p l f h pw data c j t,
  (forall i, at_hand bd H (ws i) p l) -> enc_path p -> sealed H h pw data c -> f l = Some (shorten j c) -> no_empty_block h -> lenN data < 2 ^ 31 -> j <= lenN data ->
  t < 2 ^ 64 -> verify_in_time (ws 1%nat) t (iterations (h_ch1 h)) (iterations (h_ch2 h)) -> patient (ws 2%nat) j ->
  exists b a', calls [(ws 0%nat, OSelect p); (ws 1%nat, OVerify pw t); (ws 2%nat, ODecrypt)] (fresh 1) f = Some ([ROk; ROk; RData (mkFD (Some 1) (Some b))], a', f) /\
    bdata b = takeN j data.
Proof. exact shorten_opens. Qed.
Print Assumptions C116_shortened_opens.
Theorem C116_lengthened_opens : forall H, hashes_ok H -> forall bd ws p l f h pw data c z t,
  (forall i, at_hand bd H (ws i) p l) -> enc_path p -> sealed H h pw data c -> f l = Some (lengthen z c) -> no_empty_block h -> lenN data + lenN z < 2 ^ 31 ->
  t < 2 ^ 64 -> verify_in_time (ws 1%nat) t (iterations (h_ch1 h)) (iterations (h_ch2 h)) -> patient (ws 2%nat) (lenN data + lenN z) ->
  exists b z' a', calls [(ws 0%nat, OSelect p); (ws 1%nat, OVerify pw t); (ws 2%nat, ODecrypt)] (fresh 1) f = Some ([ROk; ROk; RData (mkFD (Some 1) (Some b))], a', f) /\
    bdata b = data ++ z' /\ lenN z' = lenN z.
Proof. exact lengthen_opens. Qed.
Print Assumptions C116_lengthened_opens.
Theorem C116_patched_opens : forall H, hashes_ok H -> forall bd ws p l f h pw x y z y' c t,
  (forall i, at_hand bd H (ws i) p l) -> enc_path p -> sealed H h pw (x ++ y ++ z) c -> (exists j, lenN x = j * digest_len (h_hmode h)) -> lenN y <= digest_len (h_hmode h) -> lenN y' = lenN y ->
  f l = Some (patch (lenN x) y y' c) -> no_empty_block h -> lenN (x ++ y ++ z) < 2 ^ 31 ->
  t < 2 ^ 64 -> verify_in_time (ws 1%nat) t (iterations (h_ch1 h)) (iterations (h_ch2 h)) -> patient (ws 2%nat) (lenN (x ++ y ++ z)) ->
  exists b z' a', calls [(ws 0%nat, OSelect p); (ws 1%nat, OVerify pw t); (ws 2%nat, ODecrypt)] (fresh 1) f = Some ([ROk; ROk; RData (mkFD (Some 1) (Some b))], a', f) /\
    bdata b = x ++ y' ++ z' /\ lenN z' = lenN z.
Proof. exact patch_opens. Qed.
Print Assumptions C116_patched_opens.
(** the file of the Examples, cut off after its first twelve bytes; with three bytes behind it; with a word in its second block exchanged *)
Definition shown_by (c : bytes) : option bytes :=
  match calls (map (pair ex_world) opening) (fresh 1) (one_file c) with
  | Some ([ROk; ROk; RData (mkFD _ (Some b))], _, _) => Some (bdata b)
  | _ => None
  end.
Example C116_ex : sealed ex_hashes ex_head ex_pw (bdata ex_data) ex_file /\ (forall i : nat, at_hand Release ex_hashes ex_world a_enc_path (ex_loc a_enc_path)) /\
  shown_by (shorten 12 ex_file) = Some (str "my passwords") /\ lenN (shorten 12 ex_file) = 136 /\
  shown_by (shorten 0 ex_file) = Some [] /\
  match shown_by (lengthen (str "log") ex_file) with Some d => takeN 67 d = bdata ex_data /\ lenN d = 70 | None => False end /\
  bdata ex_data = takeN 32 (bdata ex_data) ++ str "longer" ++ dropN 38 (bdata ex_data) /\
  match shown_by (patch 32 (str "longer") (str "lonely") ex_file) with Some d => takeN 38 d = takeN 32 (bdata ex_data) ++ str "lonely" /\ lenN d = 67 | None => False end.
Proof.
  split; [exact ex_file_ok|]. split; [intros; exact ex_hand|]. do 3 (split; [vm_compute; reflexivity|]). split; [vm_compute; auto|]. split; [vm_compute; reflexivity|]. vm_compute. auto.
Qed.
