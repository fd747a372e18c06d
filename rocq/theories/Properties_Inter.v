(** Property C88. *)
From Coq Require Import Strings.String.
From Verif Require Import Base BaseFacts BytesModel BytesSpec MiscModel CipherModel CipherSpec PwModel PwSpec ChModel ChSpec HeaderModel HeaderSpec Toy FileModel ApiModel ApiSpec ApiSpec2
  SecSpec InterModel InterSpec ApiFacts9 InterFacts InterFacts2 InterFacts3 InterFacts4 Properties_Header Properties_File Properties_Api Properties_Api2.

(** a second complete content, as long as [ex_file], and a longer one *)
Definition inter_text : bytes := str "MY PASSWORDS, IN A FILE THAT IS LONGER THAN ONE BLOCK OF THE CIPHER".
Definition inter_file : bytes := ser (hdr_len ex_head + lenN inter_text) ex_head ++ cipher_of ex_hashes ex_head ex_pw inter_text.
Definition inter_longer : bytes := ser (hdr_len ex_head + lenN (inter_text ++ inter_text)) ex_head ++ cipher_of ex_hashes ex_head ex_pw (inter_text ++ inter_text).
Example inter_file_ok : sealed ex_hashes ex_head ex_pw inter_text inter_file /\ lenN inter_file = lenN ex_file.
Proof. split; [|vm_compute; reflexivity]. split; [apply ex_head_ok|]. split; [apply ex_head_ok|reflexivity]. Qed.
Example inter_longer_ok : sealed ex_hashes ex_head ex_pw (inter_text ++ inter_text) inter_longer.
Proof. split; [apply ex_head_ok|]. split; [apply ex_head_ok|reflexivity]. Qed.
Notation L := (ex_loc a_enc_path) (only parsing).

(** C88 *)
Theorem C88_nobody_else : forall w cuts a o f n,
  snd (step_i w nobody cuts a o (n, f)) = snd (step w a f o) /\ forall l, snd (fst (step_i w nobody cuts a o (n, f))) l = fst (step w a f o) l.
Proof. exact alone. Qed.
Print Assumptions C88_nobody_else.
Theorem C88_file_left_alone : forall w env cuts a o f n, (forall l, about w a o l -> left_alone env l) ->
  snd (step_i w env cuts a o (n, f)) = snd (step w a f o) /\
  forall l, about w a o l -> snd (fst (step_i w env cuts a o (n, f))) l = fst (step w a f o) l.
Proof. exact undisturbed. Qed.
Print Assumptions C88_file_left_alone.
Theorem C88_other_files : forall w env cuts a o s l, ~ changed_by w a o l -> left_alone env l -> snd (fst (step_i w env cuts a o s)) l = snd s l.
Proof. exact others_kept. Qed.
Print Assumptions C88_other_files.
(** others write to other files during the call *)
Example C88_ex_alone : about ex_world (fresh 1) (OSelect a_enc_path) L /\ left_alone (storing 4 77 inter_file) L /\
  match step_i ex_world (storing 4 77 inter_file) [] (fresh 1) (OSelect a_enc_path) (O, ex_files) with
  | (s, Ret (a, ROk)) => a_state a = FILE_SELECTED /\ snd s 77 = Some inter_file /\ snd s L = Some ex_file
  | _ => False
  end.
Proof. split; [reflexivity|]. split; [intros k f; unfold storing; destruct (Nat.eqb k 4); [apply InterFacts.upd_other; vm_compute; discriminate|reflexivity]|]. vm_compute. auto. Qed.

Theorem C88_what_is_selected : forall w env cuts a p f s' a', a_state a = INIT -> (forall k c, content_at w env f k p = Some c -> lenN c < 2 ^ 63) ->
  step_i w env cuts a (OSelect p) (O, f) = (s', Ret (a', ROk)) ->
  (a_state a' = EMPTY_FILE_SELECTED /\ exists k, content_at w env f k p = None \/ content_at w env f k p = Some []) \/
  (a_state a' = FILE_SELECTED /\ exists h d i1 i2 i3 i4 c1 c2 c3 c4 x r, a_file a' = Some h /\ a_dh a' = Some d /\ (i1 <= i2 < i3)%nat /\ (i3 <= i4)%nat /\
     content_at w env f i1 p = Some c1 /\ content_at w env f i2 p = Some c2 /\ content_at w env f i3 p = Some c3 /\ content_at w env f i4 p = Some c4 /\
     fh_path h = p /\ fh_fsize h = lenN c1 /\ (exists r2, c2 = u64 (fh_fsize h) ++ u64 (fh_hsize h) ++ r2) /\ 104 <= fh_hsize h <= fh_fsize h /\
     c4 = x ++ r /\ forall r', lenN (x ++ r') = lenN c3 -> decode_stream (w_build w) (w_rnd w 0) (x ++ r') = Ret (inr (d, r'))).
Proof. exact selected_moments. Qed.
Print Assumptions C88_what_is_selected.
Example C88_ex_selected : match step_i ex_world (storing 7 L inter_longer) [] (fresh 1) (OSelect a_enc_path) (O, ex_files) with
  | (s, Ret (a, ROk)) => a_state a = FILE_SELECTED /\ option_map fh_fsize (a_file a) = Some (lenN ex_file) /\ snd s L = Some inter_longer
  | _ => False
  end.
Proof. vm_compute. auto. Qed.

Theorem C88_save_in_one_piece : forall H, hashes_ok H -> forall bd mode tr a w env o q f s' a' y, history bd H mode tr a -> a_state a = ENCRYPTED -> saves_to tr o q ->
  step_i w env [] a o (O, f) = (s', Ret (a', ROk)) -> snd s' (w_loc w q) = Some y -> lenN y < 2 ^ 63 ->
  exists c, to_save H tr c /\ (lenN c <= w_room w -> y = c \/
    forall w2, at_hand bd H w2 q (w_loc w q) -> enc_path q -> step w2 (fresh 1) (snd s') (OSelect q) = (snd s', Ret (fresh 1, RErr FAIL ERR_FILEHANDLER_CREATION))).
Proof. exact one_piece_safe. Qed.
Print Assumptions C88_save_in_one_piece.
(** between the opening and the only write, something longer is stored *)
Example C88_ex_one_piece : exists tr a, history Release ex_hashes 1 tr a /\ a_state a = ENCRYPTED /\ saves_to tr OWrite a_enc_path /\
  match step_i ex_world (storing 3 L inter_longer) [] a OWrite (O, ex_files) with
  | (s, Ret (_, ROk)) => snd s L = Some (ex_file ++ dropN (lenN ex_file) inter_longer) /\ snd (step ex_world (fresh 1) (snd s) (OSelect a_enc_path)) = Ret (fresh 1, RErr FAIL ERR_FILEHANDLER_CREATION)
  | _ => False
  end.
Proof. history_of (opening ++ [OEncrypt (text ex_data)]). split; [reflexivity|]. split; [right; split; [reflexivity|eexists; reflexivity]|]. split; reflexivity. Qed.

Theorem C88_mixed_save : forall H, hashes_ok H -> forall bd mode tr a w p x, history bd H mode tr a -> a_state a = ENCRYPTED -> selected tr = Some (p, x) -> usable_file w p ->
  exists c, to_save H tr c /\ forall h2 pw2 data2 other k f, sealed H h2 pw2 data2 other -> lenN data2 < 2 ^ 31 -> lenN other = lenN c -> lenN c <= w_room w ->
    hdr_len h2 <= k <= lenN c -> f (w_loc w p) <> None ->
    exists s' a' data', step_i w (storing 4 (w_loc w p) other) [k] a OWrite (O, f) = (s', Ret (a', ROk)) /\ a_state a' = FINISHED /\
      snd s' (w_loc w p) = Some (takeN k other ++ dropN k c) /\ sealed H h2 pw2 data' (takeN k other ++ dropN k c) /\ lenN data' = lenN data2 /\
      (data' = data2 -> dropN k c = dropN k other).
Proof. exact mixture. Qed.
Print Assumptions C88_mixed_save.
(** two saves of the same length get mixed; the next reader accepts the mixture *)
Definition inter_read (f : fs) : option reply :=
  match calls (map (fun o => (ex_world, o)) opening) (fresh 1) f with Some ([ROk; ROk; r], _, _) => Some r | _ => None end.
Example C88_ex_mixed : exists tr a, history Release ex_hashes 1 tr a /\ a_state a = ENCRYPTED /\ selected tr = Some (a_enc_path, ex_file) /\
  match step_i ex_world (storing 4 L inter_file) [160] a OWrite (O, ex_files) with
  | (s, Ret (_, ROk)) => match inter_read (snd s) with
                         | Some (RData (mkFD (Some 1) (Some b))) => bdata b <> bdata ex_data /\ bdata b <> inter_text /\ lenN (bdata b) = lenN inter_text
                         | _ => False
                         end
  | _ => False
  end.
Proof. history_of (opening ++ [OEncrypt (text ex_data)]). split; [reflexivity|]. split; [reflexivity|]. split; [discriminate|]. split; [discriminate|reflexivity]. Qed.

Theorem C88_create_erases : forall w cuts a p f c, a_state a = INIT -> usable_file w p -> enc_path p -> f (w_loc w p) = None ->
  exists s', step_i w (storing 1 (w_loc w p) c) cuts a (OCreate p) (O, f) = (s', Ret (a, ROk)) /\ snd s' (w_loc w p) = Some [] /\ moment (storing 1 (w_loc w p) c) f 1 (w_loc w p) = Some c.
Proof. exact create_erases. Qed.
Print Assumptions C88_create_erases.
Theorem C88_write_to_erases : forall H, hashes_ok H -> forall bd mode tr a w p f c, history bd H mode tr a -> a_state a = ENCRYPTED -> usable_file w p -> enc_path p -> f (w_loc w p) = Some [] ->
  exists s' a' x, step_i w (storing 7 (w_loc w p) c) [] a (OWriteTo p) (O, f) = (s', Ret (a', ROk)) /\ to_save H tr x /\ snd s' (w_loc w p) = Some (takeN (w_room w) x) /\
    moment (storing 7 (w_loc w p) c) f 7 (w_loc w p) = Some c.
Proof. exact write_erases. Qed.
Print Assumptions C88_write_to_erases.
Theorem C88_vanished_file_selected : forall w cuts a p f c, a_state a = INIT -> usable_file w p -> enc_path p -> f (w_loc w p) = Some c ->
  exists s' a', step_i w (removing 4 (w_loc w p)) cuts a (OSelect p) (O, f) = (s', Ret (a', ROk)) /\ a_state a' = EMPTY_FILE_SELECTED /\ snd s' (w_loc w p) = None.
Proof. exact vanished. Qed.
Print Assumptions C88_vanished_file_selected.
Example C88_ex_erases : usable_file ex_world a_enc_path /\ enc_path a_enc_path /\ ex_files L = Some ex_file /\ (fun _ => None : option bytes) L = None /\ (exists tr a, history Release ex_hashes 1 tr a /\ a_state a = ENCRYPTED).
Proof. split; [repeat split|]. split; [exact a_enc_path_ok|]. split; [reflexivity|]. split; [reflexivity|]. history_of (opening ++ [OEncrypt (text ex_data)]). reflexivity. Qed.

(** every reader gets complete data: no; a file exchanged while it is selected is read with the old size *)
Theorem C88_complete_reads_refuted : exists w env p pw f h c1 data1 c2 data2,
  sealed (w_hashes w) h pw data1 c1 /\ sealed (w_hashes w) h pw data2 c2 /\ (forall k, content_at w env f k p = Some c1 \/ content_at w env f k p = Some c2) /\
  exists s1 a1 a2 a3 b, step_i w env [] (fresh 1) (OSelect p) (O, f) = (s1, Ret (a1, ROk)) /\ snd (step w a1 (snd s1) (OVerify pw 0)) = Ret (a2, ROk) /\
    snd (step w a2 (snd s1) ODecrypt) = Ret (a3, RData (mkFD (Some 1) (Some b))) /\ bdata b <> data1 /\ bdata b <> data2.
Proof.
  exists ex_world, (storing 7 L inter_longer), a_enc_path, ex_pw, ex_files, ex_head, ex_file, (bdata ex_data), inter_longer, (inter_text ++ inter_text).
  split; [exact ex_file_ok|]. split; [exact inter_longer_ok|]. split; [intros k; apply stored_moments; [reflexivity|repeat constructor]|].
  destruct (read_while_ok ex_world (storing 7 L inter_longer) a_enc_path ex_pw ex_files inter_text) as (s1 & a1 & a2 & a3 & b & E1 & E2 & E3 & E4); [vm_compute; reflexivity|].
  exists s1, a1, a2, a3, b. split; [exact E1|]. split; [exact E2|]. split; [exact E3|]. rewrite E4. split; vm_compute; discriminate.
Qed.
Print Assumptions C88_complete_reads_refuted.
