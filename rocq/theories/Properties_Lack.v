(** Property C122. *)
From Coq Require Import Strings.String.
From Verif Require Import Base BytesModel BytesSpec MiscModel CipherModel PwModel ChModel HeaderModel HeaderSpec RefSpec Toy FileModel ApiModel ApiSpec TextModel MsgModel MsgSpec
  Properties_Header Properties_File Properties_Api Properties_Msg LackSpec LackFacts LackFacts2.

Theorem C122_field : forall w a f p x, (forall i k, lenN (w_rnd w i k) = k) -> lenN (stream_of w f p) < two64 -> a_state a = INIT ->
  told w a f (OSelect p) = Some x -> x_code x = ERR_NOT_ENOUGH_DATA -> ends_in (stream_of w f p) (x_info x).
Proof. exact select_lack. Qed.
Print Assumptions C122_field.
(** only one field can be named *)
Theorem C122_one_field : forall file i j, ends_in file i -> ends_in file j -> i = j.
Proof. exact one_field. Qed.
Print Assumptions C122_one_field.
(** and it is named if nothing else is wrong before it *)
Theorem C122_reported : forall bd H w a f p c i, world_ok bd H w -> fs_ok f -> a_state a = INIT ->
  enc_path p -> w_stat w p = true -> w_read w p = true -> f (w_loc w p) = Some c ->
  104 <= be_val (takeN 8 (dropN 8 c)) -> only_ends_in c i ->
  exists x, told w a f (OSelect p) = Some x /\ x_code x = ERR_NOT_ENOUGH_DATA /\ x_info x = i.
Proof. exact select_short. Qed.
Print Assumptions C122_reported.
(** a file that says it has [n] blocks, has one of 90 bytes and then [r] *)
Definition lacking (n : N) (r : bytes) : bytes :=
  u64 (111 + lenN r) ++ u64 111 ++ u8 1 ++ u8 1 ++ u8 n ++ u8 7 ++ u8 90 ++ repeat x41 90 ++ r.
Definition lacks (n : N) (r : bytes) : option bytes :=
  match told ex_world (fresh 1) (one_file (lacking n r)) (OSelect a_enc_path) with
  | Some x => match x_code x with ERR_NOT_ENOUGH_DATA => Some (x_info x) | _ => None end
  | None => None
  end.
(** a chain of mode 4 with 10 bytes, of which 8 are a number *)
Definition a_chain : bytes := ser_chain 10 (4, 5, repeat x00 10).
Example C122_ex :
  map (lacks 2) [[]; u8 7; u8 7 ++ u8 3; u8 7 ++ u8 3 ++ [x41; x42]] =
    [Some (str "Data block type"); Some (str "Data block len"); Some (str "Data block data"); Some (str "Data block data")] /\
  map (lacks 1) [[]; u8 4; u8 4 ++ repeat x00 7; u8 4 ++ u64 5; u8 4 ++ u64 5 ++ u8 7 ++ repeat x00 100; u8 4 ++ u64 5 ++ u8 8] =
    [Some (str "Chainhash1 mode"); Some (str "Chainhash1 iters"); Some (str "Chainhash1 iters"); Some (str "Chainhash1 blocklen");
     Some (str "Chainhash data block 1"); Some (str "Chainhash data block 1")] /\
  map (fun r => lacks 1 (a_chain ++ r)) [[]; u8 4; u8 4 ++ u64 5; u8 4 ++ u64 5 ++ u8 8] =
    [Some (str "Chainhash2 mode"); Some (str "Chainhash2 iters"); Some (str "Chainhash2 blocklen"); Some (str "Chainhash data block 2")] /\
  map (fun r => lacks 1 (a_chain ++ a_chain ++ r)) [repeat x00 31; repeat x00 32; repeat x00 63; repeat x00 64; repeat x00 64 ++ u8 1; repeat x00 64 ++ u8 1 ++ u8 1; repeat x00 64 ++ u8 1 ++ repeat x00 256] =
    [Some (str "Password validator hash"); Some (str "Encrypted salt"); Some (str "Encrypted salt"); None;
     Some (str "Enc datablock type"); Some (str "Enc datablock len"); Some (str "Enc datablock data")] /\
  a_state (fresh 1) = INIT /\ lenN (stream_of ex_world (one_file (lacking 2 [])) a_enc_path) = 111.
Proof. vm_compute. repeat split. Qed.
Definition short_file : bytes := lacking 1 (a_chain ++ a_chain ++ repeat x00 32).
Example C122_reported_ex : only_ends_in short_file (str "Encrypted salt") /\ ends_in short_file (str "Encrypted salt") /\
  world_ok Release ex_hashes ex_world /\ fs_ok (one_file short_file) /\ enc_path a_enc_path /\ be_val (takeN 8 (dropN 8 short_file)) = 111 /\
  w_stat ex_world a_enc_path = true /\ w_read ex_world a_enc_path = true /\ one_file short_file (w_loc ex_world a_enc_path) = Some short_file.
Proof.
  assert (only_ends_in short_file (str "Encrypted salt")) as K.
  { exists 111, 1, 1, [(7, repeat x41 90)], (a_chain ++ a_chain ++ repeat x00 32).
    split; [vm_compute; reflexivity|]. split; [vm_compute; discriminate|]. split; [split; discriminate|]. split; [reflexivity|].
    split; [constructor; [|constructor]; split; [split; [reflexivity|vm_compute; discriminate]|discriminate]|]. right. split; [reflexivity|]. right.
    assert (chain_ok (4, 5, repeat x00 10)) as Ok by (split; [split; discriminate|]; split; [split; discriminate|]; split; vm_compute; discriminate).
    exists (4, 5, repeat x00 10), 10, (a_chain ++ repeat x00 32). split; [reflexivity|]. split; [split; [exact Ok|reflexivity]|]. right.
    exists (4, 5, repeat x00 10), 10, (repeat x00 32). split; [reflexivity|]. split; [split; [exact Ok|reflexivity]|]. right. left. split; [|reflexivity]. split; [vm_compute; discriminate|reflexivity]. }
  split; [exact K|]. split; [apply only_is; exact K|]. split; [exact ex_world_ok|]. split; [apply one_file_ok; vm_compute; reflexivity|].
  split; [exact a_enc_path_ok|vm_compute; repeat split].
Qed.
(** wherever a header is cut, the field that is named is the one to which the first missing byte belongs; only without the count of the encrypted blocks another check comes first *)
Theorem C122_cut : forall bd H w a f p h j hsz, world_ok bd H w -> fs_ok f -> a_state a = INIT -> enc_path p -> w_stat w p = true -> w_read w p = true ->
  header_ok h -> no_empty_block h -> 104 <= hsz <= j -> j < hdr_len h -> f (w_loc w p) = Some (cut_header j hsz h) ->
  exists i, field_at (fields h) (j - 19) = Some i /\
    (i <> str "Encrypted block count" -> exists x, told w a f (OSelect p) = Some x /\ x_code x = ERR_NOT_ENOUGH_DATA /\ x_info x = i).
Proof. exact select_cut. Qed.
Print Assumptions C122_cut.
Definition cut_head : header := mkHeader 1 1 [(7, repeat x41 90)] (4, 5, repeat x00 10) (1, 5, []) (repeat x00 32) (repeat x00 32) [(1, 2, repeat x00 255)].
Definition named (j : N) : option bytes :=
  match told ex_world (fresh 1) (one_file (cut_header j 104 cut_head)) (OSelect a_enc_path) with
  | Some x => match x_code x with ERR_NOT_ENOUGH_DATA => Some (x_info x) | _ => None end
  | None => None
  end.
Definition places : list N := [104; 110; 111; 112; 119; 120; 121; 130; 131; 140; 141; 172; 173; 204; 206; 207; 208; 462].
Example C122_cut_ex :
  hdr_len cut_head = 463 /\ map named places = map (fun j => field_at (fields cut_head) (j - 19)) places /\
  map named [110; 111; 141; 205; 206] =
    [Some (str "Data block data"); Some (str "Chainhash1 mode"); Some (str "Password validator hash"); None; Some (str "Enc datablock type")] /\
  field_at (fields cut_head) (205 - 19) = Some (str "Encrypted block count") /\
  one_file (cut_header 141 104 cut_head) (w_loc ex_world a_enc_path) = Some (cut_header 141 104 cut_head) /\ lenN (cut_header 141 104 cut_head) = 141.
Proof. vm_compute. repeat split. Qed.
Example C122_cut_ok : header_ok cut_head /\ no_empty_block cut_head.
Proof.
  split; [|constructor; [discriminate|constructor]]. split; [reflexivity|]. split; [split; discriminate|]. split; [vm_compute; discriminate|].
  split; [constructor; [split; [reflexivity|vm_compute; discriminate]|constructor]|]. split; [split; [split; discriminate|]; split; [split; discriminate|]; split; vm_compute; discriminate|].
  split; [split; [split; discriminate|]; split; [split; discriminate|]; reflexivity|]. split; [reflexivity|]. split; [reflexivity|]. split; [vm_compute; discriminate|].
  constructor; [|constructor]. split; [reflexivity|]. split; reflexivity.
Qed.
