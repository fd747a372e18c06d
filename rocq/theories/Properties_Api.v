(** Properties C33-C44 and the parts of C14 and C27 about the API. *)
From Coq Require Import Strings.String.
From Verif Require Import Base BaseFacts BytesModel BytesSpec MiscModel CipherModel CipherSpec PwModel PwSpec ChModel ChSpec HeaderModel HeaderSpec Toy FileModel ApiModel ApiSpec
  FileFacts ApiFacts5 ApiFacts6 ApiFacts7 ApiFacts8 ApiFacts9 Properties_Header Properties_File.

(** settings, passwords, a header and a file used in the Examples *)
Definition ex_block : datablock := mkDB 7 (mkBytes [x61; x62] 2).
Definition ex_ds : dhsettings := mkSet (Some 1) (Some 1) (Some 3) (Some 2) (Some 2) (Some 3) [ex_block] [].
Definition ex_pw : bytes := str "secret".
Definition ex_pw2 : bytes := str "other".
Definition ex_data : Bytes := fromArray (str "my passwords, in a file that is longer than one block of the cipher").
Definition ex_head : header :=
  let h v := mkHeader 1 1 [(7, [x61; x62])] (3, 2, zrnd 8) (2, 3, zrnd 8) v (zrnd 32) [] in
  h (validator ex_hashes (h []) (key_of ex_hashes (h []) ex_pw)).
Definition ex_file : bytes := ser (hdr_len ex_head + getLen ex_data) ex_head ++ cipher_of ex_hashes ex_head ex_pw (bdata ex_data).
Example ex_ds_ok : settings_readable ex_ds.
Proof.
  split; [|split; [|split; [|split]]].
  - split; [exists [SFile 1; SHash 1; SCh1 3; SCh2 2; SN1 2; SN2 3]; reflexivity|]. split; [|constructor]. constructor; [|constructor].
    apply (bm_new 7 (mkBytes [x61; x62] 2)); [reflexivity|vm_compute; reflexivity].
  - unfold settings_complete. cbn. repeat split; discriminate.
  - vm_compute. discriminate.
  - vm_compute. discriminate.
  - constructor; [discriminate|constructor].
Qed.
Example ex_head_ok : header_ok ex_head /\ no_empty_block ex_head /\ opens ex_hashes ex_head ex_pw /\ ~ opens ex_hashes ex_head ex_pw2.
Proof. split; [|split; [|split]]; [unfold ex_head; header_tac| | |]; [constructor; [discriminate|constructor]|vm_compute; reflexivity|vm_compute; discriminate]. Qed.
Example ex_file_ok : sealed ex_hashes ex_head ex_pw (bdata ex_data) ex_file.
Proof. split; [apply ex_head_ok|]. split; [apply ex_head_ok|reflexivity]. Qed.
Example ex_world_ok : world_ok Release ex_hashes ex_world.
Proof. split; [reflexivity|]. split; [reflexivity|]. split; [intros i k; apply zrnd_ok|reflexivity]. Qed.
Example ex_hand : at_hand Release ex_hashes ex_world a_enc_path (ex_loc a_enc_path).
Proof. split; [exact ex_world_ok|]. split; [repeat split|reflexivity]. Qed.
Definition ex_files : fs := one_file ex_file.
Example ex_files_ok : fs_ok ex_files.
Proof. apply one_file_ok. vm_compute. reflexivity. Qed.
Definition ex_calls (l : list op) : list (world * fs * op) := map (fun o => (ex_world, ex_files, o)) l.
Definition opening : list op := [OSelect a_enc_path; OVerify ex_pw 0; ODecrypt].
Ltac op_tac := cbn [snd op_ok text fd_data];
  lazymatch goal with |- True => exact I | |- forall _, _ => intros ? [= <-]; vm_compute; reflexivity | |- _ /\ _ => split; [apply ex_ds_ok|vm_compute; reflexivity] | |- _ => vm_compute; reflexivity end.
Ltac calls_ok := unfold ex_calls, opening; cbn [map app]; repeat (apply Forall_cons; [split; [exact ex_world_ok|split; [exact ex_files_ok|op_tac]]|]); apply Forall_nil.
Ltac history_of l := apply (play_example Release ex_hashes (ex_calls l)); [calls_ok|vm_compute].

(** C33 *)
Theorem C33_refused : forall w a f o, offered (a_state a) o = false ->
  (forall pw ds t, o = OHeader pw ds t -> settings_complete ds) -> (forall pw ds, o = OHeaderTime pw ds -> settings_complete ds) ->
  step w a f o = (f, Ret (a, RErr FAIL ERR_API_STATE_INVALID)).
Proof. exact not_offered. Qed.
Print Assumptions C33_refused.
Theorem C33_incomplete_settings : forall w a f ds, ~ settings_complete ds ->
  (forall pw t, step w a f (OHeader pw ds t) = (f, Ret (a, RErr FAIL ERR_DATAHEADERSETTINGS_INCOMPLETE))) /\
  (forall pw, step w a f (OHeaderTime pw ds) = (f, Ret (a, RErr FAIL ERR_DATAHEADERSETTINGS_INCOMPLETE))).
Proof. exact incomplete_settings. Qed.
Print Assumptions C33_incomplete_settings.
Theorem C33_next_state : forall w a f o f' a' r, fs_ok f -> step w a f o = (f', Ret (a', r)) ->
  (succeeded r = true -> a_state a' = next_state (a_state a) o (selects_empty w f o)) /\ (succeeded r = false -> a_state a' = a_state a) /\ a_mode a' = a_mode a.
Proof. exact state_step. Qed.
Print Assumptions C33_next_state.
Example C33_ex : offered (a_state (fresh 1)) (OVerify ex_pw 5) = false /\ offered (a_state (fresh 1)) (OHeader ex_pw ex_ds 5) = false /\ settings_complete ex_ds /\
  ~ settings_complete (set_run 1000000000 [SHash 1]) /\
  match step ex_world (fresh 1) ex_files (OSelect a_enc_path) with (_, Ret (a, r)) => succeeded r = true /\ a_state a = FILE_SELECTED | _ => False end.
Proof.
  split; [reflexivity|]. split; [reflexivity|]. split; [apply ex_ds_ok|]. split; [intros (X & _); apply X; reflexivity|]. vm_compute. auto.
Qed.

(** C14: time settings *)
Theorem C14_api_time_settings_kill : forall w a f pw ds, settings_complete ds -> offered (a_state a) (OHeaderTime pw ds) = true ->
  step w a f (OHeaderTime pw ds) = (f, Crash Terminate).
Proof. exact time_settings. Qed.
Print Assumptions C14_api_time_settings_kill.
Theorem C14_api_time_settings_never_succeed : forall w a f pw ds f' a' r, step w a f (OHeaderTime pw ds) = (f', Ret (a', r)) ->
  succeeded r = false /\ a' = a /\ f' = f.
Proof. exact time_never. Qed.
Print Assumptions C14_api_time_settings_never_succeed.
Example C14_api_ex : settings_complete ex_ds /\ offered EMPTY_FILE_SELECTED (OHeaderTime ex_pw ex_ds) = true /\
  exists tr a, history Release ex_hashes 1 tr a /\ offered (a_state a) (OHeaderTime ex_pw ex_ds) = true.
Proof. split; [apply ex_ds_ok|]. split; [reflexivity|]. history_of opening. reflexivity. Qed.

(** C34 *)
Theorem C34_no_data_without_password : forall H, hashes_ok H -> forall bd mode tr a w f o f' a' x,
  history bd H mode tr a -> world_ok bd H w -> fs_ok f -> op_ok o -> step w a f o = (f', Ret (a', RData x)) ->
  (o = OGetData /\ exists b, x = mkFD (Some 1) (Some b) /\ bdata b = []) \/
  (o = ODecrypt /\ exists p c pw h hsz l1 l2 rest b, selected tr = Some (p, c) /\ verified tr = Some pw /\ written_as c hsz l1 l2 h rest /\ opens H h pw /\
     x = mkFD (Some 1) (Some b) /\ bdata b = plain_of H h pw (takeN (lenN c - hsz) (dropN hsz (content f (w_loc w p))))).
Proof. exact data_reply. Qed.
Print Assumptions C34_no_data_without_password.
Example C34_ex : exists tr a, history Release ex_hashes 1 tr a /\ verified tr = Some ex_pw /\
  match step ex_world a ex_files ODecrypt with (_, Ret (_, RData (mkFD _ (Some b)))) => bdata b = bdata ex_data | _ => False end.
Proof. history_of [OSelect a_enc_path; OVerify ex_pw2 0; OVerify ex_pw 0]. auto. Qed.

(** C35 *)
Theorem C35_verify_outcome : forall H, hashes_ok H -> forall bd mode tr a w f p c hsz l1 l2 h rest pw t,
  history bd H mode tr a -> world_ok bd H w -> t < 2 ^ 64 -> a_state a = FILE_SELECTED -> selected tr = Some (p, c) -> written_as c hsz l1 l2 h rest ->
  (verify_in_time w t (iterations (h_ch1 h)) (iterations (h_ch2 h)) ->
     (opens H h pw -> exists a', a_state a' = PASSWORD_VERIFIED /\ bdata (a_key a') = key_of H h pw /\ step w a f (OVerify pw t) = (f, Ret (a', ROk))) /\
     (~ opens H h pw -> step w a f (OVerify pw t) = (f, Ret (a, RErr FAIL ERR_PASSWORD_INVALID)))) /\
  (~ verify_in_time w t (iterations (h_ch1 h)) (iterations (h_ch2 h)) -> step w a f (OVerify pw t) = (f, Ret (a, RErr TIMEOUT ERR_TIMEOUT))).
Proof. exact verify_outcome. Qed.
Print Assumptions C35_verify_outcome.
(** the header that the theorem speaks of exists *)
Theorem C35_selected_file_has_header : forall H, hashes_ok H -> forall bd mode tr a, history bd H mode tr a -> a_state a = FILE_SELECTED ->
  exists p c hsz l1 l2 h rest, selected tr = Some (p, c) /\ written_as c hsz l1 l2 h rest.
Proof. exact selected_header. Qed.
Print Assumptions C35_selected_file_has_header.
Example C35_ex : (exists tr a, history Release ex_hashes 1 tr a /\ a_state a = FILE_SELECTED /\ selected tr = Some (a_enc_path, ex_file) /\
    match step ex_world a ex_files (OVerify ex_pw 5) with (_, Ret (_, ROk)) => True | _ => False end /\
    match step ex_world a ex_files (OVerify ex_pw2 5) with (_, Ret (_, RErr FAIL ERR_PASSWORD_INVALID)) => True | _ => False end) /\
  opens ex_hashes ex_head ex_pw /\ ~ opens ex_hashes ex_head ex_pw2 /\ verify_in_time ex_world 5 (iterations (h_ch1 ex_head)) (iterations (h_ch2 ex_head)).
Proof.
  split; [history_of [OSelect a_enc_path]; auto|]. split; [apply ex_head_ok|]. split; [apply ex_head_ok|].
  split; [|split].
  - intros (_ & k & _ & K). apply K. reflexivity.
  - discriminate.
  - intros (_ & k & _ & K). apply K. reflexivity.
Qed.

(** C36 *)
Theorem C36_round_trip : forall H, hashes_ok H -> forall bd ws p l f ds pw data t1 t2 it1 it2,
  (forall i, at_hand bd H (ws i) p l) -> enc_path p -> w_create (ws 0%nat) p = true -> f l = None ->
  settings_readable ds -> s_n1 ds = Some it1 -> s_n2 ds = Some it2 -> t1 < 2 ^ 64 -> create_in_time (ws 2%nat) t1 it1 it2 ->
  getLen data < 2 ^ 31 -> patient (ws 3%nat) (getLen data) -> (forall h, created H (ws 2%nat) ds pw h -> hdr_len h + getLen data <= w_room (ws 4%nat)) ->
  t2 < 2 ^ 64 -> verify_in_time (ws 7%nat) t2 it1 it2 -> patient (ws 8%nat) (getLen data) ->
  exists b h c a' f',
    calls [(ws 0%nat, OCreate p); (ws 1%nat, OSelect p); (ws 2%nat, OHeader pw ds t1); (ws 3%nat, OEncrypt (text data)); (ws 4%nat, OWrite);
           (ws 5%nat, OLogout); (ws 6%nat, OSelect p); (ws 7%nat, OVerify pw t2); (ws 8%nat, ODecrypt)] (fresh 1) f =
      Some ([ROk; ROk; ROk; ROk; ROk; RVoid; ROk; ROk; RData (mkFD (Some 1) (Some b))], a', f') /\
    bdata b = bdata data /\ created H (ws 2%nat) ds pw h /\ f' l = Some c /\ sealed H h pw (bdata data) c /\ (forall l', l' <> l -> f' l' = f l').
Proof. exact round_trip. Qed.
Print Assumptions C36_round_trip.
(** what writeToFile leaves behind after any history ... *)
Theorem C36_written_content : forall H, hashes_ok H -> forall bd mode tr a w f o p f' a',
  history bd H mode tr a -> world_ok bd H w -> fs_ok f -> (o = OWrite \/ o = OWriteTo p) -> step w a f o = (f', Ret (a', ROk)) -> exists q h pw data c,
  target tr o = Some q /\ password tr = Some pw /\ encrypted tr = Some data /\ current H tr h /\ lenN data < 2 ^ 31 /\ sealed H h pw data c /\
  f' (w_loc w q) = Some (takeN (w_room w) c).
Proof. exact write_history. Qed.
Print Assumptions C36_written_content.
(** ... and what a new session makes of such a file *)
Theorem C36_sealed_file_opens : forall H, hashes_ok H -> forall bd ws p l f h pw data c t,
  (forall i, at_hand bd H (ws i) p l) -> enc_path p -> f l = Some c -> sealed H h pw data c -> no_empty_block h -> lenN data < 2 ^ 31 ->
  t < 2 ^ 64 -> verify_in_time (ws 1%nat) t (iterations (h_ch1 h)) (iterations (h_ch2 h)) -> patient (ws 2%nat) (lenN data) ->
  exists b a', calls [(ws 0%nat, OSelect p); (ws 1%nat, OVerify pw t); (ws 2%nat, ODecrypt)] (fresh 1) f = Some ([ROk; ROk; RData (mkFD (Some 1) (Some b))], a', f) /\
    bdata b = data /\ a_state a' = DECRYPTED.
Proof. exact reopen_data. Qed.
Print Assumptions C36_sealed_file_opens.

(** a run of the whole round trip *)
Example C36_ex : (forall i : nat, at_hand Release ex_hashes ((fun _ => ex_world) i) a_enc_path (ex_loc a_enc_path)) /\ settings_readable ex_ds /\
  create_in_time ex_world 0 2 3 /\ verify_in_time ex_world 0 2 3 /\ patient ex_world (getLen ex_data) /\
  sealed ex_hashes ex_head ex_pw (bdata ex_data) ex_file /\ no_empty_block ex_head /\
  match calls (map (pair ex_world) [OCreate a_enc_path; OSelect a_enc_path; OHeader ex_pw ex_ds 0; OEncrypt (text ex_data); OWrite; OLogout; OSelect a_enc_path; OVerify ex_pw 0; ODecrypt])
    (fresh 1) (fun _ => None) with
  | Some ([ROk; ROk; ROk; ROk; ROk; RVoid; ROk; ROk; RData (mkFD _ (Some b))], _, f') => bdata b = bdata ex_data /\ option_map lenN (f' (ex_loc a_enc_path)) = Some 438
  | _ => False
  end.
Proof.
  split; [intros _; exact ex_hand|]. split; [exact ex_ds_ok|].
  assert (forall t n, ~ reached (fun _ => 0) t n) as N by (intros t n (T & k & _ & K); lia).
  split; [split; [apply N|split; [intros []; reflexivity|apply N]]|]. split; [split; [apply N|split; [intros []; reflexivity|apply N]]|].
  split; [apply Nat.leb_le; vm_compute; reflexivity|]. split; [exact ex_file_ok|]. split; [apply ex_head_ok|]. vm_compute. auto.
Qed.

(** C27: the size fields of what is written *)
Theorem C27_api_encrypted_size : forall H, hashes_ok H -> forall bd mode tr a w f x f' a', history bd H mode tr a -> world_ok bd H w -> op_ok (OEncrypt x) ->
  step w a f (OEncrypt x) = (f', Ret (a', ROk)) -> exists data, x = text data /\ getLen data < 2 ^ 31 /\ f' = f.
Proof. exact encrypt_size. Qed.
Print Assumptions C27_api_encrypted_size.
Theorem C27_api_written_sizes : forall H, hashes_ok H -> forall bd mode tr a w f o p f' a',
  history bd H mode tr a -> world_ok bd H w -> fs_ok f -> (o = OWrite \/ o = OWriteTo p) -> step w a f o = (f', Ret (a', ROk)) ->
  exists q h pw data c, target tr o = Some q /\ sealed H h pw data c /\ f' (w_loc w q) = Some (takeN (w_room w) c) /\
    sizes_fit c (hdr_len h) /\ lenN c = hdr_len h + lenN data /\ lenN c < 2 ^ 32.
Proof. exact write_sizes. Qed.
Print Assumptions C27_api_written_sizes.
Example C27_api_ex : exists tr a, history Release ex_hashes 1 tr a /\
  match step ex_world a ex_files OWrite with (f', Ret (_, ROk)) => option_map (takeN 16) (f' (ex_loc a_enc_path)) = Some (u64 191 ++ u64 124) | _ => False end.
Proof. history_of (opening ++ [OEncrypt (text ex_data)]). reflexivity. Qed.

(** C37 *)
Theorem C37_frame : forall H, hashes_ok H -> forall bd mode tr a w f o f' r l,
  history bd H mode tr a -> world_ok bd H w -> fs_ok f -> op_ok o -> step w a f o = (f', r) -> f' l <> f l ->
  (exists a', r = Ret (a', ROk)) /\ exists p, target tr o = Some p /\ l = w_loc w p /\
  match o with
  | OCreate _ => f l = None /\ f' l = Some []
  | ODelete => f l <> None /\ f' l = None
  | OWriteTo _ => f l = Some [] /\ f' l <> None
  | OWrite => f l <> None /\ f' l <> None
  | _ => False
  end.
Proof. exact frame. Qed.
Print Assumptions C37_frame.
Example C37_ex : exists tr a, history Release ex_hashes 1 tr a /\ target tr OWrite = Some a_enc_path /\
  match step ex_world a (upd (one_file [x61]) 0 (Some [x62])) OWrite with
  | (f', Ret (_, ROk)) => f' (ex_loc a_enc_path) <> Some [x61] /\ f' 0 = Some [x62]
  | _ => False
  end.
Proof. history_of (opening ++ [OEncrypt (text ex_data)]). split; [reflexivity|]. split; [discriminate|reflexivity]. Qed.

(** C38 *)
Theorem C38_torn_file : forall H, hashes_ok H -> forall bd w p l f h pw data c k,
  at_hand bd H w p l -> enc_path p -> sealed H h pw data c -> lenN data < 2 ^ 31 -> f l = Some (takeN k c) ->
  (0 < k < lenN c -> step w (fresh 1) f (OSelect p) = (f, Ret (fresh 1, RErr FAIL ERR_FILEHANDLER_CREATION))) /\
  (k = 0 -> step w (fresh 1) f (OSelect p) = (f, Ret (empty_obj p, ROk))).
Proof. exact torn_select. Qed.
Print Assumptions C38_torn_file.
Example C38_ex : sealed ex_hashes ex_head ex_pw (bdata ex_data) ex_file /\ lenN ex_file = 191 /\
  match step ex_world (fresh 1) (one_file (takeN 190 ex_file)) (OSelect a_enc_path) with (_, Ret (_, r)) => r = RErr FAIL ERR_FILEHANDLER_CREATION | _ => False end /\
  match step ex_world (fresh 1) (one_file (takeN 0 ex_file)) (OSelect a_enc_path) with (_, Ret (a, r)) => r = ROk /\ a_state a = EMPTY_FILE_SELECTED | _ => False end.
Proof. split; [exact ex_file_ok|]. vm_compute. auto. Qed.

(** C39 *)
Theorem C39_logout : forall bd H mode tr a w f m, history bd H mode tr a -> exists a', newAPI mode = Ret a' /\
  step w a f OLogout = (f, Ret (a', RVoid)) /\ step w a f (OLogoutMode m) = (f, Ret (a', RVoid)).
Proof. exact logout_fresh. Qed.
Print Assumptions C39_logout.
Theorem C39_closed : forall H, hashes_ok H -> forall bd mode tr a w f o f' a', history bd H mode tr a -> (o = OUnselect \/ o = ODelete) ->
  step w a f o = (f', Ret (a', ROk)) -> newAPI mode = Ret a'.
Proof. exact closed_fresh. Qed.
Print Assumptions C39_closed.
Theorem C39_initial_state_is_new : forall H, hashes_ok H -> forall bd mode tr a, history bd H mode tr a -> a_state a = INIT -> newAPI mode = Ret a.
Proof. exact init_fresh. Qed.
Print Assumptions C39_initial_state_is_new.
Example C39_ex : exists tr a, history Release ex_hashes 1 tr a /\ a_state a = ENCRYPTED /\ isSome (a_enc a) = true /\ newAPI 1 = Ret (fresh 1).
Proof. history_of (opening ++ [OEncrypt (text ex_data)]). auto. Qed.

(** C40 *)
Theorem C40_late_success : forall H, hashes_ok H -> forall bd mode tr a w f p c hsz l1 l2 h rest pw t,
  history bd H mode tr a -> world_ok bd H w -> a_state a = FILE_SELECTED -> selected tr = Some (p, c) -> written_as c hsz l1 l2 h rest -> opens H h pw ->
  t <> 0 -> t < w_elapsed w -> ~ reached (w_clk1 w) t (readings_string (iterations (h_ch1 h))) -> (forall i, w_clk2 w i < 2 ^ 64 - (w_elapsed w - t)) ->
  exists a', a_state a' = PASSWORD_VERIFIED /\ step w a f (OVerify pw t) = (f, Ret (a', ROk)).
Proof. exact late_verify. Qed.
Print Assumptions C40_late_success.
Theorem C40_zero_is_not_unlimited : forall H, hashes_ok H -> forall bd mode tr a w f p c hsz l1 l2 h rest pw i,
  history bd H mode tr a -> world_ok bd H w -> a_state a = FILE_SELECTED -> selected tr = Some (p, c) -> written_as c hsz l1 l2 h rest ->
  0 < w_elapsed w -> N.of_nat i < readings_bytes (iterations (h_ch2 h)) -> 2 ^ 64 - w_elapsed w <= w_clk2 w i ->
  step w a f (OVerify pw 0) = (f, Ret (a, RErr TIMEOUT ERR_TIMEOUT)).
Proof. exact zero_limit. Qed.
Print Assumptions C40_zero_is_not_unlimited.
Theorem C40_create_keeps_limit : forall H, hashes_ok H -> forall bd mode tr a w f pw ds t f' a' it1 it2,
  history bd H mode tr a -> world_ok bd H w -> settings_made ds -> t < 2 ^ 64 -> s_n1 ds = Some it1 -> s_n2 ds = Some it2 ->
  step w a f (OHeader pw ds t) = (f', Ret (a', ROk)) -> create_in_time w t it1 it2.
Proof. exact create_limit. Qed.
Print Assumptions C40_create_keeps_limit.
(** the timer shows 100 ms after the first chain hash, and an hour whenever it is read in the second one *)
Definition slow_world : world :=
  mkWorld ex_loc (fun _ => true) (fun _ => true) (fun _ => true) (fun _ => true) (fun _ => true) (fun _ => Missing) 1000000
    (fun _ k => zrnd k) 100 (fun _ => 0) (fun _ => 3600000) ex_hashes Release (N.to_nat 3000).
Example C40_ex : exists tr a, history Release ex_hashes 1 tr a /\ a_state a = FILE_SELECTED /\ selected tr = Some (a_enc_path, ex_file) /\
  match step slow_world a ex_files (OVerify ex_pw 99) with (_, Ret (_, ROk)) => True | _ => False end /\
  match step slow_world a ex_files (OVerify ex_pw 101) with (_, Ret (_, RErr TIMEOUT ERR_TIMEOUT)) => True | _ => False end.
Proof. history_of [OSelect a_enc_path]. auto. Qed.

(** C41 *)
Theorem C41_new_salt : forall H, hashes_ok H -> forall bd ws mode tr a p l c0 f h pw data t,
  history bd H mode tr a -> a_state a = DECRYPTED -> selected tr = Some (p, c0) -> password tr = Some pw -> current H tr h ->
  (forall i, at_hand bd H (ws i) p l) -> exists a1, step (ws 0%nat) a f OSalt = (f, Ret (a1, ROk)) /\ a_state a1 = DECRYPTED /\ a_key a1 = a_key a /\
  (enc_path p -> f l <> None -> no_empty_block h -> getLen data < 2 ^ 31 -> patient (ws 1%nat) (getLen data) -> hdr_len h + getLen data <= w_room (ws 2%nat) ->
   t < 2 ^ 64 -> verify_in_time (ws 5%nat) t (iterations (h_ch1 h)) (iterations (h_ch2 h)) -> patient (ws 6%nat) (getLen data) ->
   exists b c a' f', calls [(ws 1%nat, OEncrypt (text data)); (ws 2%nat, OWrite); (ws 3%nat, OLogout); (ws 4%nat, OSelect p); (ws 5%nat, OVerify pw t); (ws 6%nat, ODecrypt)] a1 f =
       Some ([ROk; ROk; RVoid; ROk; ROk; RData (mkFD (Some 1) (Some b))], a', f') /\ bdata b = bdata data /\ f' l = Some c /\
     sealed H (with_salt (w_rnd (ws 0%nat) 0 (digest_len (h_hmode h))) h) pw (bdata data) c).
Proof. exact resalt. Qed.
Print Assumptions C41_new_salt.
Definition rnd_world : world :=
  mkWorld ex_loc (fun _ => true) (fun _ => true) (fun _ => true) (fun _ => true) (fun _ => true) (fun _ => Missing) 1000000
    (fun i k => repeat x55 (N.to_nat k)) 0 (fun _ => 0) (fun _ => 0) ex_hashes Release (N.to_nat 3000).
Example C41_ex : exists tr a, history Release ex_hashes 1 tr a /\ a_state a = DECRYPTED /\ password tr = Some ex_pw /\
  (selected tr = Some (a_enc_path, ex_file) /\ match a_dh a with Some d => contents d = Some ex_head | None => False end) /\
  match calls (map (pair rnd_world) [OSalt; OEncrypt (text ex_data); OWrite; OLogout; OSelect a_enc_path; OVerify ex_pw 0; ODecrypt]) a ex_files with
  | Some ([ROk; ROk; ROk; RVoid; ROk; ROk; RData (mkFD _ (Some b))], _, f') => bdata b = bdata ex_data /\ f' (ex_loc a_enc_path) <> Some ex_file
  | _ => False
  end.
Proof. history_of opening. repeat split. discriminate. Qed.

(** C42 *)
Theorem C42_new_password : forall H, hashes_ok H -> forall bd ws p l f h0 pw0 data c0 ds pw t0 t1 t2 it1 it2,
  (forall i, at_hand bd H (ws i) p l) -> enc_path p -> f l = Some c0 -> sealed H h0 pw0 data c0 -> no_empty_block h0 ->
  lenN data < 2 ^ 31 -> t0 < 2 ^ 64 -> verify_in_time (ws 1%nat) t0 (iterations (h_ch1 h0)) (iterations (h_ch2 h0)) -> patient (ws 2%nat) (lenN data) ->
  settings_readable ds -> s_n1 ds = Some it1 -> s_n2 ds = Some it2 -> t1 < 2 ^ 64 -> create_in_time (ws 3%nat) t1 it1 it2 ->
  patient (ws 4%nat) (lenN data) -> (forall h, created H (ws 3%nat) ds pw h -> hdr_len h + lenN data <= w_room (ws 5%nat)) ->
  t2 < 2 ^ 64 -> verify_in_time (ws 8%nat) t2 it1 it2 -> patient (ws 9%nat) (lenN data) ->
  exists x a1, calls [(ws 0%nat, OSelect p); (ws 1%nat, OVerify pw0 t0); (ws 2%nat, ODecrypt)] (fresh 1) f = Some ([ROk; ROk; RData (mkFD (Some 1) (Some x))], a1, f) /\ bdata x = data /\
  exists b h c a' f',
    calls [(ws 3%nat, OHeader pw ds t1); (ws 4%nat, OEncrypt (text x)); (ws 5%nat, OWrite); (ws 6%nat, OLogout); (ws 7%nat, OSelect p); (ws 8%nat, OVerify pw t2); (ws 9%nat, ODecrypt)] a1 f =
      Some ([ROk; ROk; ROk; RVoid; ROk; ROk; RData (mkFD (Some 1) (Some b))], a', f') /\
    bdata b = data /\ created H (ws 3%nat) ds pw h /\ f' l = Some c /\ sealed H h pw data c /\ (forall l', l' <> l -> f' l' = f l').
Proof. exact rekey. Qed.
Print Assumptions C42_new_password.
Example C42_ex :
  match calls (map (pair rnd_world) [OSelect a_enc_path; OVerify ex_pw 0; ODecrypt; OHeader ex_pw2 ex_ds 0; OEncrypt (text ex_data); OWrite; OLogout; OSelect a_enc_path; OVerify ex_pw 0; OVerify ex_pw2 0; ODecrypt])
    (fresh 1) ex_files with
  | Some ([ROk; ROk; RData _; ROk; ROk; ROk; RVoid; ROk; RErr FAIL ERR_PASSWORD_INVALID; ROk; RData (mkFD _ (Some b))], _, _) => bdata b = bdata ex_data
  | _ => False
  end.
Proof. vm_compute. reflexivity. Qed.

(** C43 *)
Theorem C43_no_names : forall w a f dir f' a' l, step w a f (OList dir) = (f', Ret (a', RNames l)) -> l = [].
Proof. exact names_empty. Qed.
Print Assumptions C43_no_names.
Theorem C43_entry_paths : (forall n, join [] n = n) /\ (forall d n, join (d ++ [x2f]) n = d ++ [x2f] ++ n) /\
  (forall d c n, c <> x2f -> join (d ++ [c]) n = d ++ [c] ++ [x2f] ++ n).
Proof. exact entry_path. Qed.
Print Assumptions C43_entry_paths.
Definition dir_world : world :=
  mkWorld ex_loc (fun _ => true) (fun _ => true) (fun _ => true) (fun _ => true) (fun _ => true) (fun _ => Entries [(str "a.enc", true); (str "b.txt", true)]) 1000000
    (fun _ k => zrnd k) 0 (fun _ => 0) (fun _ => 0) ex_hashes Release (N.to_nat 3000).
Example C43_ex : join (str "dir") (str "a.enc") = a_enc_path /\ match getFileHandler dir_world ex_files a_enc_path with Ret (inr h) => fh_isDataHeader dir_world ex_files 0 1 h = dret tt | _ => False end /\
  match step dir_world (fresh 1) ex_files (OList (str "dir")) with (_, Ret (_, r)) => r = RNames [] | _ => False end.
Proof. split; [reflexivity|]. split; vm_compute; reflexivity. Qed.

(** C44 *)
Theorem C44_failed_encryption : forall H, hashes_ok H -> forall bd mode tr a w f x f' a' s c,
  history bd H mode tr a -> world_ok bd H w -> fs_ok f -> op_ok (OEncrypt x) -> a_state a = DECRYPTED -> step w a f (OEncrypt x) = (f', Ret (a', RErr s c)) ->
  f' = f /\ a_state a' = DECRYPTED /\ a_key a' = a_key a /\ a_file a' = a_file a /\ a_fdata a' = a_fdata a /\
  exists d d', a_dh a = Some d /\ a_dh a' = Some d' /\ contents d' = contents d /\ contents d <> None.
Proof. exact encrypt_failed. Qed.
Print Assumptions C44_failed_encryption.
(** whatever happened before, encryption is still possible *)
Theorem C44_encryption_stays_possible : forall H, hashes_ok H -> forall bd mode tr a w f data, history bd H mode tr a -> world_ok bd H w -> a_state a = DECRYPTED ->
  getLen data < 2 ^ 31 -> patient w (getLen data) -> exists a', step w a f (OEncrypt (text data)) = (f, Ret (a', ROk)).
Proof. exact encrypt_possible. Qed.
Print Assumptions C44_encryption_stays_possible.
Example C44_ex : exists tr a, history Release ex_hashes 1 tr a /\ a_state a = DECRYPTED /\
  match step ex_world a ex_files (OEncrypt (Some (mkFD (Some 2) (Some ex_data)))) with
  | (_, Ret (a', RErr FAIL ERR_FILEMODE_INVALID)) => match step ex_world a' ex_files (OEncrypt (text ex_data)) with (_, Ret (_, ROk)) => True | _ => False end
  | _ => False
  end.
Proof. history_of opening. auto. Qed.
