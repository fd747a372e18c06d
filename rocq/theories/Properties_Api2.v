(** Properties C60 and C64-C68. *)
From Coq Require Import Strings.String.
From Verif Require Import Base BaseFacts BytesModel BytesSpec MiscModel CipherModel CipherSpec PwModel PwSpec ChModel ChSpec HeaderModel HeaderSpec Toy FileModel ApiModel ApiSpec ApiSpec2
  FileFacts ApiFacts5 ApiFacts6 ApiFacts7 ApiFacts8 ApiFacts9 ApiFacts11 ApiFacts12 Properties_Header Properties_File Properties_Api.

(** C60 *)
Theorem C60_dies_exactly : forall H, hashes_ok H -> forall bd mode tr a w f o f' c,
  history bd H mode tr a -> world_ok bd H w -> fs_ok f -> op_ok o ->
  (step w a f o = (f', Crash c) <-> f' = f /\ offered (a_state a) o = true /\ fatal w f tr o c).
Proof. exact dies_iff. Qed.
Print Assumptions C60_dies_exactly.
Theorem C60_returns_otherwise : forall H, hashes_ok H -> forall bd mode tr a w f o,
  history bd H mode tr a -> world_ok bd H w -> fs_ok f -> op_ok o ->
  (forall c, ~ fatal w f tr o c) -> enough w tr o -> exists f' a' r, step w a f o = (f', Ret (a', r)).
Proof. exact returns_otherwise. Qed.
Print Assumptions C60_returns_otherwise.
Theorem C60_never_throws : forall H, hashes_ok H -> forall bd mode tr a w f o f' e,
  history bd H mode tr a -> world_ok bd H w -> fs_ok f -> op_ok o -> step w a f o <> (f', Throw e).
Proof. exact never_throws. Qed.
Print Assumptions C60_never_throws.
(** the status of no file can be asked for *)
Definition blind_world : world :=
  mkWorld ex_loc (fun _ => false) (fun _ => true) (fun _ => true) (fun _ => true) (fun _ => false) (fun _ => Unlistable) 1000000
    (fun _ k => zrnd k) 0 (fun _ => 0) (fun _ => 0) ex_hashes Release (N.to_nat 3000).
Definition debug_world : world :=
  mkWorld ex_loc (fun _ => true) (fun _ => true) (fun _ => true) (fun _ => true) (fun _ => true) (fun _ => Missing) 1000000
    (fun _ k => zrnd k) 0 (fun _ => 0) (fun _ => 0) ex_hashes Debug (N.to_nat 3000).
(** a header that is announced to have 125 bytes *)
Definition ex_bad_size : bytes := u64 191 ++ u64 125 ++ dropN 16 ex_file.
(** a file whose only block is announced to be empty *)
Definition ex_zero_block : bytes := pre 104 104 1 1 [] ++ u8 7 ++ u8 0 ++ repeat x00 83.
Example C60_ex_select :
  fatal blind_world ex_files [] (OSelect a_enc_path) Terminate /\ step blind_world (fresh 1) ex_files (OSelect a_enc_path) = (ex_files, Crash Terminate) /\
  zero_block ex_zero_block /\ step ex_world (fresh 1) (one_file ex_zero_block) (OSelect a_enc_path) = (one_file ex_zero_block, Crash Terminate) /\
  step debug_world (fresh 1) (one_file ex_bad_size) (OSelect a_enc_path) = (one_file ex_bad_size, Crash AssertFail) /\
  match step ex_world (fresh 1) (one_file ex_bad_size) (OSelect a_enc_path) with (_, Ret (_, ROk)) => True | _ => False end.
Proof.
  split; [split; [exists (str "dir/"), x61; split; [reflexivity|discriminate]|left; auto]|]. split; [vm_compute; reflexivity|].
  split; [|split; [vm_compute; reflexivity|split; [vm_compute; reflexivity|vm_compute; exact I]]].
  exists 104, 1, 1, [], 7, (repeat x00 83). unfold pre_ok. repeat split; try reflexivity; try (vm_compute; discriminate); constructor.
Qed.
Example C60_ex_encrypt : exists tr a, history Release ex_hashes 1 tr a /\ a_state a = DECRYPTED /\
  match step ex_world a ex_files (OEncrypt None) with (_, Crash Undefined) => True | _ => False end /\
  match step ex_world a ex_files (OEncrypt (Some (mkFD (Some 1) None))) with (_, Crash Undefined) => True | _ => False end /\
  match step ex_world a ex_files (OHeaderTime ex_pw ex_ds) with (_, Crash Terminate) => True | _ => False end /\
  (forall c, ~ fatal ex_world ex_files tr (OEncrypt (text ex_data)) c) /\ (getLen ex_data < 2 ^ 31 /\ patient ex_world (getLen ex_data)).
Proof.
  history_of opening. repeat split; try exact I; [intros c (_ & [E|E]); discriminate E|]. apply Nat.leb_le. vm_compute. reflexivity.
Qed.
Example C60_ex_delete : exists tr a, history Release ex_hashes 1 tr a /\ a_state a = FILE_SELECTED /\
  fatal blind_world ex_files tr ODelete Terminate /\ match step blind_world a ex_files ODelete with (_, Crash Terminate) => True | _ => False end /\
  match step blind_world (fresh 1) ex_files (OList (str "dir")) with (_, Crash Terminate) => True | _ => False end.
Proof. history_of [OSelect a_enc_path]. repeat split. eexists _, _. split; reflexivity. Qed.
(** the index of getRelevantFileNames is an int *)
Theorem C60_too_many_files : forall H, hashes_ok H -> forall bd mode tr a w f dir l k,
  history bd H mode tr a -> a_state a = INIT -> world_ok bd H w -> fs_ok f -> dir <> [] -> w_dir w dir = Entries l ->
  looked_at_in l k -> 2 ^ 31 <= k -> harmless w f dir l -> step w a f (OList dir) = (f, Crash Undefined).
Proof. exact too_many. Qed.
Print Assumptions C60_too_many_files.
(** n entries of the same name, of which there is no file *)
Definition crowded (n : nat) : list (bytes * bool) := repeat (str "b.enc", true) n.
Definition crowded_world (n : nat) : world :=
  mkWorld ex_loc (fun _ => true) (fun _ => true) (fun _ => true) (fun _ => true) (fun _ => true) (fun _ => Entries (crowded n)) 1000000
    (fun _ k => zrnd k) 0 (fun _ => 0) (fun _ => 0) ex_hashes Release (N.to_nat 3000).
Example C60_ex_too_many : forall n, N.of_nat n = 2 ^ 31 -> step (crowded_world n) (fresh 1) (fun _ => None) (OList (str "dir")) = (fun _ => None, Crash Undefined).
Proof.
  intros n Hn. assert (enc_entry (str "b.enc", true)) as En by (split; [reflexivity|]; exists [], x62; split; [reflexivity|discriminate]).
  assert (history Release ex_hashes 1 [] (fresh 1)) as Hh by (apply hist_new; reflexivity).
  refine (C60_too_many_files _ ex_hashes_ok Release 1 [] (fresh 1) (crowded_world n) _ _ (crowded n) (N.of_nat n) Hh eq_refl _ _ _ eq_refl _ _ _).
  - split; [reflexivity|]. split; [reflexivity|]. split; [|reflexivity]. exact (proj1 (proj2 (proj2 ex_world_ok))).
  - intros p c E. discriminate E.
  - discriminate.
  - clear Hn. induction n as [|n IH]; [constructor|]. rewrite Nat2N.inj_succ, <- N.add_1_r. apply look_one; assumption.
  - rewrite Hn. apply N.le_refl.
  - clear Hn. unfold harmless. induction n as [|n IH]; [constructor|]. constructor; [|exact IH].
    intros _ c (_ & [[_ E]|(_ & _ & x & hsz & E & _)]); discriminate E.
Qed.
Example C60_ex_so_many : N.of_nat (N.to_nat (2 ^ 31)) = 2 ^ 31.
Proof. exact (N2Nat.id _). Qed.

(** C64 *)
Theorem C64_content_is_current : forall H, hashes_ok H -> forall bd mode tr a w f p c0,
  history bd H mode tr a -> a_state a = FILE_SELECTED -> selected tr = Some (p, c0) ->
  step w a f OContent = (f, Ret (a, match f (w_loc w p) with
    | Some c => if w_read w p then RBytes (mkBytes (takeN (lenN c mod 2 ^ 32) c) (lenN c)) else RErr FAIL ERR_FILE_READ
    | None => RErr FAIL ERR_FILE_READ end)).
Proof. exact content_outcome. Qed.
Print Assumptions C64_content_is_current.
Theorem C64_empty_file : forall bd H mode tr a w f, history bd H mode tr a -> a_state a = EMPTY_FILE_SELECTED ->
  step w a f OContent = (f, Ret (a, RBytes (mkBytes [] 0))).
Proof. intros bd H. exact (content_empty H bd). Qed.
Print Assumptions C64_empty_file.
(** the file is replaced after it was selected *)
Example C64_ex : exists tr a, history Release ex_hashes 1 tr a /\ a_state a = FILE_SELECTED /\ selected tr = Some (a_enc_path, ex_file) /\
  match step ex_world a (one_file [x61; x62]) OContent with (_, Ret (_, RBytes b)) => bdata b = [x61; x62] | _ => False end /\
  match step ex_world a (fun _ => None) OContent with (_, Ret (_, RErr FAIL ERR_FILE_READ)) => True | _ => False end.
Proof. history_of [OSelect a_enc_path]. auto. Qed.

(** C65 *)
Theorem C65_emptiness_is_remembered : forall H, hashes_ok H -> forall bd mode tr a w f, history bd H mode tr a -> offered (a_state a) OIsEmpty = true ->
  exists p c, selected tr = Some (p, c) /\ step w a f OIsEmpty = (f, Ret (a, RBool (match c with [] => true | _ => false end))).
Proof. exact empty_outcome. Qed.
Print Assumptions C65_emptiness_is_remembered.
Theorem C65_data_once : forall H, hashes_ok H -> forall bd mode tr a w f, history bd H mode tr a -> a_state a = DECRYPTED ->
  exists a', step w a f OGetData = (f, Ret (a', if unread tr then RData (mkFD (Some 1) (Some (mkBytes [] 0))) else RErr FAIL ERR_FILEDATASTRUCT_NULL)).
Proof. exact get_data_outcome. Qed.
Print Assumptions C65_data_once.
Example C65_ex : (exists tr a, history Release ex_hashes 1 tr a /\ offered (a_state a) OIsEmpty = true /\
    match step ex_world a (one_file []) OIsEmpty with (_, Ret (_, r)) => r = RBool false | _ => False end) /\
  (exists tr a, history Release ex_hashes 1 tr a /\ a_state a = DECRYPTED /\ unread tr = false) /\
  match calls (map (pair ex_world) [OSelect a_enc_path; OIsEmpty; OHeader ex_pw ex_ds 0; OSalt; OGetData; OGetData; OHeader ex_pw ex_ds 0; OGetData]) (fresh 1) (one_file []) with
  | Some ([ROk; RBool true; ROk; ROk; RData _; RErr FAIL ERR_FILEDATASTRUCT_NULL; ROk; RErr FAIL ERR_FILEDATASTRUCT_NULL], _, _) => True
  | _ => False
  end.
Proof. split; [history_of [OSelect a_enc_path]; auto|]. split; [history_of opening; auto|]. vm_compute. exact I. Qed.

(** C66 *)
Theorem C66_short_write_reported_as_success : forall H, hashes_ok H -> forall bd mode tr a w p x f w2,
  history bd H mode tr a -> a_state a = ENCRYPTED -> selected tr = Some (p, x) -> usable_file w p -> f (w_loc w p) <> None -> at_hand bd H w2 p (w_loc w p) ->
  exists c a' f', step w a f OWrite = (f', Ret (a', ROk)) /\ f' (w_loc w p) = Some (takeN (w_room w) c) /\
    (exists h pw data, password tr = Some pw /\ encrypted tr = Some data /\ sealed H h pw data c) /\
    (0 < w_room w < lenN c -> step w2 (fresh 1) f' (OSelect p) = (f', Ret (fresh 1, RErr FAIL ERR_FILEHANDLER_CREATION))).
Proof. exact write_short. Qed.
Print Assumptions C66_short_write_reported_as_success.
Definition full_world : world :=
  mkWorld ex_loc (fun _ => true) (fun _ => true) (fun _ => true) (fun _ => true) (fun _ => true) (fun _ => Missing) 150
    (fun _ k => zrnd k) 0 (fun _ => 0) (fun _ => 0) ex_hashes Release (N.to_nat 3000).
Example C66_ex : exists tr a, history Release ex_hashes 1 tr a /\ a_state a = ENCRYPTED /\ selected tr = Some (a_enc_path, ex_file) /\
  match calls [(full_world, OWrite); (ex_world, OLogout); (ex_world, OSelect a_enc_path)] a ex_files with
  | Some ([ROk; RVoid; RErr FAIL ERR_FILEHANDLER_CREATION], _, f') => option_map lenN (f' (ex_loc a_enc_path)) = Some 150
  | _ => False
  end.
Proof. history_of (opening ++ [OEncrypt (text ex_data)]). auto. Qed.

(** C67 *)
Theorem C67_write_is_blind : forall H, hashes_ok H -> forall bd mode tr a w p x,
  history bd H mode tr a -> a_state a = ENCRYPTED -> selected tr = Some (p, x) -> usable_file w p ->
  exists c a', (exists h pw data, password tr = Some pw /\ encrypted tr = Some data /\ current H tr h /\ lenN data < 2 ^ 31 /\ sealed H h pw data c) /\
    a_state a' = FINISHED /\
    forall f, f (w_loc w p) <> None ->
      exists f', step w a f OWrite = (f', Ret (a', ROk)) /\ f' (w_loc w p) = Some (takeN (w_room w) c) /\ forall l, l <> w_loc w p -> f' l = f l.
Proof. exact write_blind. Qed.
Print Assumptions C67_write_is_blind.
(** another program has saved the file in the meantime *)
Example C67_ex : exists tr a, history Release ex_hashes 1 tr a /\ a_state a = ENCRYPTED /\ selected tr = Some (a_enc_path, ex_file) /\ usable_file ex_world a_enc_path /\
  match step ex_world a (one_file (str "saved by someone else")) OWrite, step ex_world a ex_files OWrite with
  | (f1, Ret (_, ROk)), (f2, Ret (_, ROk)) => f1 (ex_loc a_enc_path) = f2 (ex_loc a_enc_path) /\ f1 (ex_loc a_enc_path) = Some ex_file
  | _, _ => False
  end.
Proof. history_of (opening ++ [OEncrypt (text ex_data)]). repeat split. Qed.

(** C68 *)
Theorem C68_delete_outcome : forall H, hashes_ok H -> forall bd mode tr a w (f : fs) p c,
  history bd H mode tr a -> offered (a_state a) ODelete = true -> selected tr = Some (p, c) -> w_remove w p = true ->
  (f (w_loc w p) = None -> step w a f ODelete = (f, Ret (a, RErr FAIL ERR_FILE_NOT_DELETED))) /\
  (f (w_loc w p) <> None -> step w a f ODelete = (upd f (w_loc w p) None, Ret (fresh 1, ROk))).
Proof. exact delete_outcome. Qed.
Print Assumptions C68_delete_outcome.
Theorem C68_create_then_delete : forall H bd w1 w2 w3 p l (f : fs), at_hand bd H w1 p l -> at_hand bd H w2 p l -> w_loc w3 p = l -> enc_path p ->
  w_create w1 p = true -> w_remove w3 p = true -> f l = None ->
  exists f', calls [(w1, OCreate p); (w2, OSelect p); (w3, ODelete)] (fresh 1) f = Some ([ROk; ROk; ROk], fresh 1, f') /\ forall l', f' l' = f l'.
Proof. exact create_delete. Qed.
Print Assumptions C68_create_then_delete.
Example C68_ex : exists tr a, history Release ex_hashes 1 tr a /\ offered (a_state a) ODelete = true /\ selected tr = Some (a_enc_path, ex_file) /\
  w_remove ex_world a_enc_path = true /\ w_create ex_world a_enc_path = true /\
  match step ex_world a (upd (one_file [x61]) 0 (Some [x62])) ODelete with (f', Ret (_, ROk)) => f' (ex_loc a_enc_path) = None /\ f' 0 = Some [x62] | _ => False end /\
  match step ex_world a (fun _ => None) ODelete with (_, Ret (_, RErr FAIL ERR_FILE_NOT_DELETED)) => True | _ => False end.
Proof. history_of [OSelect a_enc_path]. repeat split. Qed.
