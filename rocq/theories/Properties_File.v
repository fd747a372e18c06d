(** Properties C30-C32: the file handler. *)
From Coq Require Import Strings.String.
From Verif Require Import Base BaseFacts BytesModel BytesSpec CipherModel PwModel ChModel HeaderModel HeaderSpec Toy FileModel ApiModel ApiSpec
  FileFacts FileFacts2 Properties_Header.

(** a world for the Examples: every permission is granted and nothing takes time *)
Definition ex_loc (p : bytes) : N := lenN p.
Definition ex_world : world :=
  mkWorld ex_loc (fun _ => true) (fun _ => true) (fun _ => true) (fun _ => true) (fun _ => true) (fun _ => Missing) 1000000
    (fun _ k => zrnd k) 0 (fun _ => 0) (fun _ => 0) ex_hashes Release (N.to_nat 3000).
Definition a_enc_path : bytes := str "dir/a.enc".
Example a_enc_path_ok : enc_path a_enc_path.
Proof. exists (str "dir/"), x61. split; [reflexivity|discriminate]. Qed.
Definition one_file (c : bytes) : fs := upd (fun _ => None) (ex_loc a_enc_path) (Some c).
Example one_file_ok c : lenN c < 2 ^ 63 -> fs_ok (one_file c).
Proof. intros L l c' E. unfold one_file, upd in E. destruct (l =? ex_loc a_enc_path); [congruence|discriminate]. Qed.
(** the smallest content with fitting size fields *)
Definition small_content : bytes := u64 104 ++ u64 104 ++ repeat x00 88.

(** C30 *)
Theorem C30_open_iff : forall w f p, fs_ok f ->
  ((exists h, newFileHandler w f p = Ret h) <->
   (enc_path p /\ w_stat w p = true /\ w_read w p = true /\
    exists c, f (w_loc w p) = Some c /\ (c = [] \/ exists hsz, hsz < 2 ^ 64 /\ sizes_fit c hsz))).
Proof. exact open_iff. Qed.
Print Assumptions C30_open_iff.
Theorem C30_open_result : forall w f p h, fs_ok f -> newFileHandler w f p = Ret h ->
  exists c, f (w_loc w p) = Some c /\ fh_path h = p /\ fh_fsize h = lenN c /\ (fh_empty h = true <-> c = []) /\
    (c = [] -> fh_hsize h = 0) /\ (c <> [] -> sizes_fit c (fh_hsize h)).
Proof. exact open_result. Qed.
Print Assumptions C30_open_result.
(** what the API makes of the other cases *)
Theorem C30_error_codes : forall w f p, fs_ok f ->
  (p = [] -> getFileHandler w f p = dfail ERR_EMPTY_FILEPATH) /\
  (p <> [] -> ~ enc_path p -> getFileHandler w f p = dfail ERR_EXTENSION_INVALID) /\
  (enc_path p -> w_stat w p = false -> getFileHandler w f p = Crash Terminate) /\
  (enc_path p -> w_stat w p = true -> f (w_loc w p) = None -> getFileHandler w f p = dfail ERR_FILE_NOT_FOUND) /\
  (enc_path p -> w_stat w p = true -> f (w_loc w p) <> None -> w_read w p = false -> getFileHandler w f p = dfail ERR_FILE_NOT_OPEN) /\
  (forall c, enc_path p -> w_stat w p = true -> w_read w p = true -> f (w_loc w p) = Some c -> c <> [] ->
     (forall hsz, hsz < 2 ^ 64 -> ~ sizes_fit c hsz) -> getFileHandler w f p = dfail ERR_FILEHANDLER_CREATION).
Proof. exact open_codes. Qed.
Print Assumptions C30_error_codes.
Example C30_ex : fs_ok (one_file small_content) /\ sizes_fit small_content 104 /\
  newFileHandler ex_world (one_file small_content) a_enc_path = Ret (mkFH a_enc_path 104 104 false).
Proof.
  split; [apply one_file_ok; vm_compute; reflexivity|]. split; [|vm_compute; reflexivity].
  exists (repeat x00 88). split; [reflexivity|]. vm_compute. split; discriminate.
Qed.
Example C30_ex_short : getFileHandler ex_world (one_file (u64 12 ++ [x00; x00; x00; x00])) a_enc_path = dfail ERR_FILEHANDLER_CREATION.
Proof. vm_compute. reflexivity. Qed.

(** C31 *)
Theorem C31_create_outcome : forall w f p f' r, fh_createFile w f p = (f', r) ->
  (r = Ret (inr tt) /\ enc_path p /\ f (w_loc w p) = None /\ f' (w_loc w p) = Some [] /\ (forall l, l <> w_loc w p -> f' l = f l)) \/
  (r <> Ret (inr tt) /\ f' = f).
Proof. exact create_spec. Qed.
Print Assumptions C31_create_outcome.
Theorem C31_create_possible : forall w f p, enc_path p -> w_stat w p = true -> w_create w p = true -> f (w_loc w p) = None ->
  exists f', fh_createFile w f p = (f', dret tt).
Proof. exact create_ok. Qed.
Print Assumptions C31_create_possible.
Theorem C31_created_file_opens : forall w f p f', fs_ok f -> fh_createFile w f p = (f', dret tt) -> w_read w p = true ->
  newFileHandler w f' p = Ret (mkFH p 0 0 true).
Proof. exact create_open. Qed.
Print Assumptions C31_created_file_opens.
Example C31_ex : exists f', fh_createFile ex_world (fun _ => None) a_enc_path = (f', dret tt).
Proof. exact (create_ok ex_world (fun _ => None) a_enc_path a_enc_path_ok eq_refl eq_refl eq_refl). Qed.
Example C31_ex_existing : snd (fh_createFile ex_world (one_file []) a_enc_path) = dfail ERR_FILE_EXISTS.
Proof. vm_compute. reflexivity. Qed.

(** C32: [f] is the file system when the handler was opened, [f'] when it is used *)
Theorem C32_write_if_empty_is_stale : forall w w' f f' p h, fs_ok f -> newFileHandler w f p = Ret h -> usable_file w' p -> f' (w_loc w' p) <> None ->
  (f (w_loc w p) = Some [] -> exists h' f2, fh_getWriteStreamIfEmpty w' f' h = (h', f2, dret tt) /\ f2 (w_loc w' p) = Some [] /\ (forall l, l <> w_loc w' p -> f2 l = f' l)) /\
  (f (w_loc w p) <> Some [] -> fh_getWriteStreamIfEmpty w' f' h = (h, f', dfail ERR_FILE_NOT_EMPTY)).
Proof. exact stale_if_empty. Qed.
Print Assumptions C32_write_if_empty_is_stale.
Example C32_ex : exists h h' f2, newFileHandler ex_world (one_file []) a_enc_path = Ret h /\
  fh_getWriteStreamIfEmpty ex_world (one_file small_content) h = (h', f2, dret tt) /\ f2 (ex_loc a_enc_path) = Some [].
Proof. eexists _, _, _. split; [vm_compute; reflexivity|]. split; [vm_compute; reflexivity|vm_compute; reflexivity]. Qed.
