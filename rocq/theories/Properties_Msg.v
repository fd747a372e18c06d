(** Property C100: what the error messages tell. *)
From Coq Require Import Strings.String.
From Verif Require Import Base BytesModel BytesSpec MiscModel PwModel ChModel HeaderModel HeaderSpec Toy FileModel ApiModel ApiSpec TextModel MsgModel MsgSpec MsgFacts1 MsgFacts2 MsgFacts3 MsgFacts4
  Properties_Header Properties_File Properties_Api Properties_Ref.
Open Scope N_scope.
Open Scope list_scope.

(** the texts are those of the calls that fail, with their codes *)
Theorem C100_codes : forall w a f o, option_map x_code (told w a f o) = reported (snd (step w a f o)).
Proof. exact told_code. Qed.
Print Assumptions C100_codes.
(** a state further on *)
Fixpoint after (os : list op) (a : api) : api :=
  match os with [] => a | o :: r => match snd (step ex_world a ex_files o) with Ret (a', _) => after r a' | _ => a end end.
Definition no_text (e : exn) : bytes := [].
(** the message of a call after some others; what an exception says is left out *)
Definition shows (w : world) (f : fs) (os : list op) (o : op) : option bytes :=
  option_map (fun x => message no_text x false) (told w (after os (fresh 1)) f o).
Definition shows_more (w : world) (f : fs) (os : list op) (o : op) : option bytes :=
  option_map (fun x => message no_text x true) (told w (after os (fresh 1)) f o).
Example C100_codes_ex :
  option_map x_code (told ex_world (fresh 1) (fun _ => None) (OSelect a_enc_path)) = Some ERR_FILE_NOT_FOUND /\
  option_map x_code (told ex_world (after [OSelect a_enc_path] (fresh 1)) ex_files (OVerify ex_pw2 0)) = Some ERR_PASSWORD_INVALID /\
  told ex_world (after [OSelect a_enc_path] (fresh 1)) ex_files (OVerify ex_pw 0) = None.
Proof. vm_compute. auto. Qed.

(** a call in the wrong state: the sentence names the function and its states, except for four functions *)
Theorem C100_refused : forall w a f o, offered (a_state a) o = false -> well_set o ->
  told w a f o = Some (mkF ERR_API_STATE_INVALID (match misnamed o with Some t => t | None => proper o end) (Quote [])).
Proof. exact wrong_state. Qed.
Print Assumptions C100_refused.
Theorem C100_misnamed : forall o t, misnamed o = Some t -> t <> proper o.
Proof. exact misnamed_wrong. Qed.
Print Assumptions C100_misnamed.
Example C100_refused_ex :
  shows ex_world ex_files [] OWrite = Some (str "API is in the wrong state. Method failed: writeToFile is only available in the ENCRYPTED state") /\
  shows ex_world ex_files [] OUnselect = Some (str "API is in the wrong state. Method failed: selectFile is only available in the FILE_SELECTED or EMPTY_FILE_SELECTED state") /\
  shows ex_world ex_files [OSelect a_enc_path] (OCreate a_enc_path) = Some (str "API is in the wrong state. Method failed: createEncFile is only available in the INIT state") /\
  shows ex_world ex_files [OSelect a_enc_path] (OHeader ex_pw ex_ds 0) =
    Some (str "API is in the wrong state. Method failed: createDataHeader is only available in the EMPTY_FILE_SELECTED or DECRYPT state") /\
  proper (OCreate a_enc_path) = str "createFile is only available in the INIT state".
Proof. vm_compute. repeat split. Qed.

(** errors about a path show the path of the call, up to its first zero byte *)
Theorem C100_path : forall w a f o x, told w a f o = Some x -> about_path (x_code x) = true ->
  x_info x = cstr (path_of a o) /\ x_what x <> Quote (str "setHeaderBytes") /\
  (no_zero (path_of a o) -> path_of a o <> [] \/ x_code x = ERR_EMPTY_FILEPATH -> forall text, message text x false = wording (x_code x) (path_of a o)).
Proof. exact shown_path. Qed.
Print Assumptions C100_path.
(** a path with a zero byte is shown up to that byte *)
Theorem C100_path_cut : forall w a f o x p q, told w a f o = Some x -> about_path (x_code x) = true -> path_of a o = p ++ x00 :: q -> no_zero p -> p <> [] ->
  forall text, message text x false = wording (x_code x) p.
Proof. exact shown_path_cut. Qed.
Print Assumptions C100_path_cut.
Example C100_path_ex :
  shows ex_world (fun _ => None) [] (OSelect a_enc_path) = Some (str "dir/a.enc file could not be found") /\
  shows ex_world ex_files [] (OSelect (str "dir/a.txt")) = Some (str "dir/a.txt file extension is invalid") /\
  shows ex_world ex_files [] (OSelect []) = Some (str "Filepath is empty") /\
  shows ex_world ex_files [] (OCreate a_enc_path) = Some (str "dir/a.enc file already exists") /\
  shows ex_world (fun _ => None) [OSelect a_enc_path] ODelete = Some (str "dir/a.enc file could not be deleted") /\
  shows ex_world ex_files (opening ++ [OEncrypt (text ex_data)]) (OWriteTo a_enc_path) = Some (str "dir/a.enc file is not empty") /\
  shows ex_world (fun _ => None) [] (OSelect (str "dir" ++ [x00] ++ str "/a.enc")) = Some (str "dir file could not be found").
Proof. vm_compute. repeat split. Qed.

(** the other errors that are not about what is in a file have fixed messages: nothing of the password, the data or the settings is in them *)
Theorem C100_fixed : forall w a f o x, told w a f o = Some x -> about_path (x_code x) = false -> from_content o (x_code x) = false ->
  forall text, In (x_code x, message text x false) (fixed_messages o).
Proof. exact shown_fixed. Qed.
Print Assumptions C100_fixed.
(** both timeouts of verifyPassword read the same, although one of them says more *)
Example C100_fixed_ex :
  shows ex_world ex_files [OSelect a_enc_path] (OVerify ex_pw2 0) = Some (str "Password is invalid") /\
  shows slow_world ex_files [OSelect a_enc_path] (OVerify ex_pw 100) = Some (str "A timeout occurred: ") /\
  option_map x_info (told slow_world (after [OSelect a_enc_path] (fresh 1)) ex_files (OVerify ex_pw 100)) = Some (str "Timeout reached after the first chainhash") /\
  shows ex_world (one_file (takeN 190 ex_file)) [] (OSelect a_enc_path) = Some (str "FileHandler could not be created: ") /\
  shows ex_world ex_files opening (OEncrypt (Some (mkFD (Some 2) (Some ex_data)))) =
    Some (str "File mode is invalid:  In encryptData: The provided file mode does not match with the given file data mode").
Proof. vm_compute. repeat split. Qed.

(** what is told about the content of a file that cannot be read: a field that is missing or the byte that is wrong *)
Theorem C100_damage : forall w a f p x, (forall i k, lenN (w_rnd w i k) = k) -> lenN (stream_of w f p) < 2 ^ 64 -> a_state a = INIT ->
  told w a f (OSelect p) = Some x -> from_content (OSelect p) (x_code x) = true -> damage (stream_of w f p) x.
Proof. exact select_damage. Qed.
Print Assumptions C100_damage.
(** the first [n] bytes of a file with other size fields *)
Definition shortened (n : N) (l : bytes) : bytes := u64 n ++ u64 104 ++ dropN 16 (takeN n l).
Example C100_damage_ex :
  shows ex_world (one_file (put 17 x41 ex_file)) [] (OSelect a_enc_path) = Some (str "Hashmode is invalid: A") /\
  shows ex_world (one_file (put 16 x00 ex_file)) [] (OSelect a_enc_path) = Some (str "File mode is invalid: " ++ [x00]) /\
  shows ex_world (one_file (shortened 120 ex_file)) [] (OSelect a_enc_path) = Some (str "Not enough data to read information: Encrypted salt") /\
  shows_more ex_world (one_file (shortened 120 ex_file)) [] (OSelect a_enc_path) =
    Some (str "Not enough data to read information: Encrypted salt" ++ [x0a] ++ str "Exception message: setHeaderBytes") /\
  shows ex_world (one_file (shortened 123 ex_file)) [] (OSelect a_enc_path) = Some (str "Filesize is invalid: {") /\
  shows ex_world (one_file (put 23 x06 ex_file)) [] (OSelect a_enc_path) = Some (str "Chainhash mode format is invalid for chainhash mode: " ++ [x06]) /\
  shows ex_world (one_file (put 24 xff ex_file)) [] (OSelect a_enc_path) = Some (str "Chainhash1 is invalid").
Proof. vm_compute. repeat split. Qed.
(** such a message does not depend on which file it is *)
Theorem C100_damage_nameless : forall w a a' f p p' x, a_state a = INIT -> a_state a' = INIT -> stream_of w f p = stream_of w f p' -> isValidPath w f p' true = dret tt ->
  told w a f (OSelect p) = Some x -> about_path (x_code x) = false -> told w a' f (OSelect p') = Some x.
Proof. exact same_content. Qed.
Print Assumptions C100_damage_nameless.
Definition two_files (c : bytes) : fs := upd (one_file c) (ex_loc (str "dir/other.enc")) (Some c).
Example C100_damage_nameless_ex :
  shows ex_world (two_files (put 17 x41 ex_file)) [] (OSelect a_enc_path) = Some (str "Hashmode is invalid: A") /\
  shows ex_world (two_files (put 17 x41 ex_file)) [] (OSelect (str "dir/other.enc")) = Some (str "Hashmode is invalid: A").
Proof. vm_compute. auto. Qed.
(** a wrong mode is shown as a character, which is never its number *)
Theorem C100_raw_byte : forall b, [b] <> decimal (b2n b).
Proof. exact raw_byte. Qed.
Print Assumptions C100_raw_byte.
Example C100_raw_byte_ex : decimal (b2n x41) = str "65" /\ [x41] = str "A" /\ decimal (b2n x04) = str "4".
Proof. vm_compute. auto. Qed.
(** the verbose message quotes an exception, nothing, or the name of a function although nothing was thrown *)
Theorem C100_quotes : forall w a f o x t, told w a f o = Some x -> x_what x = Quote t -> t = [] \/ (t = str "setHeaderBytes" /\ exists p, o = OSelect p).
Proof. exact shown_what. Qed.
Print Assumptions C100_quotes.
Example C100_quotes_ex :
  shows_more ex_world ex_files [OSelect a_enc_path] (OVerify ex_pw2 0) = Some (str "Password is invalid" ++ [x0a] ++ str "Exception message: ") /\
  option_map x_what (told ex_world (fresh 1) (one_file (shortened 120 ex_file)) (OSelect a_enc_path)) = Some (Quote (str "setHeaderBytes")) /\
  option_map x_what (told ex_world (fresh 1) (one_file (put 17 x41 ex_file)) (OSelect a_enc_path)) = Some (Thrown InvalidArgument).
Proof. vm_compute. auto. Qed.
