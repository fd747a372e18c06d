(** What a message tells, stated with the public interface only. *)
From Coq Require Import Strings.String.
From Verif Require Import Base BytesModel MiscModel PwModel ChModel HeaderModel FileModel ApiModel ApiSpec TextModel MsgModel.
Open Scope N_scope.
Open Scope list_scope.

(** the code of a call that fails *)
Definition reported (r : outcome (api * reply)) : option errcode :=
  match r with Ret (_, RErr _ c) => Some c | _ => None end.

(** ** Calls in the wrong state *)
Definition method_name (o : op) : bytes :=
  match o with
  | OList _ => str "getRelevantFileNames" | OCreate _ => str "createFile" | OSelect _ => str "selectFile" | OIsEmpty => str "isFileEmpty"
  | OUnselect => str "unselectFile" | ODelete => str "deleteFile" | OContent => str "getFileContent" | OVerify _ _ => str "verifyPassword"
  | OHeader _ _ _ | OHeaderTime _ _ => str "createDataHeader" | OSalt => str "changeSalt" | ODecrypt => str "getDecryptedData"
  | OGetData => str "getFileData" | OEncrypt _ => str "encryptData" | OWrite | OWriteTo _ => str "writeToFile"
  | OLogout | OLogoutMode _ => str "logout"
  end.
Definition state_name (s : state) : bytes :=
  match s with
  | INIT => str "INIT" | FILE_SELECTED => str "FILE_SELECTED" | EMPTY_FILE_SELECTED => str "EMPTY_FILE_SELECTED"
  | PASSWORD_VERIFIED => str "PASSWORD_VERIFIED" | DECRYPTED => str "DECRYPTED" | ENCRYPTED => str "ENCRYPTED" | FINISHED => str "FINISHED"
  end.
Definition states : list state := [INIT; FILE_SELECTED; EMPTY_FILE_SELECTED; PASSWORD_VERIFIED; DECRYPTED; ENCRYPTED; FINISHED].
Fixpoint either (l : list bytes) : bytes :=
  match l with [] => [] | [x] => x | x :: r => x ++ str " or " ++ either r end.
(** the sentence for a call with a name and the states that offer it *)
Definition sentence (name : bytes) (ss : list bytes) : bytes := name ++ str " is only available in the " ++ either ss ++ str " state".
(** what a user may expect to read: the name of the function, and all states that offer it *)
Definition proper (o : op) : bytes := sentence (method_name o) (map state_name (filter (fun s => offered s o) states)).
(** the functions whose sentence is another one *)
Definition misnamed (o : op) : option bytes :=
  match o with
  | OCreate _ => Some (sentence (str "createEncFile") [str "INIT"])
  | ODelete => Some (sentence (str "deleteEncFile") [str "FILE_SELECTED"; str "EMPTY_FILE_SELECTED"])
  | OUnselect => Some (sentence (str "selectFile") [str "FILE_SELECTED"; str "EMPTY_FILE_SELECTED"])
  | OHeader _ _ _ => Some (sentence (str "createDataHeader") [str "EMPTY_FILE_SELECTED"; str "DECRYPT"])
  | _ => None
  end.
(** createDataHeader complains about its settings first *)
Definition well_set (o : op) : Prop :=
  match o with OHeader _ ds _ | OHeaderTime _ ds => set_isComplete ds = true | _ => True end.

(** ** Files *)
(** the codes that are about a path *)
Definition about_path (c : errcode) : bool :=
  match c with
  | ERR_EMPTY_FILEPATH | ERR_EXTENSION_INVALID | ERR_FILEPATH_INVALID | ERR_FILE_EXISTS | ERR_FILE_NOT_FOUND | ERR_FILE_NOT_DELETED
  | ERR_FILE_NOT_CREATED | ERR_FILE_NOT_OPEN | ERR_FILE_NOT_EMPTY | ERR_FILE_READ => true
  | _ => false
  end.
(** the path that a call is about: its argument, or the selected file *)
Definition path_of (a : api) (o : op) : bytes :=
  match o with
  | OList p | OCreate p | OSelect p | OWriteTo p => p
  | _ => match a_file a with Some h => fh_path h | None => [] end
  end.
(** a path without zero bytes *)
Definition no_zero (p : bytes) : Prop := ~ In x00 p.
(** the wording around the path *)
Definition wording (c : errcode) (p : bytes) : bytes :=
  match c with
  | ERR_EMPTY_FILEPATH => str "Filepath is empty"
  | ERR_EXTENSION_INVALID => p ++ str " file extension is invalid"
  | ERR_FILEPATH_INVALID => str "Filepath is invalid: " ++ p
  | ERR_FILE_EXISTS => p ++ str " file already exists"
  | ERR_FILE_NOT_FOUND => p ++ str " file could not be found"
  | ERR_FILE_NOT_DELETED => p ++ str " file could not be deleted"
  | ERR_FILE_NOT_CREATED => p ++ str " file could not be created"
  | ERR_FILE_NOT_OPEN => p ++ str " file could not be opened"
  | ERR_FILE_NOT_EMPTY => p ++ str " file is not empty"
  | ERR_FILE_READ => str "File could not be read: " ++ p
  | _ => []
  end.

(** ** Everything else that is not about the content of a file *)
(** the codes and short messages of each function that are not about a path *)
Definition refusal (o : op) : bytes := match misnamed o with Some t => t | None => proper o end.
Definition ended_too_late : errcode * bytes := (ERR_TIMEOUT, str "A timeout occurred: ").
Definition fixed_messages (o : op) : list (errcode * bytes) :=
  (ERR_API_STATE_INVALID, str "API is in the wrong state. Method failed: " ++ refusal o) ::
  match o with
  | OSelect _ | OWriteTo _ => [(ERR_FILEHANDLER_CREATION, str "FileHandler could not be created: ")]
  | OVerify _ _ => [ended_too_late; (ERR_PASSWORD_INVALID, str "Password is invalid"); (ERR, str "Some error occurred while verifying the password")]
  | OHeader _ _ _ =>
      [ ended_too_late; (ERR_DATAHEADERSETTINGS_INCOMPLETE, str "DataHeaderSettings are incomplete");
        (ERR_FILEMODE_INVALID, str "File mode is invalid: The file mode does not match with the file data mode");
        (ERR, str "Something went wrong while creating the chainhashes"); (ERR, str "An error occurred while setting the header parts") ]
  | OHeaderTime _ _ => [(ERR_DATAHEADERSETTINGS_INCOMPLETE, str "DataHeaderSettings are incomplete")]
  | OSalt => [(ERR, str "An error occurred while setting the header parts")]
  | ODecrypt => [(ERR, str "In getDecryptedData: Something went wrong while decrypting the data")]
  | OGetData => [(ERR_FILEDATASTRUCT_NULL, str "FileDataStruct is null. It was moved previously")]
  | OEncrypt _ =>
      [ (ERR_FILEDATASTRUCT_INCOMPLETE, str "FileDataStruct is incomplete");
        (ERR_FILEMODE_INVALID, str "File mode is invalid:  In encryptData: The provided file mode does not match with the given file data mode");
        (ERR, str "In encryptData: Something went wrong while encrypting the data") ]
  | _ => []
  end.

(** ** Damaged files *)
(** the codes that selectFile gives for what is in the file *)
Definition from_content (o : op) (c : errcode) : bool :=
  match o, c with
  | OSelect _, (ERR_API_STATE_INVALID | ERR_FILEHANDLER_CREATION) => false
  | OSelect _, _ => negb (about_path c)
  | _, _ => false
  end.
(** what the decoder was about to read *)
Definition places : list bytes :=
  [ str "Data block type"; str "Data block len"; str "Data block data";
    str "Chainhash1 mode"; str "Chainhash1 iters"; str "Chainhash1 blocklen"; str "Chainhash data block 1";
    str "Chainhash2 mode"; str "Chainhash2 iters"; str "Chainhash2 blocklen"; str "Chainhash data block 2";
    str "Password validator hash"; str "Encrypted salt"; str "Encrypted block count"; str "Enc datablock type"; str "Enc datablock len"; str "Enc datablock data" ].
(** the byte at a position is not between two numbers *)
Definition outside (lo hi : N) (b : byte) : Prop := ~ lo <= b2n b <= hi.
(** what may be told about a file with this content *)
Definition damage (file : bytes) (x : failure) : Prop :=
  match x_code x with
  | ERR_NOT_ENOUGH_DATA =>
      (x_info x = str "Chainhash data block 2" /\ x_what x = Thrown LengthError) \/
      (In (x_info x) places /\ x_info x <> str "Chainhash data block 2" /\ x_what x = Quote (str "setHeaderBytes"))
  | ERR_FILEMODE_INVALID => exists b, nth_error file 16 = Some b /\ outside 1 1 b /\ x_info x = [b] /\ x_what x = Thrown InvalidArgument
  | ERR_HASHMODE_INVALID => exists b, nth_error file 17 = Some b /\ outside 1 3 b /\ x_info x = [b] /\ x_what x = Thrown InvalidArgument
  | ERR_CHAINHASHMODE_FORMAT_INVALID => exists b, In b (dropN 19 file) /\ outside 1 5 b /\ x_info x = [b] /\ x_what x = Thrown InvalidArgument
  | ERR_CHAINHASH1_INVALID | ERR_CHAINHASH2_INVALID => x_what x = Thrown InvalidArgument
  | ERR_FILESIZE_INVALID => x_info x = [n2b (lenN file)] /\ x_what x = Thrown InvalidArgument
  | _ => False
  end.
