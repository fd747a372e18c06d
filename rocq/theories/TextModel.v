(** Models of the texts shown to the user and of the default directory.
    Sources: include/error.h (getErrorMessage), src/hash_modes.cpp, src/chainhash_modes.cpp, src/file_modes.cpp
    (getInfo, getShortInfo), src/api.cpp (getEncDirPath).  Logging is not modelled. *)
From Coq Require Import Strings.String.
From Verif Require Import Base BytesModel MiscModel PwModel ChModel HeaderModel FileModel ApiModel.
Open Scope N_scope.
Open Scope list_scope.

(** operator<< of an unsigned number: decimal; the modes are enums whose values are kept as numbers *)
Fixpoint digits (fuel : nat) (n : N) (acc : bytes) : bytes :=
  match fuel with
  | O => acc
  | S k => let acc' := n2b (48 + n mod 10) :: acc in if n / 10 =? 0 then acc' else digits k (n / 10) acc'
  end.
Definition decimal (n : N) : bytes := digits (S (N.to_nat (N.log2 n))) n [].

(** ** HashModes::getInfo: hash_modes.cpp 34-56 *)
Definition hash_name (mode : N) : option bytes :=
  match mode with 1 => Some (str "SHA256") | 2 => Some (str "SHA384") | 3 => Some (str "SHA512") | _ => None end.
Definition hash_getInfo (mode : N) (only_name : bool) : outcome bytes :=
  let msg := if only_name then [] else str "The hash mode " ++ decimal mode ++ str " corresponds to hash function: " in
  match hash_name mode with Some t => Ret (msg ++ t) | None => Throw InvalidArgument end.

(** ** ChainHashModes::getInfo and getShortInfo: chainhash_modes.cpp 11-36, 38-54 *)
Definition ch_getInfo (mode : N) : outcome bytes :=
  let msg := str "The chainhash mode " ++ decimal mode ++ str " corresponds to a chainhash " in
  match mode with
  | 1 => Ret (msg ++ str "that hashes the old hash again")
  | 2 => Ret (msg ++ str "that hashes the old hash + a constant salt again")
  | 3 => Ret (msg ++ str "that hashes the old hash + an incrementing salt again")
  | 4 => Ret (msg ++ str "that hashes the old hash + a constant AND an incrementing salt again")
  | 5 => Ret (msg ++ str "that hashes the old hash + quadratic value derived from an incrementing salt and 3 coefficients")
  | _ => Throw InvalidArgument
  end.
Definition ch_getShortInfo (mode : N) : outcome bytes :=
  match mode with
  | 1 => Ret (str "normal") | 2 => Ret (str "constant") | 3 => Ret (str "count") | 4 => Ret (str "constant+count") | 5 => Ret (str "quadratic")
  | _ => Throw InvalidArgument
  end.

(** ** FileModes::getInfo: file_modes.cpp 11-27; with what it prints on the standard output *)
Definition file_getInfo (mode : N) : bytes * outcome bytes :=
  let msg := str "The file mode " ++ decimal mode ++ str " stores " in
  match mode with 1 => ([], Ret (msg ++ str "password data")) | _ => (msg, Throw LogicError) end.

(** ** API::getEncDirPath: api.cpp 286-307 (noexcept).  std::filesystem::exists as in getAllEncFileNames ([w_dir]: no
    such path is [Missing]); it throws if [w_stat] is false.  The path is put into the struct in every case. *)
Definition default_dir : bytes := str "data/enc".
Definition getEncDirPath (w : world) : outcome (errstruct bytes * option errcode) :=
  noexcept (
    if lenN default_dir =? 0 then Ret (err_full FAIL default_dir, Some ERR_EMPTY_FILEPATH)
    else if w_stat w default_dir then
      match w_dir w default_dir with
      | Missing => Ret (err_full FAIL default_dir, Some ERR_FILEPATH_INVALID)
      | _ => Ret (err_full SUCCESS default_dir, None)
      end
    else Throw OtherExn).

(** ** getErrorMessage: error.h 157-319 (noexcept); [code] is the number of the enumerator, [what] the message of an exception *)
Definition exception_message : bytes := x0a :: str "Exception message: ".
Definition getErrorMessage (success : success_type) (code : N) (info what : bytes) (verbose : bool) : bytes :=
  match success with
  | SUCCESS => str "getErrorMessage was called on a succeeded ErrorStruct"
  | _ =>
      let err_msg := if verbose then exception_message ++ what else [] in
      match code with
      | 1 => str "Some developer forgot to set the right Error type" ++ err_msg   (* NO_ERROR_WAS_SET *)
      | 0 => str "No error occurred" ++ err_msg   (* NO_ERR *)
      | 3 => str "An error occurred due to a bug in the program. Some checks failed: " ++ info ++ err_msg   (* ERR_BUG *)
      | 4 => str "A timeout occurred: " ++ err_msg   (* ERR_TIMEOUT *)
      | 5 => str "An argument is invalid: " ++ info ++ err_msg   (* ERR_ARGUMENT_INVALID *)
      | 21 => str "Password is invalid" ++ err_msg   (* ERR_PASSWORD_INVALID *)
      | 8 => str "Chainhash has missing values" ++ err_msg   (* ERR_CHAINHASH_MISSING_VALUES *)
      | 9 => str "Chainhash mode is invalid" ++ err_msg   (* ERR_CHAINHASH_MODE_INVALID *)
      | 10 => str "Chainhash mode format is invalid for chainhash mode: " ++ info ++ err_msg   (* ERR_CHAINHASHMODE_FORMAT_INVALID *)
      | 11 => str "Chainhash data part is invalid: " ++ info ++ err_msg   (* ERR_CHAINHASH_DATAPART_INVALID *)
      | 12 => str "Chainhash datablock is out of range due to data part: " ++ info ++ err_msg   (* ERR_CHAINHASH_DATABLOCK_OUTOFRANGE *)
      | 13 => str "Chainhash datablock is already completed. Following data part wants to add more data: " ++ info ++ err_msg   (* ERR_CHAINHASH_DATABLOCK_ALREADY_COMPLETED *)
      | 14 => str "Chainhash1 is invalid" ++ err_msg   (* ERR_CHAINHASH1_INVALID *)
      | 15 => str "Chainhash2 is invalid" ++ err_msg   (* ERR_CHAINHASH2_INVALID *)
      | 7 => str "Hashmode is invalid: " ++ info ++ err_msg   (* ERR_HASHMODE_INVALID *)
      | 16 => str "Iterations number is invalid" ++ err_msg   (* ERR_ITERATIONS_INVALID *)
      | 17 => str "Runtime (in ms) is invalid" ++ err_msg   (* ERR_RUNTIME_INVALID *)
      | 22 => str "Invalid length from object: " ++ info ++ err_msg   (* ERR_LEN_INVALID *)
      | 18 => str "Datablock is not completed" ++ err_msg   (* ERR_DATABLOCK_NOT_COMPLETED *)
      | 19 => str "Datablock is too long" ++ err_msg   (* ERR_DATABLOCK_TOO_LONG *)
      | 20 => str "Password contains illegal character: '" ++ info ++ str "'" ++ err_msg   (* ERR_PASSWD_CHAR_INVALID *)
      | 23 => str "Password is too short, it has to be at least " ++ info ++ str " characters long" ++ err_msg   (* ERR_PASSWD_TOO_SHORT *)
      | 24 => match info with [] => str "Filepath is empty" ++ err_msg | _ => info ++ str " filepath is empty" ++ err_msg end   (* ERR_EMPTY_FILEPATH *)
      | 26 => str "Filepath is invalid: " ++ info ++ err_msg   (* ERR_FILEPATH_INVALID *)
      | 25 => match info with [] => str "File extension is invalid" ++ err_msg | _ => info ++ str " file extension is invalid" ++ err_msg end   (* ERR_EXTENSION_INVALID *)
      | 27 => match info with [] => str "File already exists" ++ err_msg | _ => info ++ str " file already exists" ++ err_msg end   (* ERR_FILE_EXISTS *)
      | 31 => match info with [] => str "File could not be opened" ++ err_msg | _ => info ++ str " file could not be opened" ++ err_msg end   (* ERR_FILE_NOT_OPEN *)
      | 28 => match info with [] => str "File could not be found" ++ err_msg | _ => info ++ str " file could not be found" ++ err_msg end   (* ERR_FILE_NOT_FOUND *)
      | 30 => match info with [] => str "File could not be created" ++ err_msg | _ => info ++ str " file could not be created" ++ err_msg end   (* ERR_FILE_NOT_CREATED *)
      | 29 => match info with [] => str "File could not be deleted" ++ err_msg | _ => info ++ str " file could not be deleted" ++ err_msg end   (* ERR_FILE_NOT_DELETED *)
      | 32 => match info with [] => str "File is not empty" ++ err_msg | _ => info ++ str " file is not empty" ++ err_msg end   (* ERR_FILE_NOT_EMPTY *)
      | 33 => str "File could not be read: " ++ info ++ err_msg   (* ERR_FILE_READ *)
      | 34 => str "Not enough data to read information: " ++ info ++ err_msg   (* ERR_NOT_ENOUGH_DATA *)
      | 6 => str "File mode is invalid: " ++ info ++ err_msg   (* ERR_FILEMODE_INVALID *)
      | 35 => str "Wrong workflow: " ++ info ++ err_msg   (* ERR_WRONG_WORKFLOW *)
      | 36 => str "API is not initialized. Method failed: " ++ info ++ err_msg   (* ERR_API_NOT_INITIALIZED *)
      | 37 => str "API is in the wrong state. Method failed: " ++ info ++ err_msg   (* ERR_API_STATE_INVALID *)
      | 38 => str "DataHeaderSettings are incomplete" ++ err_msg   (* ERR_DATAHEADERSETTINGS_INCOMPLETE *)
      | 39 => str "FileDataStruct is incomplete" ++ err_msg   (* ERR_FILEDATASTRUCT_INCOMPLETE *)
      | 40 => str "FileData is invalid: " ++ info ++ err_msg   (* ERR_FILEDATA_INVALID *)
      | 41 => str "FileDataStruct is null. It was moved previously" ++ err_msg   (* ERR_FILEDATASTRUCT_NULL *)
      | 42 => str "Filesize is invalid: " ++ info ++ err_msg   (* ERR_FILESIZE_INVALID *)
      | 43 => str "Header size and filesize mismatch: " ++ info ++ err_msg   (* ERR_HEADERSIZE_FILESIZE_MISMATCH *)
      | 44 => str "FileHandler could not be created: " ++ info ++ err_msg   (* ERR_FILEHANDLER_CREATION *)
      | 2 => match info with [] => str "An error occurred" ++ err_msg | _ => info ++ err_msg end   (* ERR *)
      | _ => str "Unknown error" ++ err_msg
      end
  end.
(** error.h 9-55: the numbers of the enumerators that the modelled functions use *)
Definition code_number (c : errcode) : N :=
  match c with
  | ERR => 2
  | ERR_TIMEOUT => 4
  | ERR_BUG => 3
  | ERR_ARGUMENT_INVALID => 5
  | ERR_FILEMODE_INVALID => 6
  | ERR_HASHMODE_INVALID => 7
  | ERR_CHAINHASHMODE_FORMAT_INVALID => 10
  | ERR_CHAINHASH_DATAPART_INVALID => 11
  | ERR_CHAINHASH_DATABLOCK_OUTOFRANGE => 12
  | ERR_CHAINHASH_DATABLOCK_ALREADY_COMPLETED => 13
  | ERR_CHAINHASH1_INVALID => 14
  | ERR_CHAINHASH2_INVALID => 15
  | ERR_PASSWD_CHAR_INVALID => 20
  | ERR_PASSWORD_INVALID => 21
  | ERR_LEN_INVALID => 22
  | ERR_PASSWD_TOO_SHORT => 23
  | ERR_EMPTY_FILEPATH => 24
  | ERR_EXTENSION_INVALID => 25
  | ERR_FILEPATH_INVALID => 26
  | ERR_FILE_EXISTS => 27
  | ERR_FILE_NOT_FOUND => 28
  | ERR_FILE_NOT_DELETED => 29
  | ERR_FILE_NOT_CREATED => 30
  | ERR_FILE_NOT_OPEN => 31
  | ERR_FILE_NOT_EMPTY => 32
  | ERR_FILE_READ => 33
  | ERR_NOT_ENOUGH_DATA => 34
  | ERR_WRONG_WORKFLOW => 35
  | ERR_API_NOT_INITIALIZED => 36
  | ERR_API_STATE_INVALID => 37
  | ERR_DATAHEADERSETTINGS_INCOMPLETE => 38
  | ERR_FILEDATASTRUCT_INCOMPLETE => 39
  | ERR_FILEDATA_INVALID => 40
  | ERR_FILEDATASTRUCT_NULL => 41
  | ERR_FILESIZE_INVALID => 42
  | ERR_HEADERSIZE_FILESIZE_MISMATCH => 43
  | ERR_FILEHANDLER_CREATION => 44
  end.
