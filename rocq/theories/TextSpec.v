(** What is said about the texts: which error codes show the details of an error, and which can be told apart. *)
From Coq Require Import Strings.String.
From Verif Require Import Base MiscModel HeaderModel FileModel.

(** error.h 9-55: the enumerators have the numbers 0 to 44 *)
Definition known (c : N) : Prop := c <= 44.
(** ERR: the message is whatever the caller gave as details *)
Definition free_text (c : N) : Prop := c = 2.
(** the messages that begin with the details: empty path, extension, exists, not found, not deleted, not created, not open, not empty *)
Definition details_first (c : N) : Prop := c = 24 \/ c = 25 \/ (27 <= c /\ c <= 32).
(** the messages that show no details: no error, forgotten error, timeout, password, chain hash, iterations, run time,
    block lengths, incomplete or missing structs, unknown codes *)
Definition details_hidden (c : N) : Prop :=
  c = 0 \/ c = 1 \/ c = 4 \/ c = 8 \/ c = 9 \/ (14 <= c /\ c <= 19) \/ c = 21 \/ c = 38 \/ c = 39 \/ c = 41 \/ 44 < c.
(** the number that a decimal text means *)
Definition value (s : bytes) : N := fold_left (fun a c => a * 10 + (b2n c - 48)) s 0.
Definition is_digit (c : byte) : Prop := 48 <= b2n c /\ b2n c <= 57.
(** what the message for a code must say (the case of the first letter depends on the details); ERR says nothing of its own *)
Definition about (c : errcode) : bytes := list_byte_of_string
  match c with
  | ERR => ""
  | ERR_TIMEOUT => "timeout"
  | ERR_BUG => "due to a bug"
  | ERR_ARGUMENT_INVALID => "argument is invalid"
  | ERR_FILEMODE_INVALID => "File mode is invalid"
  | ERR_HASHMODE_INVALID => "Hashmode is invalid"
  | ERR_CHAINHASHMODE_FORMAT_INVALID => "mode format is invalid"
  | ERR_CHAINHASH_DATAPART_INVALID => "data part is invalid"
  | ERR_CHAINHASH_DATABLOCK_OUTOFRANGE => "out of range"
  | ERR_CHAINHASH_DATABLOCK_ALREADY_COMPLETED => "already completed"
  | ERR_CHAINHASH1_INVALID => "Chainhash1 is invalid"
  | ERR_CHAINHASH2_INVALID => "Chainhash2 is invalid"
  | ERR_PASSWD_CHAR_INVALID => "Password contains illegal character"
  | ERR_PASSWORD_INVALID => "Password is invalid"
  | ERR_LEN_INVALID => "Invalid length"
  | ERR_PASSWD_TOO_SHORT => "Password is too short"
  | ERR_EMPTY_FILEPATH => "ilepath is empty"
  | ERR_EXTENSION_INVALID => "ile extension is invalid"
  | ERR_FILEPATH_INVALID => "Filepath is invalid"
  | ERR_FILE_EXISTS => "ile already exists"
  | ERR_FILE_NOT_FOUND => "ile could not be found"
  | ERR_FILE_NOT_DELETED => "ile could not be deleted"
  | ERR_FILE_NOT_CREATED => "ile could not be created"
  | ERR_FILE_NOT_OPEN => "ile could not be opened"
  | ERR_FILE_NOT_EMPTY => "ile is not empty"
  | ERR_FILE_READ => "File could not be read"
  | ERR_NOT_ENOUGH_DATA => "Not enough data"
  | ERR_WRONG_WORKFLOW => "Wrong workflow"
  | ERR_API_NOT_INITIALIZED => "not initialized"
  | ERR_API_STATE_INVALID => "wrong state"
  | ERR_DATAHEADERSETTINGS_INCOMPLETE => "DataHeaderSettings are incomplete"
  | ERR_FILEDATASTRUCT_INCOMPLETE => "FileDataStruct is incomplete"
  | ERR_FILEDATA_INVALID => "FileData is invalid"
  | ERR_FILEDATASTRUCT_NULL => "FileDataStruct is null"
  | ERR_FILESIZE_INVALID => "Filesize is invalid"
  | ERR_HEADERSIZE_FILESIZE_MISMATCH => "mismatch"
  | ERR_FILEHANDLER_CREATION => "FileHandler could not be created"
  end.
