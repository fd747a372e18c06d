(** The functions of the API and, for each, the error codes it can return. *)
From Verif Require Import Base MiscModel PwModel ChModel HeaderModel HeaderSpec FileModel ApiModel ApiSpec.

Inductive kind :=
| KList | KCreate | KSelect | KIsEmpty | KUnselect | KDelete | KContent | KVerify | KHeader | KHeaderTime | KSalt | KDecrypt | KGetData
| KEncrypt | KWrite | KWriteTo | KLogout.
(** the function that a call is of *)
Definition kind_of (o : op) : kind :=
  match o with
  | OList _ => KList | OCreate _ => KCreate | OSelect _ => KSelect | OIsEmpty => KIsEmpty | OUnselect => KUnselect | ODelete => KDelete
  | OContent => KContent | OVerify _ _ => KVerify | OHeader _ _ _ => KHeader | OHeaderTime _ _ => KHeaderTime | OSalt => KSalt
  | ODecrypt => KDecrypt | OGetData => KGetData | OEncrypt _ => KEncrypt | OWrite => KWrite | OWriteTo _ => KWriteTo
  | OLogout | OLogoutMode _ => KLogout
  end.
(** what each function can answer besides a result *)
Definition codes (k : kind) : list errcode :=
  match k with
  | KLogout => []
  | KList => [ERR_API_STATE_INVALID; ERR_EMPTY_FILEPATH; ERR_FILEPATH_INVALID]
  | KCreate => [ERR_API_STATE_INVALID; ERR_EMPTY_FILEPATH; ERR_EXTENSION_INVALID; ERR_FILE_EXISTS; ERR_FILE_NOT_CREATED]
  | KSelect => [ERR_API_STATE_INVALID; ERR_EMPTY_FILEPATH; ERR_EXTENSION_INVALID; ERR_FILE_NOT_FOUND; ERR_FILE_NOT_OPEN; ERR_FILEHANDLER_CREATION;
      ERR_NOT_ENOUGH_DATA; ERR_HASHMODE_INVALID; ERR_FILEMODE_INVALID; ERR_CHAINHASHMODE_FORMAT_INVALID; ERR_CHAINHASH1_INVALID; ERR_CHAINHASH2_INVALID;
      ERR_FILESIZE_INVALID]
  | KIsEmpty | KUnselect | KSalt => [ERR_API_STATE_INVALID]
  | KDelete => [ERR_API_STATE_INVALID; ERR_FILE_NOT_DELETED]
  | KContent => [ERR_API_STATE_INVALID; ERR_FILE_READ]
  | KVerify => [ERR_API_STATE_INVALID; ERR_TIMEOUT; ERR_PASSWORD_INVALID]
  | KHeader => [ERR_API_STATE_INVALID; ERR_DATAHEADERSETTINGS_INCOMPLETE; ERR_TIMEOUT; ERR]
  | KHeaderTime => [ERR_API_STATE_INVALID; ERR_DATAHEADERSETTINGS_INCOMPLETE]
  | KDecrypt => [ERR_API_STATE_INVALID; ERR]
  | KGetData => [ERR_API_STATE_INVALID; ERR_FILEDATASTRUCT_NULL]
  | KEncrypt => [ERR_API_STATE_INVALID; ERR_FILEDATASTRUCT_INCOMPLETE; ERR_FILEMODE_INVALID; ERR]
  | KWrite => [ERR_API_STATE_INVALID; ERR_FILE_NOT_FOUND; ERR_FILE_NOT_OPEN]
  | KWriteTo => [ERR_API_STATE_INVALID; ERR_EMPTY_FILEPATH; ERR_EXTENSION_INVALID; ERR_FILE_NOT_FOUND; ERR_FILE_NOT_OPEN; ERR_FILEHANDLER_CREATION;
      ERR_FILE_NOT_EMPTY]
  end.
(** codes of error.h that no function of the API returns *)
Definition never : list errcode :=
  [ERR_BUG; ERR_ARGUMENT_INVALID; ERR_CHAINHASH_DATAPART_INVALID; ERR_CHAINHASH_DATABLOCK_OUTOFRANGE; ERR_CHAINHASH_DATABLOCK_ALREADY_COMPLETED;
   ERR_PASSWD_CHAR_INVALID; ERR_LEN_INVALID; ERR_PASSWD_TOO_SHORT; ERR_WRONG_WORKFLOW; ERR_API_NOT_INITIALIZED; ERR_FILEDATA_INVALID;
   ERR_HEADERSIZE_FILESIZE_MISMATCH].
(** some program gets the code from a call of the function *)
Definition attained (bd : build) (k : kind) (e : errcode) : Prop :=
  exists H, hashes_ok H /\ exists tr a w f o f' a' st, history bd H 1 tr a /\ world_ok bd H w /\ fs_ok f /\ op_ok o /\ kind_of o = k /\
    step w a f o = (f', Ret (a', RErr st e)).
