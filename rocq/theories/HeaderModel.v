(** Model of the data header: include/dataheader.h, src/dataheader.cpp.
    Logging is not modelled.  Enum values outside the enumerators are kept as
    numbers, as gcc does (a cast of an out-of-range value is formally undefined). *)
From Verif Require Import Base BytesModel MiscModel CipherModel PwModel ChModel.

(** error.h 9-55: the codes that the modelled functions return *)
Inductive errcode :=
| ERR | ERR_TIMEOUT | ERR_BUG | ERR_ARGUMENT_INVALID
| ERR_FILEMODE_INVALID | ERR_HASHMODE_INVALID
| ERR_CHAINHASHMODE_FORMAT_INVALID | ERR_CHAINHASH_DATAPART_INVALID
| ERR_CHAINHASH_DATABLOCK_OUTOFRANGE | ERR_CHAINHASH_DATABLOCK_ALREADY_COMPLETED
| ERR_CHAINHASH1_INVALID | ERR_CHAINHASH2_INVALID
| ERR_PASSWD_CHAR_INVALID | ERR_PASSWORD_INVALID | ERR_LEN_INVALID | ERR_PASSWD_TOO_SHORT
| ERR_EMPTY_FILEPATH | ERR_EXTENSION_INVALID | ERR_FILEPATH_INVALID
| ERR_FILE_EXISTS | ERR_FILE_NOT_FOUND | ERR_FILE_NOT_DELETED | ERR_FILE_NOT_CREATED | ERR_FILE_NOT_OPEN
| ERR_FILE_NOT_EMPTY | ERR_FILE_READ
| ERR_NOT_ENOUGH_DATA | ERR_WRONG_WORKFLOW | ERR_API_NOT_INITIALIZED | ERR_API_STATE_INVALID
| ERR_DATAHEADERSETTINGS_INCOMPLETE | ERR_FILEDATASTRUCT_INCOMPLETE | ERR_FILEDATA_INVALID
| ERR_FILEDATASTRUCT_NULL | ERR_FILESIZE_INVALID | ERR_HEADERSIZE_FILESIZE_MISMATCH | ERR_FILEHANDLER_CREATION.

(** a function that returns an ErrorStruct: [inl] failure with its code, [inr] success *)
Definition dres (A : Type) := outcome (errcode + A).
Definition dret {A} (a : A) : dres A := Ret (inr a).
Definition dfail {A} (e : errcode) : dres A := Ret (inl e).
Definition dbind {A B} (m : dres A) (k : A -> dres B) : dres B :=
  match m with
  | Ret (inr a) => k a
  | Ret (inl e) => Ret (inl e)
  | Throw e => Throw e
  | Crash c => Crash c
  | OutOfFuel => OutOfFuel
  end.
Notation "x <~ m ;; k" := (dbind m (fun x => k))
  (at level 61, m at next level, right associativity).
Notation "' p <~ m ;; k" := (dbind m (fun x => let 'p := x in k))
  (at level 61, p pattern, m at next level, right associativity).
(** a call outside of any try block *)
Definition lift {A} (m : outcome A) : dres A := a <- m ;; dret a.
(** a call inside try blocks: [handler e] is the code that the matching catch returns, None: no catch matches *)
Definition try_ {A} (handler : exn -> option errcode) (m : outcome A) : dres A :=
  match m with
  | Ret a => dret a
  | Throw e => match handler e with Some c => dfail c | None => Throw e end
  | Crash c => Crash c
  | OutOfFuel => OutOfFuel
  end.
Definition need {A} (c : errcode) (o : option A) : dres A :=
  match o with Some a => dret a | None => dfail c end.
(** catch (std::exception&) *)
Definition any_std (c : errcode) (e : exn) : option errcode :=
  match e with PointerThrown => None | _ => Some c end.
(** catch (std::invalid_argument&) *)
Definition only_invalid (c : errcode) (e : exn) : option errcode :=
  match e with InvalidArgument => Some c | _ => None end.
(** catch (std::invalid_argument&) followed by catch (std::exception&) *)
Definition invalid_or (c c' : errcode) (e : exn) : option errcode :=
  match e with InvalidArgument => Some c | PointerThrown => None | _ => Some c' end.

(** ** DataBlock: dataheader.h 12-39 *)
Record datablock := mkDB { db_type : N; db_data : Bytes }.
Definition db_default : datablock := mkDB 0 (mkBytes [] 0).
Definition db_setData (data : Bytes) (b : datablock) : outcome datablock :=
  if (0 <? getLen data) && (getLen data <=? 255) then Ret (mkDB (db_type b) (copyBytes data))
  else Throw InvalidArgument.
Definition newDataBlock (type : N) (data : Bytes) : outcome datablock :=
  db_setData data (mkDB type (mkBytes [] 0)).

(** ** EncDataBlock: dataheader.h 41-119 *)
Record encblock := mkEB { eb_block : datablock; eb_len : N }.
(** createEncBlock: dataheader.h 48-59 *)
Definition createEncBlock (enc_type : N) (enc_data : Bytes) (enc_len : N) : outcome encblock :=
  if negb (getLen enc_data =? 255) then Throw InvalidArgument
  else db <- db_setData enc_data (mkDB enc_type (mkBytes [] 0)) ;; Ret (mkEB db enc_len).
(** the first bytes of the hashed password hash, as numbers *)
Definition keyByte (i : N) (pwhash : Bytes) : outcome N :=
  b <- copySubBytes i (i + 1) pwhash ;; toLong b.
(** encryption loop: dataheader.h 69-75; [written] and [end] are u_int16_t *)
Fixpoint enc_loop (fuel : nat) (h : hashfn) (data pwhash enc_salt : Bytes) (written : N) (enc_data : Bytes) : outcome Bytes :=
  if getLen enc_data =? getLen data then Ret enc_data
  else match fuel with
  | O => OutOfFuel
  | S f =>
      d <- minusBytes enc_salt pwhash ;;
      enc_salt' <- do_hash h (bdata d) 0 ;;
      let end_ := w16 (N.min (written + getLen enc_salt') (getLen data)) in
      x <- copySubBytes written end_ data ;;
      y <- copySubBytes 0 (end_ - written) enc_salt' ;;
      z <- plusBytes x y ;;
      enc_data' <- addcopyToBytes z enc_data ;;
      enc_loop f h data pwhash enc_salt' end_ enc_data'
  end.
(** constructor: dataheader.h 61-80.  The encrypted type is computed and then overwritten by line 79. *)
Definition newEncDataBlock (fuel : nat) (rnd : N -> bytes) (h : hashfn) (db : datablock) (pwhash enc_salt : Bytes) : outcome encblock :=
  pwh <- do_hash h (bdata pwhash) 0 ;;
  k0 <- keyByte 0 pwh ;;
  k1 <- keyByte 1 pwh ;;
  let enc_len := w8 (getLen (db_data db) + k1) in
  enc <- enc_loop fuel h (db_data db) pwh enc_salt 0 (mkBytes [] 255) ;;
  enc' <- fillrandom rnd (addSize (255 - getLen enc) enc) ;;
  db' <- db_setData enc' db ;;
  Ret (mkEB db' enc_len).
(** getDec: dataheader.h 87-102 (noexcept) *)
Fixpoint dec_loop (fuel : nat) (h : hashfn) (data pwhash enc_salt : Bytes) (len written : N) (dec_data : Bytes) : outcome Bytes :=
  if negb (getLen dec_data <? len) then Ret dec_data
  else match fuel with
  | O => OutOfFuel
  | S f =>
      d <- minusBytes enc_salt pwhash ;;
      enc_salt' <- do_hash h (bdata d) 0 ;;
      let end_ := w16 (N.min (written + getLen enc_salt') len) in
      x <- copySubBytes written end_ data ;;
      y <- copySubBytes 0 (end_ - written) enc_salt' ;;
      z <- minusBytes x y ;;
      dec_data' <- addcopyToBytes z dec_data ;;
      dec_loop f h data pwhash enc_salt' len end_ dec_data'
  end.
Definition getDec (fuel : nat) (h : hashfn) (pwhash enc_salt : Bytes) (e : encblock) : outcome Bytes :=
  noexcept (
    pwh <- do_hash h (bdata pwhash) 0 ;;
    k1 <- keyByte 1 pwh ;;
    let len := w8 (eb_len e + 256 - k1) in
    dec_loop fuel h (db_data (eb_block e)) pwh enc_salt len 0 (mkBytes [] len)).
(** getDecType: dataheader.h 109-113 (noexcept) *)
Definition getDecType (h : hashfn) (pwhash : Bytes) (e : encblock) : outcome N :=
  noexcept (
    pwh <- do_hash h (bdata pwhash) 0 ;;
    k0 <- keyByte 0 pwh ;;
    Ret (w8 (db_type (eb_block e) + 256 - k0))).

(** ** DataHeaderParts: dataheader.h 121-258; the member hash_size follows the hash mode *)
Record dhparts := mkParts {
  p_hmode : option N; p_fmode : option N; p_valid : option Bytes; p_salt : option Bytes;
  p_dec : list datablock; p_enc : list encblock; p_ch1 : chainhash; p_ch2 : chainhash }.
Definition parts_empty : dhparts := mkParts None None None None [] [] ch_default ch_default.
(** file_modes.cpp 28-31, MAX_FILEMODE_NUMBER = 1 *)
Definition file_mode_valid (m : N) : bool := (1 <=? m) && (m <=? 1).
(** getHashSize of sha256, sha384, sha512 *)
Definition hash_size_of (mode : N) : N := match mode with 1 => 32 | 2 => 48 | 3 => 64 | _ => 0 end.
(** getters: dataheader.h 151-195 *)
Definition p_getFileDataMode (p : dhparts) : outcome N := match p_fmode p with Some m => Ret m | None => Throw RuntimeError end.
Definition p_getHashMode (p : dhparts) : outcome N := match p_hmode p with Some m => Ret m | None => Throw RuntimeError end.
Definition p_getValid (p : dhparts) : outcome Bytes := match p_valid p with Some b => Ret (copyBytes b) | None => Throw RuntimeError end.
Definition p_getSalt (p : dhparts) : outcome Bytes := match p_salt p with Some b => Ret (copyBytes b) | None => Throw RuntimeError end.
Definition p_getHashSize (p : dhparts) : outcome N :=
  match p_hmode p with Some m => Ret (hash_size_of m) | None => Throw RuntimeError end.
(** setters: dataheader.h 196-232 *)
Definition p_setFileDataMode (m : N) (p : dhparts) : outcome dhparts :=
  if file_mode_valid m
  then Ret (mkParts (p_hmode p) (Some m) (p_valid p) (p_salt p) (p_dec p) (p_enc p) (p_ch1 p) (p_ch2 p))
  else Throw InvalidArgument.
Definition p_setHashMode (m : N) (p : dhparts) : outcome dhparts :=
  if hash_mode_valid m
  then Ret (mkParts (Some m) (p_fmode p) (p_valid p) (p_salt p) (p_dec p) (p_enc p) (p_ch1 p) (p_ch2 p))
  else Throw InvalidArgument.
Definition p_setValid (b : Bytes) (p : dhparts) : outcome dhparts :=
  n <- p_getHashSize p ;;
  if n =? getLen b
  then Ret (mkParts (p_hmode p) (p_fmode p) (Some (copyBytes b)) (p_salt p) (p_dec p) (p_enc p) (p_ch1 p) (p_ch2 p))
  else Throw InvalidArgument.
Definition p_setSalt (b : Bytes) (p : dhparts) : outcome dhparts :=
  n <- p_getHashSize p ;;
  if n =? getLen b
  then Ret (mkParts (p_hmode p) (p_fmode p) (p_valid p) (Some (copyBytes b)) (p_dec p) (p_enc p) (p_ch1 p) (p_ch2 p))
  else Throw InvalidArgument.
Definition p_setCh1 (c : chainhash) (p : dhparts) : dhparts :=
  mkParts (p_hmode p) (p_fmode p) (p_valid p) (p_salt p) (p_dec p) (p_enc p) c (p_ch2 p).
Definition p_setCh2 (c : chainhash) (p : dhparts) : dhparts :=
  mkParts (p_hmode p) (p_fmode p) (p_valid p) (p_salt p) (p_dec p) (p_enc p) (p_ch1 p) c.
Definition p_setDec (l : list datablock) (p : dhparts) : dhparts :=
  mkParts (p_hmode p) (p_fmode p) (p_valid p) (p_salt p) l (p_enc p) (p_ch1 p) (p_ch2 p).
Definition p_setEnc (l : list encblock) (p : dhparts) : dhparts :=
  mkParts (p_hmode p) (p_fmode p) (p_valid p) (p_salt p) (p_dec p) l (p_ch1 p) (p_ch2 p).
Definition isSome {A} (o : option A) : bool := match o with Some _ => true | None => false end.
(** isComplete: dataheader.h 234-246 *)
Definition p_isComplete (hash_size : N) (p : dhparts) : bool :=
  ch_val (p_ch1 p) && ch_val (p_ch2 p) && isSome (p_valid p) && isSome (p_fmode p) &&
  match p_hmode p with Some m => hash_size_of m =? hash_size | None => false end && isSome (p_salt p).

(** ** DataHeader: dataheader.h 607-666, dataheader.cpp *)
Record dheader := mkDH {
  d_parts : dhparts; d_hsize : N; d_bytes : Bytes; d_fsize : option N; d_blen : N }.

(** constructor: dataheader.cpp 10-20 *)
Definition newDataHeader (rnd : N -> bytes) (mode : N) : outcome dheader :=
  p <- p_setHashMode mode parts_empty ;;
  let hs := w8 (hash_size_of mode) in
  salt <- fillrandom rnd (mkBytes [] hs) ;;
  p' <- p_setSalt salt p ;;
  Ret (mkDH p' hs (mkBytes [] 0) None 0).
(** isComplete: dataheader.cpp 22-26 *)
Definition d_isComplete (d : dheader) : bool := p_isComplete (d_hsize d) (d_parts d).
(** the length of the data of a valid chain hash; getChainHashData() on an invalid one throws *)
Definition ch_dataLen (c : chainhash) : outcome N := p <- ch_getData c ;; x <- deref p ;; Ret (cd_len x).
(** getHeaderLength: dataheader.cpp 28-34 (noexcept; unsigned int) *)
Definition getHeaderLength (d : dheader) : outcome N :=
  if ch_val (p_ch1 (d_parts d)) && ch_val (p_ch2 (d_parts d)) then
    noexcept (
      l1 <- ch_dataLen (p_ch1 (d_parts d)) ;;
      l2 <- ch_dataLen (p_ch2 (d_parts d)) ;;
      Ret (w32 (40 + 2 * d_hsize d + d_blen d + l1 + l2)))
  else if 0 <? getLen (d_bytes d) then Ret (w32 (getLen (d_bytes d)))
  else Ret 0.
(** header_bytes.setLen(0) *)
Definition clearBytes (b : Bytes) : Bytes := mkBytes [] (bmax b).
Definition d_with (p : dhparts) (d : dheader) : dheader :=
  mkDH p (d_hsize d) (clearBytes (d_bytes d)) (d_fsize d) (d_blen d).
(** setChainHash1: dataheader.cpp 41-51, setChainHash2: 53-63 *)
Definition setChainHash1 (c : chainhash) (d : dheader) : outcome dheader :=
  if negb (ch_val c) then Throw InvalidArgument
  else c' <- ch_assign (p_ch1 (d_parts d)) c ;; Ret (d_with (p_setCh1 c' (d_parts d)) d).
Definition setChainHash2 (c : chainhash) (d : dheader) : outcome dheader :=
  if negb (ch_val c) then Throw InvalidArgument
  else c' <- ch_assign (p_ch2 (d_parts d)) c ;; Ret (d_with (p_setCh2 c' (d_parts d)) d).
(** setFileDataMode: dataheader.cpp 65-70 *)
Definition d_setFileDataMode (m : N) (d : dheader) : outcome dheader :=
  p <- p_setFileDataMode m (d_parts d) ;; Ret (d_with p d).
(** setValidPasswordHashBytes: dataheader.cpp 72-77 *)
Definition setValidPasswordHashBytes (b : Bytes) (d : dheader) : outcome dheader :=
  p <- p_setValid b (d_parts d) ;; Ret (d_with p d).
(** setEncSalt (private): dataheader.cpp 143-148 *)
Definition d_setEncSalt (b : Bytes) (d : dheader) : outcome dheader :=
  p <- p_setSalt b (d_parts d) ;; Ret (d_with p d).
(** clearDataBlocks: dataheader.cpp 79-85 *)
Definition clearDataBlocks (d : dheader) : dheader :=
  mkDH (p_setEnc [] (p_setDec [] (d_parts d))) (d_hsize d) (clearBytes (d_bytes d)) (d_fsize d) 0.
(** addDataBlock: dataheader.cpp 87-97; datablocks_len is a u_int32_t *)
Definition addDataBlock (b : datablock) (d : dheader) : outcome dheader :=
  if 255 <=? lenN (p_dec (d_parts d)) then Throw LengthError
  else Ret (mkDH (p_setDec (p_dec (d_parts d) ++ [b]) (d_parts d)) (d_hsize d) (clearBytes (d_bytes d)) (d_fsize d)
              (w32 (d_blen d + (2 + getLen (db_data b))))).
(** addEncDataBlock: dataheader.cpp 99-110 *)
Definition addEncDataBlock (b : encblock) (d : dheader) : outcome dheader :=
  if 255 <=? lenN (p_enc (d_parts d)) then Throw LengthError
  else Ret (mkDH (p_setEnc (p_enc (d_parts d) ++ [b]) (d_parts d)) (d_hsize d) (clearBytes (d_bytes d)) (d_fsize d)
              (w32 (d_blen d + (2 + getLen (db_data (eb_block b)))))).
(** setFileSize: dataheader.cpp 112-127 *)
Definition setFileSize (n : N) (d : dheader) : outcome dheader :=
  if negb (d_isComplete d) then Throw LogicError
  else
    l <- getHeaderLength d ;;
    if n <? l then Throw InvalidArgument
    else Ret (mkDH (d_parts d) (d_hsize d) (clearBytes (d_bytes d)) (Some n) (d_blen d)).
(** setDataSize: dataheader.cpp 129-139; both summands are 32 bit wide *)
Definition setDataSize (n : N) (d : dheader) : outcome dheader :=
  if negb (d_isComplete d) then Throw LogicError
  else
    let d' := mkDH (d_parts d) (d_hsize d) (clearBytes (d_bytes d)) (d_fsize d) (d_blen d) in
    l <- getHeaderLength d' ;;
    Ret (mkDH (d_parts d) (d_hsize d) (clearBytes (d_bytes d)) (Some (w32 (w32 n + l))) (d_blen d)).
(** getHeaderBytes: dataheader.cpp 150-164 *)
Definition getHeaderBytes (d : dheader) : outcome Bytes :=
  l <- getHeaderLength d ;;
  if l =? 0 then Throw LogicError
  else if negb (l =? getLen (d_bytes d)) then Throw LogicError
  else Ret (copyBytes (d_bytes d)).

(** the body of the try block in calcHeaderBytes: dataheader.cpp 203-231 *)
Definition addLong (n : N) (t : Bytes) : outcome Bytes := b <- fromLong n true ;; addcopyToBytes b t.
Definition addChar (n : N) (t : Bytes) : outcome Bytes := addByte (n2b n) t.
Fixpoint addBlocks (l : list datablock) (t : Bytes) : outcome Bytes :=
  match l with
  | [] => Ret t
  | b :: r =>
      t <- addChar (db_type b) t ;; t <- addChar (getLen (db_data b)) t ;;
      t <- addcopyToBytes (db_data b) t ;; addBlocks r t
  end.
Fixpoint addEncBlocks (l : list encblock) (t : Bytes) : outcome Bytes :=
  match l with
  | [] => Ret t
  | b :: r =>
      t <- addChar (db_type (eb_block b)) t ;; t <- addChar (eb_len b) t ;;
      t <- addcopyToBytes (db_data (eb_block b)) t ;; addEncBlocks r t
  end.
Definition addChainHash (c : chainhash) (t : Bytes) : outcome Bytes :=
  m <- ch_getMode c ;; t <- addChar m t ;;
  it <- ch_getIters c ;; t <- addLong it t ;;
  p <- ch_getData c ;; x <- deref p ;; t <- addChar (cd_len x) t ;;
  b <- getDataBlock x ;; addcopyToBytes b t.
Definition calcBody (fsize len : N) (p : dhparts) : outcome Bytes :=
  let t := mkBytes [] len in
  t <- addLong fsize t ;; t <- addLong len t ;;
  fm <- p_getFileDataMode p ;; t <- addChar fm t ;;
  hm <- p_getHashMode p ;; t <- addChar hm t ;;
  t <- addChar (lenN (p_dec p)) t ;; t <- addBlocks (p_dec p) t ;;
  t <- addChainHash (p_ch1 p) t ;; t <- addChainHash (p_ch2 p) t ;;
  v <- p_getValid p ;; t <- addcopyToBytes v t ;;
  s <- p_getSalt p ;; t <- addcopyToBytes s t ;;
  t <- addChar (lenN (p_enc p)) t ;; addEncBlocks (p_enc p) t.
(** the check of the password hash: dataheader.cpp 185-195; [returnValue] of a timed-out result throws *)
Definition checkPwHash (H : hashes) (clk : nat -> N) (pwhash : Bytes) (p : dhparts) : outcome unit :=
  if isEmpty pwhash then Ret tt
  else
    hm <- p_getHashMode p ;; h <- getHash H hm ;;
    v <- p_getValid p ;;
    r <- performChainHash_b h clk (p_ch2 p) pwhash 0 ;;
    match r with
    | Done b => if eqBytes v b then Ret tt else Throw InvalidArgument
    | TimedOut => Throw LogicError
    end.
(** calcHeaderBytes: dataheader.cpp 166-242; the object after the call, and how the call ended *)
Definition calcHeaderBytes (H : hashes) (clk : nat -> N) (pwhash : Bytes) (d : dheader) : dheader * outcome unit :=
  let early :=
    if negb (d_isComplete d) then Throw LogicError
    else match d_fsize d with
    | None => Throw LogicError
    | Some n =>
        l <- getHeaderLength d ;;
        if n <? l then Throw InvalidArgument
        else _ <- checkPwHash H clk pwhash (d_parts d) ;; Ret n
    end in
  match early with
  | Ret n =>
      let d' := mkDH (d_parts d) (d_hsize d) (clearBytes (d_bytes d)) (d_fsize d) (d_blen d) in
      match getHeaderLength d' with
      | Ret len =>
          match calcBody n len (d_parts d) with
          | Ret t =>
              if negb (getLen t =? len) then (d', Throw LogicError)
              else (mkDH (d_parts d) (d_hsize d) (copyBytes t) (d_fsize d) (d_blen d), Ret tt)
          | Throw LengthError => (d', Throw LogicError)
          | Throw e => (d', Throw e)
          | Crash c => (d', Crash c)
          | OutOfFuel => (d', OutOfFuel)
          end
      | Throw e => (d', Throw e)
      | Crash c => (d', Crash c)
      | OutOfFuel => (d', OutOfFuel)
      end
  | Throw e => (d, Throw e)
  | Crash c => (d, Crash c)
  | OutOfFuel => (d, OutOfFuel)
  end.
(** getDataHeaderParts: dataheader.cpp 244-252 *)
Definition getDataHeaderParts (d : dheader) : outcome dhparts :=
  if d_isComplete d then Ret (d_parts d) else Throw LogicError.
(** calcHeaderBytes() on a fresh object: the object, or the exception *)
Definition calc_plain (d : dheader) : outcome dheader :=
  let '(d', r) := calcHeaderBytes (mkHashes (fun x => x) (fun x => x) (fun x => x)) (fun _ => 0) (mkBytes [] 0) d in
  _ <- r ;; Ret d'.

(** setHeaderParts: dataheader.cpp 1146-1174 *)
Fixpoint addAll (l : list datablock) (d : dheader) : outcome dheader :=
  match l with [] => Ret d | b :: r => d' <- addDataBlock b d ;; addAll r d' end.
Fixpoint addAllEnc (l : list encblock) (d : dheader) : outcome dheader :=
  match l with [] => Ret d | b :: r => d' <- addEncDataBlock b d ;; addAllEnc r d' end.
Definition setHeaderParts (rnd : N -> bytes) (p : dhparts) : dres dheader :=
  noexcept (try_ (any_std ERR) (
    hm <- p_getHashMode p ;; d <- newDataHeader rnd hm ;;
    fm <- p_getFileDataMode p ;; d <- d_setFileDataMode fm d ;;
    d <- setChainHash1 (p_ch1 p) d ;; d <- setChainHash2 (p_ch2 p) d ;;
    v <- p_getValid p ;; d <- setValidPasswordHashBytes v d ;;
    s <- p_getSalt p ;; d <- d_setEncSalt s d ;;
    d <- addAll (p_dec p) d ;; addAllEnc (p_enc p) d)).

(** ** The stream decoder: dataheader.cpp 624-1144.
    The stream is the list of bytes left.  [readBytes cap size s] is [readData] into an empty
    object of capacity [cap] (Z: the argument may be a negative int converted to unsigned);
    that [readData] behaves like this for every buffering of the stream is lemma
    [readBytes_is_readData].  A failed read ends the decoder. *)
Definition readBytes (cap : N) (size : Z) (s : bytes) : option (bytes * bytes) :=
  let n := Z.to_N (size mod 4294967296) in
  if cap <? n then None
  else if lenN s <? n then None
  else Some (takeN n s, dropN n s).
(** readData(file, &c, 1) *)
Definition read1 (s : bytes) : option (N * bytes) :=
  match s with [] => None | x :: r => Some (b2n x, r) end.
Definition read8 (s : bytes) : dres (N * bytes) :=
  '(b, s) <~ need ERR_NOT_ENOUGH_DATA (readBytes 8 8 s) ;;
  n <~ lift (toLong (mkBytes b 8)) ;; dret (n, s).

(** data blocks: dataheader.cpp 728-757, outside of any try block *)
Fixpoint s_blocks (n : nat) (d : dheader) (s : bytes) : dres (dheader * bytes) :=
  match n with
  | O => dret (d, s)
  | S n' =>
      '(ty, s) <~ need ERR_NOT_ENOUGH_DATA (read1 s) ;;
      '(len, s) <~ need ERR_NOT_ENOUGH_DATA (read1 s) ;;
      '(data, s) <~ need ERR_NOT_ENOUGH_DATA (readBytes len (Z.of_N len) s) ;;
      d <~ lift (b <- newDataBlock ty (mkBytes data len) ;; addDataBlock b d) ;;
      s_blocks n' d s
  end.
(** chain hash data parts: dataheader.cpp 811-875, 951-1016.  The variable [copied] that the handler tests is
    the outer one, which is never set, so a length_error always gives ERR_NOT_ENOUGH_DATA *)
Definition s_part_handler (e : exn) : option errcode :=
  match e with
  | LengthError => Some ERR_NOT_ENOUGH_DATA
  | InvalidArgument => Some ERR_CHAINHASH_DATAPART_INVALID
  | LogicError => Some ERR_CHAINHASH_DATABLOCK_ALREADY_COMPLETED
  | PointerThrown => None
  | _ => Some ERR
  end.
Fixpoint s_parts (bd : build) (nls : list (bytes * N)) (lb data_len : N) (c : chd) (s : bytes) : dres (N * chd * bytes) :=
  match nls with
  | [] => dret (data_len, c, s)
  | (_, len) :: r =>
      if negb (len =? 0) then
        '(b, s) <~ need ERR_NOT_ENOUGH_DATA (readBytes 255 (Z.of_N len) s) ;;
        c <~ try_ s_part_handler (cd_addBytes bd (mkBytes b 255) c) ;;
        s_parts bd r lb (data_len + len) c s
      else
        '(b, s) <~ need ERR_NOT_ENOUGH_DATA (readBytes 255 (Z.of_N lb - Z.of_N data_len) s) ;;
        c <~ try_ s_part_handler (cd_addBytes bd (mkBytes b 255) c) ;;
        dret (lb, c, s)
  end.
(** assert as a step of the decoder *)
Definition dassert (bd : build) (b : bool) : dres unit := assertC bd b (dret tt).
(** one chain hash: dataheader.cpp 759-896, 898-1037; [set] is setChainHash1 / setChainHash2, [code] its error code *)
Definition s_chain (bd : build) (code : errcode) (set : chainhash -> dheader -> outcome dheader)
    (d : dheader) (s : bytes) : dres (dheader * bytes) :=
  '(mode, s) <~ need ERR_NOT_ENOUGH_DATA (read1 s) ;;
  f <~ try_ (invalid_or ERR_CHAINHASHMODE_FORMAT_INVALID ERR) (newFormat mode) ;;
  '(iters, s) <~ read8 s ;;
  '(lb, s) <~ need ERR_NOT_ENOUGH_DATA (read1 s) ;;
  '(data_len, c, s) <~ s_parts bd (nameLens f) lb 0 (newChd f) s ;;
  _ <~ dassert bd (cd_len c =? lb) ;;
  _ <~ dassert bd (data_len =? lb) ;;
  d <~ try_ (invalid_or code ERR) (ch <- newChainHash mode iters (Some c) ;; set ch d) ;;
  dret (d, s).
(** encrypted blocks: dataheader.cpp 1101-1130 *)
Fixpoint s_encs (n : nat) (d : dheader) (s : bytes) : dres (dheader * bytes) :=
  match n with
  | O => dret (d, s)
  | S n' =>
      '(ty, s) <~ need ERR_NOT_ENOUGH_DATA (read1 s) ;;
      '(len, s) <~ need ERR_NOT_ENOUGH_DATA (read1 s) ;;
      '(data, s) <~ need ERR_NOT_ENOUGH_DATA (readBytes 255 255 s) ;;
      d <~ lift (b <- createEncBlock ty (mkBytes data 255) len ;; addEncDataBlock b d) ;;
      s_encs n' d s
  end.
(** returns the header and the bytes that were not read *)
Definition decode_stream (bd : build) (rnd : N -> bytes) (file : bytes) : dres (dheader * bytes) :=
  noexcept (
    '(file_size, s) <~ read8 file ;;
    '(header_size, s) <~ read8 s ;;
    if negb (lenN file =? file_size) then dfail ERR_FILESIZE_INVALID
    else if file_size <? header_size then dfail ERR_HEADERSIZE_FILESIZE_MISMATCH
    else
      '(fmode, s) <~ need ERR_NOT_ENOUGH_DATA (read1 s) ;;
      '(hmode, s) <~ need ERR_NOT_ENOUGH_DATA (read1 s) ;;
      d <~ try_ (only_invalid ERR_HASHMODE_INVALID) (newDataHeader rnd hmode) ;;
      d <~ try_ (only_invalid ERR_FILEMODE_INVALID) (d_setFileDataMode fmode d) ;;
      '(count, s) <~ need ERR_NOT_ENOUGH_DATA (read1 s) ;;
      '(d, s) <~ s_blocks (N.to_nat count) d s ;;
      '(d, s) <~ s_chain bd ERR_CHAINHASH1_INVALID setChainHash1 d s ;;
      '(d, s) <~ s_chain bd ERR_CHAINHASH2_INVALID setChainHash2 d s ;;
      '(v, s) <~ need ERR_NOT_ENOUGH_DATA (readBytes (d_hsize d) (Z.of_N (d_hsize d)) s) ;;
      d <~ try_ (any_std ERR) (setValidPasswordHashBytes (mkBytes v (d_hsize d)) d) ;;
      '(sa, s) <~ need ERR_NOT_ENOUGH_DATA (readBytes (d_hsize d) (Z.of_N (d_hsize d)) s) ;;
      d <~ try_ (any_std ERR) (d_setEncSalt (mkBytes sa (d_hsize d)) d) ;;
      d <~ try_ (only_invalid ERR_FILESIZE_INVALID) (setFileSize file_size d) ;;
      '(count, s) <~ need ERR_NOT_ENOUGH_DATA (read1 s) ;;
      '(d, s) <~ s_encs (N.to_nat count) d s ;;
      d <~ try_ (any_std ERR) (calc_plain d) ;;
      l <~ lift (getHeaderLength d) ;;
      _ <~ dassert bd (lenN file - lenN s =? l) ;;
      _ <~ dassert bd (l =? header_size) ;;
      dret (d, s)).

(** ** The in-memory decoder: dataheader.cpp 254-622; [ix] is the u_int16_t index *)
Definition at1 (f : Bytes) (ix : N) : outcome N :=
  b <- copySubBytes ix (ix + 1) f ;; match bdata b with x :: _ => Ret (b2n x) | [] => Crash Undefined end.
Definition at8 (f : Bytes) (ix : N) : outcome N := b <- copySubBytes ix (ix + 8) f ;; toLong b.
(** catch (std::length_error&) *)
Definition only_length (c : errcode) (e : exn) : option errcode :=
  match e with LengthError => Some c | _ => None end.
Fixpoint m_blocks (n : nat) (f : Bytes) (d : dheader) (ix : N) : dres (dheader * N) :=
  match n with
  | O => dret (d, ix)
  | S n' =>
      ty <~ lift (at1 f ix) ;; let ix := w16 (ix + 1) in
      len <~ lift (at1 f ix) ;; let ix := w16 (ix + 1) in
      data <~ lift (copySubBytes ix (ix + len) f) ;; let ix := w16 (ix + len) in
      d <~ lift (b <- newDataBlock ty data ;; addDataBlock b d) ;;
      m_blocks n' f d ix
  end.
Definition m_part_handler (e : exn) : option errcode :=
  match e with
  | LengthError => Some ERR_CHAINHASH_DATABLOCK_OUTOFRANGE
  | InvalidArgument => Some ERR_CHAINHASH_DATAPART_INVALID
  | LogicError => Some ERR_CHAINHASH_DATABLOCK_ALREADY_COMPLETED
  | PointerThrown => None
  | _ => Some ERR
  end.
(** dataheader.cpp 383-431, 483-530: a part of free length sets [data_len] before the index is advanced by
    [lb - data_len], so the index stays where it is.  [ix + (lb - data_len)] is an int sum,
    converted to size_t *)
Fixpoint m_parts (bd : build) (nls : list (bytes * N)) (f : Bytes) (lb data_len : N) (c : chd) (ix : N) : dres (N * chd * N) :=
  match nls with
  | [] => dret (data_len, c, ix)
  | (_, len) :: r =>
      if negb (len =? 0) then
        c <~ try_ m_part_handler (b <- copySubBytes ix (ix + len) f ;; cd_addBytes bd b c) ;;
        m_parts bd r f lb (data_len + len) c (w16 (ix + len))
      else
        let end_ := Z.to_N ((Z.of_N ix + (Z.of_N lb - Z.of_N data_len)) mod 18446744073709551616) in
        c <~ try_ m_part_handler (b <- copySubBytes ix end_ f ;; cd_addBytes bd b c) ;;
        dret (lb, c, ix)
  end.
Definition m_chain (bd : build) (code : errcode) (set : chainhash -> dheader -> outcome dheader)
    (f : Bytes) (d : dheader) (ix : N) : dres (dheader * N) :=
  mode <~ try_ (invalid_or ERR_CHAINHASHMODE_FORMAT_INVALID ERR) (m <- at1 f ix ;; newFormat m) ;;
  let ix := w16 (ix + 1) in
  iters <~ lift (at8 f ix) ;; let ix := w16 (ix + 8) in
  lb <~ lift (at1 f ix) ;; let ix := w16 (ix + 1) in
  '(data_len, c, ix) <~ m_parts bd (nameLens mode) f lb 0 (newChd mode) ix ;;
  _ <~ dassert bd (cd_len c =? lb) ;;
  _ <~ dassert bd (data_len =? lb) ;;
  d <~ try_ (invalid_or code ERR) (ch <- newChainHash mode iters (Some c) ;; set ch d) ;;
  dret (d, ix).
Fixpoint m_encs (n : nat) (f : Bytes) (d : dheader) (ix : N) : dres (dheader * N) :=
  match n with
  | O => dret (d, ix)
  | S n' =>
      ty <~ lift (at1 f ix) ;; let ix := w16 (ix + 1) in
      len <~ lift (at1 f ix) ;; let ix := w16 (ix + 1) in
      data <~ lift (copySubBytes ix (ix + 255) f) ;; let ix := w16 (ix + 255) in
      d <~ lift (b <- createEncBlock ty data len ;; addEncDataBlock b d) ;;
      m_encs n' f d ix
  end.
Definition decode_mem_body (bd : build) (rnd : N -> bytes) (f : Bytes) : dres dheader :=
  file_size <~ try_ (only_length ERR_NOT_ENOUGH_DATA) (at8 f 0) ;;
  header_size <~ try_ (only_length ERR_NOT_ENOUGH_DATA) (at8 f 8) ;;
  if getLen f <? header_size then dfail ERR_NOT_ENOUGH_DATA
  else
    fmode <~ lift (at1 f 16) ;;
    hmode <~ lift (at1 f 17) ;;
    d <~ try_ (only_invalid ERR_HASHMODE_INVALID) (newDataHeader rnd hmode) ;;
    d <~ try_ (only_invalid ERR_FILEMODE_INVALID) (d_setFileDataMode fmode d) ;;
    count <~ lift (at1 f 18) ;;
    '(d, ix) <~ m_blocks (N.to_nat count) f d 19 ;;
    '(d, ix) <~ m_chain bd ERR_CHAINHASH1_INVALID setChainHash1 f d ix ;;
    '(d, ix) <~ m_chain bd ERR_CHAINHASH2_INVALID setChainHash2 f d ix ;;
    d <~ try_ (any_std ERR) (v <- copySubBytes ix (ix + d_hsize d) f ;; setValidPasswordHashBytes v d) ;;
    let ix := w16 (ix + d_hsize d) in
    d <~ try_ (any_std ERR) (sa <- copySubBytes ix (ix + d_hsize d) f ;; d_setEncSalt sa d) ;;
    let ix := w16 (ix + d_hsize d) in
    count <~ lift (at1 f ix) ;; let ix := w16 (ix + 1) in
    '(d, ix) <~ m_encs (N.to_nat count) f d ix ;;
    d <~ try_ (only_invalid ERR_FILESIZE_INVALID) (setFileSize file_size d) ;;
    d <~ try_ (any_std ERR) (calc_plain d) ;;
    l <~ lift (getHeaderLength d) ;;
    _ <~ dassert bd (ix =? header_size) ;;
    _ <~ dassert bd (l =? header_size) ;;
    dret d.
(** the outer catch (std::exception&) and noexcept *)
Definition decode_mem (bd : build) (rnd : N -> bytes) (f : Bytes) : dres dheader :=
  noexcept (match decode_mem_body bd rnd f with
            | Throw PointerThrown => Throw PointerThrown
            | Throw _ => dfail ERR
            | o => o
            end).

(** ** DataHeaderSettingsIters: dataheader.h 260-431; DataHeaderSettingsTime: 433-605.
    The two differ in the bound of the last two numbers. *)
Record dhsettings := mkSet {
  s_fmode : option N; s_hmode : option N; s_ch1 : option N; s_ch2 : option N; s_n1 : option N; s_n2 : option N;
  s_dec : list datablock; s_enc : list encblock }.
Definition set_empty : dhsettings := mkSet None None None None None None [] [].
Inductive set_op := SFile (m : N) | SHash (m : N) | SCh1 (m : N) | SCh2 (m : N) | SN1 (n : N) | SN2 (n : N).
(** setters: dataheader.h 353-406, 527-580 *)
Definition set_step (bound : N) (s : dhsettings) (o : set_op) : outcome dhsettings :=
  match o with
  | SFile m => if file_mode_valid m then Ret (mkSet (Some m) (s_hmode s) (s_ch1 s) (s_ch2 s) (s_n1 s) (s_n2 s) (s_dec s) (s_enc s)) else Throw InvalidArgument
  | SHash m => if hash_mode_valid m then Ret (mkSet (s_fmode s) (Some m) (s_ch1 s) (s_ch2 s) (s_n1 s) (s_n2 s) (s_dec s) (s_enc s)) else Throw InvalidArgument
  | SCh1 m => if ch_mode_valid m then Ret (mkSet (s_fmode s) (s_hmode s) (Some m) (s_ch2 s) (s_n1 s) (s_n2 s) (s_dec s) (s_enc s)) else Throw InvalidArgument
  | SCh2 m => if ch_mode_valid m then Ret (mkSet (s_fmode s) (s_hmode s) (s_ch1 s) (Some m) (s_n1 s) (s_n2 s) (s_dec s) (s_enc s)) else Throw InvalidArgument
  | SN1 n => if (0 <? n) && (n <=? bound) then Ret (mkSet (s_fmode s) (s_hmode s) (s_ch1 s) (s_ch2 s) (Some n) (s_n2 s) (s_dec s) (s_enc s)) else Throw InvalidArgument
  | SN2 n => if (0 <? n) && (n <=? bound) then Ret (mkSet (s_fmode s) (s_hmode s) (s_ch1 s) (s_ch2 s) (s_n1 s) (Some n) (s_dec s) (s_enc s)) else Throw InvalidArgument
  end.
(** getters: dataheader.h 299-352, 473-526 *)
Definition set_get (o : option N) : outcome N := match o with Some v => Ret v | None => Throw RuntimeError end.
(** isComplete: dataheader.h 408-419, 582-593 *)
Definition set_isComplete (s : dhsettings) : bool :=
  isSome (s_fmode s) && isSome (s_hmode s) && isSome (s_ch1 s) && isSome (s_n1 s) && isSome (s_ch2 s) && isSome (s_n2 s).
