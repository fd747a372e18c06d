(** The calls that read files, once more, with streams that fail: read errors, directories, pipes and devices.

    A stream that could be opened reports a position before and after seeking to its end, and delivers some bytes.  A failed
    tellg says -1.  When seeking fails, or a read fails, the stream stays in an error state: readsome delivers nothing more and
    peek says EOF, so readData (utility.cpp 81-122) returns false as at the end of a file.  [FileModel] and [ApiModel] are the case
    in which the whole file is delivered (C89). *)
From Verif Require Import Base BytesModel MiscModel CipherModel PwModel ChModel HeaderModel FileModel ApiModel InterModel.
Open Scope N_scope.

(** an open stream: tellg at the start, tellg after seekg(0, end), the bytes a reader gets from the start on *)
Record source := mkSrc { s_begin : option N; s_end : option N; s_gives : bytes }.
Definition pos_of (o : option N) : Z := match o with Some n => Z.of_N n | None => -1 end.
(** end - begin as size_t: filehandler.cpp 94-97, dataheader.cpp 636-638 *)
Definition measured (s : source) : N := Z.to_N ((pos_of (s_end s) - pos_of (s_begin s)) mod 18446744073709551616).
(** what is read after seeking to the start again *)
Definition delivered (s : source) : bytes := match s_begin s, s_end s with Some _, Some _ => s_gives s | _, _ => [] end.
(** a stream that could not be opened: every tellg says -1 *)
Definition closed_src : source := mkSrc None None [].

Section Fault.
Variable w : world.
(** [src n c]: what the n-th stream of a call is like, if the file has the content [c] *)
Variable src : nat -> bytes -> source.
Definition open_src (n : nat) (f : fs) (p : bytes) : source :=
  match f (w_loc w p) with Some c => if w_read w p then src n c else closed_src | None => closed_src end.

(** update: filehandler.cpp 92-129 *)
Definition update_r (n : nat) (f : fs) (p : bytes) : outcome handler := update_sized p (measured (open_src n f p)) (delivered (open_src n f p)).
(** constructor: filehandler.cpp 83-90 *)
Definition newFileHandler_r (n : nat) (f : fs) (p : bytes) : outcome handler :=
  v <- isValidPath w f p true ;;
  match v with inl _ => Throw RuntimeError | inr _ => update_r n f p end.
(** _getFileHandler: api.cpp 12-27 *)
Definition getFileHandler_r (n : nat) (f : fs) (p : bytes) : dres handler :=
  noexcept (_ <~ isValidPath w f p true ;; try_ (any_std ERR_FILEHANDLER_CREATION) (newFileHandler_r n f p)).
(** getDataHeader: filehandler.cpp 148-154 *)
Definition getDataHeader_r (n i : nat) (f : fs) (h : handler) : dres dheader :=
  let s := open_src n f (fh_path h) in
  noexcept ('(d, _) <~ decode_sized (w_build w) (w_rnd w i) (measured s) (delivered s) ;; dret d).
(** isDataHeader: filehandler.cpp 131-144 *)
Definition isDataHeader_r (n i : nat) (f : fs) (mode : N) (h : handler) : dres unit :=
  noexcept (
    d <~ getDataHeader_r n i f h ;;
    m <~ lift (p <- getDataHeaderParts d ;; p_getFileDataMode p) ;;
    if m =? mode then dret tt else dfail ERR_FILEMODE_INVALID).
(** getAllBytes: filehandler.cpp 246-267; the size is tellg after seeking to the end, converted to unsigned int for readData;
    then it seeks to 0 *)
Definition getAllBytes_r (n : nat) (f : fs) (h : handler) : outcome Bytes :=
  match f (w_loc w (fh_path h)) with
  | Some c =>
      if w_read w (fh_path h) then
        let s := src n c in
        b <- newBytes (pos_of (s_end s)) ;;
        match readBytes (bmax b) (pos_of (s_end s)) (match s_end s with Some _ => s_gives s | None => [] end) with
        | Some (x, _) => Ret (mkBytes x (bmax b))
        | None => Throw LengthError
        end
      else Throw RuntimeError
  | None => Throw RuntimeError
  end.
(** getDataStream: filehandler.cpp 161-166: seeks to the header size; a stream that cannot seek delivers nothing *)
Definition dataStream_r (n : nat) (f : fs) (h : handler) : bytes :=
  let s := open_src n f (fh_path h) in match s_begin s with Some _ => dropN (fh_hsize h) (s_gives s) | None => [] end.

(** INIT::selectFile: api.cpp 370-383 with 224-247 *)
Definition selectFile_r (a : api) (f : fs) (p : bytes) : outcome (api * reply) :=
  noexcept (
    r <- getFileHandler_r 0 f p ;;
    match r with
    | inl c => Ret (a, failed c)
    | inr h =>
        if fh_empty h then Ret (mkApi EMPTY_FILE_SELECTED (a_mode a) (a_fdata a) (a_key a) (a_enc a) (a_dh a) (Some h), ROk)
        else
          r <- getDataHeader_r 1 0 f h ;;
          match r with
          | inl c => Ret (a, failed c)
          | inr d => Ret (mkApi FILE_SELECTED (a_mode a) (a_fdata a) (a_key a) (a_enc a) (Some d) (Some h), ROk)
          end
    end).
(** INIT::getRelevantFileNames: api.cpp 337-363 *)
Fixpoint relevant_r (f : fs) (i : nat) (mode : N) (dir : bytes) (names ret : list bytes) : outcome (list bytes) :=
  match names with
  | [] => Ret ret
  | n :: rest =>
      r <- getFileHandler_r (2 * i) f (join dir n) ;;
      match r with
      | inl _ => count_up i (relevant_r f (S i) mode dir rest ret)
      | inr h =>
          take <- (if fh_empty h then Ret true
                   else x <- isDataHeader_r (2 * i + 1) i f mode h ;; Ret (match x with inr _ => true | inl _ => false end)) ;;
          let tmp := if (take : bool) then (ret ++ [n])%list else ret in
          count_up i (relevant_r f (S i) mode dir rest ret)
      end
  end.
Definition getRelevantFileNames_r (f : fs) (mode : N) (dir : bytes) : dres (list bytes) :=
  noexcept (names <~ getAllEncFileNames w dir ;; lift (relevant_r f 0 mode dir names [])).
(** FILE_SELECTED::getFileContent: api.cpp 405-414 *)
Definition getFileContent_r (a : api) (f : fs) : outcome (api * reply) :=
  noexcept (
    h <- ptr (a_file a) ;;
    r <- try_ (any_std ERR_FILE_READ) (getAllBytes_r 0 f h) ;;
    Ret (a, reply_of RBytes r)).
(** PASSWORD_VERIFIED::getDecryptedData: api.cpp 550-571 *)
Definition decryptBody_r (a : api) (f : fs) : outcome Bytes :=
  d <- ptr (a_dh a) ;;
  p <- getDataHeaderParts d ;; hm <- p_getHashMode p ;; h <- getHash (w_hashes w) hm ;;
  s <- p_getSalt p ;;
  c <- new_chain Dec h (a_key a) s ;;
  x <- ptr (a_file a) ;;
  c <- addStream (w_fuel w) (dataStream_r 0 f x) (fh_dataSize x) c ;;
  '(res, _) <- getResult c ;; Ret res.
Definition getDecryptedData_r (a : api) (f : fs) : outcome (api * reply) :=
  noexcept (
    r <- try_ (any_std ERR) (decryptBody_r a f) ;;
    match r with
    | inl c => Ret (a, failed c)
    | inr res => Ret (mkApi DECRYPTED (a_mode a) None (a_key a) (a_enc a) (a_dh a) (a_file a), RData (mkFD (Some (a_mode a)) (Some res)))
    end).
(** ENCRYPTED::writeToFile(path): api.cpp 698-719 *)
Definition writeToPath_r (a : api) (f : fs) (p : bytes) : fs * outcome (api * reply) :=
  match getFileHandler_r 0 f p with
  | Ret (inl c) => (f, Ret (a, failed c))
  | Ret (inr h) =>
      match fh_getWriteStreamIfEmpty w f h with
      | (_, f', Ret (inr _)) => finishWrite w a f' p
      | (_, f', Ret (inl c)) => (f', Ret (a, failed c))
      | (_, f', Throw _) => (f', Crash Terminate)
      | (_, f', Crash c) => (f', Crash c)
      | (_, f', OutOfFuel) => (f', OutOfFuel)
      end
  | Throw _ => (f, Crash Terminate)
  | Crash c => (f, Crash c)
  | OutOfFuel => (f, OutOfFuel)
  end.

(** one call; the calls that do not read files are those of [step] *)
Definition step_r (a : api) (f : fs) (o : op) : fs * outcome (api * reply) :=
  match o, a_state a with
  | OList dir, INIT => (f, r <- getRelevantFileNames_r f (a_mode a) dir ;; Ret (a, reply_of RNames r))
  | OSelect p, INIT => (f, selectFile_r a f p)
  | OContent, FILE_SELECTED => (f, getFileContent_r a f)
  | ODecrypt, PASSWORD_VERIFIED => (f, getDecryptedData_r a f)
  | OWriteTo p, ENCRYPTED => writeToPath_r a f p
  | _, _ => step w a f o
  end.
End Fault.
