(** Model of the API: src/api.cpp, include/api.h, FileDataStruct of include/file_data.h.

    Each state class only adds functions to the state, so a state is its name here; the calls that a
    class does not override are the ones of WorkflowState.  Logging is not modelled. *)
From Verif Require Import Base BytesModel MiscModel CipherModel PwModel ChModel HeaderModel FileModel.

Inductive state := INIT | FILE_SELECTED | EMPTY_FILE_SELECTED | PASSWORD_VERIFIED | DECRYPTED | ENCRYPTED | FINISHED.
(** FileDataStruct: file_data.h 10-64; the data pointer may be null *)
Record filedata := mkFD { fd_mode : option N; fd_data : option Bytes }.
Definition fd_isComplete (x : filedata) : bool := isSome (fd_mode x).              (* 55-62 *)
(** the members of the API object: api.h 275-285 *)
Record api := mkApi {
  a_state : state; a_mode : N; a_fdata : option filedata; a_key : Bytes; a_enc : option Bytes;
  a_dh : option dheader; a_file : option handler }.
(** the object after the member initialisers; api.cpp 268, 275-278 *)
Definition fresh (mode : N) : api := mkApi INIT mode None (mkBytes [] 0) None None None.
(** constructor: api.cpp 268-279 *)
Definition newAPI (mode : N) : outcome api := if file_mode_valid mode then Ret (fresh mode) else Throw InvalidArgument.

Inductive op :=
| OList (dir : bytes) | OCreate (p : bytes) | OSelect (p : bytes) | OIsEmpty | OUnselect | ODelete | OContent
| OVerify (pw : bytes) (timeout : N)
| OHeader (pw : bytes) (ds : dhsettings) (timeout : N)       (* createDataHeader with DataHeaderSettingsIters *)
| OHeaderTime (pw : bytes) (ds : dhsettings)                 (* createDataHeader with DataHeaderSettingsTime *)
| OSalt | ODecrypt | OGetData | OEncrypt (x : option filedata) | OWrite | OWriteTo (p : bytes)
| OLogout | OLogoutMode (mode : N).
Inductive reply :=
| ROk | RBool (b : bool) | RNames (l : list bytes) | RBytes (b : Bytes) | RData (x : filedata) | RVoid
| RErr (s : success_type) (c : errcode).
(** the reply for a failed ErrorStruct: a timeout is the only one with another success type *)
Definition failed (c : errcode) : reply := RErr (match c with ERR_TIMEOUT => TIMEOUT | _ => FAIL end) c.
Definition reply_of {A} (ok : A -> reply) (r : errcode + A) : reply := match r with inl c => failed c | inr x => ok x end.

(** _getFileHandler: api.cpp 12-27 (noexcept) *)
Definition getFileHandler (w : world) (f : fs) (p : bytes) : dres handler :=
  noexcept (
    _ <~ isValidPath w f p true ;;
    try_ (any_std ERR_FILEHANDLER_CREATION) (newFileHandler w f p)).

(** the chain hashes of a new header, the try block of _createDataHeaderIters: api.cpp 50-64 *)
Definition newChains (w : world) (ds : dhsettings) : outcome (chainhash * chainhash) :=
  m1 <- set_get (s_ch1 ds) ;; f1 <- newFormat m1 ;;
  m2 <- set_get (s_ch2 ds) ;; f2 <- newFormat m2 ;;
  d1 <- cd_generate (w_rnd w 0) (newChd f1) ;;
  d2 <- cd_generate (w_rnd w 1) (newChd f2) ;;
  n1 <- set_get (s_n1 ds) ;; x1 <- newChainHash m1 n1 (Some d1) ;; c1 <- ch_assign ch_default x1 ;;
  n2 <- set_get (s_n2 ds) ;; x2 <- newChainHash m2 n2 (Some d2) ;; c2 <- ch_assign ch_default x2 ;;
  l1 <- ch_dataLen c1 ;; l2 <- ch_dataLen c2 ;;
  if negb (l1 =? cd_len d1) || negb (l2 =? cd_len d2) then Throw LogicError else Ret (c1, c2).
(** _createDataHeaderIters: api.cpp 29-129 (noexcept): the header and the password hash *)
Definition createHeaderIters (w : world) (mode : N) (pw : bytes) (ds : dhsettings) (timeout : N) : dres (dheader * Bytes) :=
  noexcept (
    if negb (set_isComplete ds) then dfail ERR_DATAHEADERSETTINGS_INCOMPLETE
    else
      fm <~ lift (set_get (s_fmode ds)) ;;
      if negb (fm =? mode) then dfail ERR_FILEMODE_INVALID
      else
        '(c1, c2) <~ try_ (any_std ERR) (newChains w ds) ;;
        p <~ lift (p_setFileDataMode fm (mkParts None None None None (s_dec ds) (s_enc ds) c1 c2)) ;;
        hm <~ lift (set_get (s_hmode ds)) ;;
        p <~ lift (p_setHashMode hm p) ;;
        h <~ lift (getHash (w_hashes w) hm) ;;
        r1 <~ lift (performChainHash_s h (w_clk1 w) (p_ch1 p) pw timeout) ;;
        match r1 with
        | TimedOut => dfail ERR_TIMEOUT
        | Done k =>
            t <~ (if timeout =? 0 then dret 0
                  else if timeout <=? w64 (w_elapsed w) then dfail ERR_TIMEOUT
                  else dret (sub64 timeout (w64 (w_elapsed w)))) ;;
            r2 <~ lift (performChainHash_b h (w_clk2 w) (p_ch2 p) k t) ;;
            match r2 with
            | TimedOut => dfail ERR_TIMEOUT
            | Done v =>
                p <~ lift (p_setValid v p) ;;
                salt <~ lift (fillrandom (w_rnd w 2) (mkBytes [] (hsize h))) ;;
                p <~ lift (p_setSalt salt p) ;;
                d <~ setHeaderParts (w_rnd w 3) p ;;
                dret (d, copyBytes k)
            end
        end).

(** DataHeaderHelperStruct from an ErrorStruct: api.h 88-90 *)
Definition newHelper (e : errstruct dheader) : outcome (errstruct dheader) :=
  '(_, v) <- err_step e OpRef ;; match v with Some x => Ret (createMove x) | None => Throw LogicError end.
(** _createDataHeaderTime: api.cpp 131-222 (noexcept).  Both the first statement for incomplete settings (136) and the
    first statement otherwise (140) build the helper from a failed ErrorStruct; lines 142-221 come after that
    and are modelled in TimeModel. *)
Definition createHeaderTime (ds : dhsettings) : dres (dheader * Bytes) :=
  noexcept (_ <- newHelper (err_fail FAIL) ;; Crash Undefined).

(** verifyPassword: api.cpp 431-493; the password hash if the password is right *)
Definition checkPassword (w : world) (d : dheader) (pw : bytes) (timeout : N) : dres Bytes :=
  p <~ lift (getDataHeaderParts d) ;;
  hm <~ lift (p_getHashMode p) ;;
  h <~ lift (getHash (w_hashes w) hm) ;;
  r1 <~ lift (performChainHash_s h (w_clk1 w) (p_ch1 p) pw timeout) ;;
  match r1 with
  | TimedOut => dfail ERR_TIMEOUT
  | Done k =>
      let new_timeout := sub64 timeout (w64 (w_elapsed w)) in
      if negb (timeout =? 0) && (new_timeout =? 0) then dfail ERR_TIMEOUT
      else
        r2 <~ lift (performChainHash_b h (w_clk2 w) (p_ch2 p) k new_timeout) ;;
        match r2 with
        | TimedOut => dfail ERR_TIMEOUT
        | Done v =>
            pv <~ lift (p_getValid p) ;;
            if eqBytes v pv then dret (copyBytes k) else dfail ERR_PASSWORD_INVALID
        end
  end.
(** catch (std::exception&) around a whole function that returns an ErrorStruct *)
Definition catch_std {A} (c : errcode) (m : dres A) : dres A :=
  match m with
  | Throw e => match any_std c e with Some c' => dfail c' | None => Throw e end
  | o => o
  end.
(** a null pointer is dereferenced *)
Definition ptr {A} (o : option A) : outcome A := match o with Some x => Ret x | None => Crash Undefined end.

Definition a_set (s : state) (a : api) : api := mkApi s (a_mode a) (a_fdata a) (a_key a) (a_enc a) (a_dh a) (a_file a).
(** _select_empty_file: api.cpp 224-231, _select_non_empty_file: 233-247, INIT::selectFile: 370-383 *)
Definition selectFile (w : world) (a : api) (f : fs) (p : bytes) : outcome (api * reply) :=
  noexcept (
    r <- getFileHandler w f p ;;
    match r with
    | inl c => Ret (a, failed c)
    | inr h =>
        if fh_empty h then Ret (mkApi EMPTY_FILE_SELECTED (a_mode a) (a_fdata a) (a_key a) (a_enc a) (a_dh a) (Some h), ROk)
        else
          r <- fh_getDataHeader w f 0 h ;;
          match r with
          | inl c => Ret (a, failed c)
          | inr d => Ret (mkApi FILE_SELECTED (a_mode a) (a_fdata a) (a_key a) (a_enc a) (Some d) (Some h), ROk)
          end
    end).
(** _unselectFile: api.cpp 260-266 *)
Definition unselectFile (a : api) : api := mkApi INIT (a_mode a) (a_fdata a) (a_key a) (a_enc a) None None.
(** _deleteFile: api.cpp 249-258 *)
Definition deleteFile (w : world) (a : api) (f : fs) : fs * outcome (api * reply) :=
  match a_file a with
  | None => (f, Crash Undefined)
  | Some h =>
      if negb (w_remove w (fh_path h)) then (f, Crash Terminate)
      else match f (w_loc w (fh_path h)) with
           | None => (f, Ret (a, failed ERR_FILE_NOT_DELETED))
           | Some _ => (upd f (w_loc w (fh_path h)) None, Ret (unselectFile a, ROk))
           end
  end.
(** getAllEncFileNames: api.cpp 309-335 (noexcept) *)
Definition getAllEncFileNames (w : world) (dir : bytes) : dres (list bytes) :=
  if lenN dir =? 0 then dfail ERR_EMPTY_FILEPATH
  else match w_dir w dir with
       | Missing => dfail ERR_FILEPATH_INVALID
       | Unlistable => Crash Terminate
       | Entries l => dret (map fst (filter (fun e => snd e && eqb_bytes (extension (fst e)) enc_extension) l))
       end.
(** INIT::getRelevantFileNames: api.cpp 337-363 (noexcept); the name is added to a copy of the list.
    [i] numbers the files and with them the uses of the random generator; it is an [int], which must not be
    increased beyond 2^31 - 1 (347). *)
Definition count_up {A} (i : nat) (k : outcome A) : outcome A := if N.of_nat i =? INT_MAX then Crash Undefined else k.
Fixpoint relevant_loop (w : world) (f : fs) (i : nat) (mode : N) (dir : bytes) (names ret : list bytes) : outcome (list bytes) :=
  match names with
  | [] => Ret ret
  | n :: rest =>
      r <- getFileHandler w f (join dir n) ;;
      match r with
      | inl _ => count_up i (relevant_loop w f (S i) mode dir rest ret)
      | inr h =>
          take <- (if fh_empty h then Ret true
                   else x <- fh_isDataHeader w f i mode h ;; Ret (match x with inr _ => true | inl _ => false end)) ;;
          let tmp := if (take : bool) then (ret ++ [n])%list else ret in
          count_up i (relevant_loop w f (S i) mode dir rest ret)
      end
  end.
Definition getRelevantFileNames (w : world) (f : fs) (mode : N) (dir : bytes) : dres (list bytes) :=
  noexcept (names <~ getAllEncFileNames w dir ;; lift (relevant_loop w f 0 mode dir names [])).

(** FILE_SELECTED::verifyPassword: api.cpp 431-493 (noexcept) *)
Definition verifyPassword (w : world) (a : api) (pw : bytes) (timeout : N) : outcome (api * reply) :=
  noexcept (
    d <- ptr (a_dh a) ;;
    r <- catch_std ERR (checkPassword w d pw timeout) ;;
    match r with
    | inl c => Ret (a, failed c)
    | inr k => Ret (mkApi PASSWORD_VERIFIED (a_mode a) (a_fdata a) k (a_enc a) (a_dh a) (a_file a), ROk)
    end).
(** EMPTY_FILE_SELECTED::createDataHeader: api.cpp 495-521, 523-548 (noexcept) *)
Definition headerEmpty (a : api) (r : dres (dheader * Bytes)) : outcome (api * reply) :=
  x <- r ;;
  match x with
  | inl c => Ret (a, failed c)
  | inr (d, k) => Ret (mkApi DECRYPTED (a_mode a) (Some (mkFD (Some (a_mode a)) (Some (mkBytes [] 0)))) (copyBytes k) (a_enc a) (Some d) (a_file a), ROk)
  end.
(** DECRYPTED::createDataHeader: api.cpp 643-669, 671-696 (noexcept) *)
Definition headerDecrypted (a : api) (r : dres (dheader * Bytes)) : outcome (api * reply) :=
  x <- r ;;
  match x with
  | inl c => Ret (a, failed c)
  | inr (d, k) => Ret (mkApi (a_state a) (a_mode a) (a_fdata a) (copyBytes k) (a_enc a) (Some d) (a_file a), ROk)
  end.
(** PASSWORD_VERIFIED::getDecryptedData: api.cpp 550-571 (noexcept) *)
Definition decryptBody (w : world) (a : api) (f : fs) : outcome Bytes :=
  d <- ptr (a_dh a) ;;
  p <- getDataHeaderParts d ;; hm <- p_getHashMode p ;; h <- getHash (w_hashes w) hm ;;
  s <- p_getSalt p ;;
  c <- new_chain Dec h (a_key a) s ;;
  x <- ptr (a_file a) ;;
  c <- addStream (w_fuel w) (fh_dataStream w f x) (fh_dataSize x) c ;;
  '(res, _) <- getResult c ;; Ret res.
Definition getDecryptedData (w : world) (a : api) (f : fs) : outcome (api * reply) :=
  noexcept (
    r <- try_ (any_std ERR) (decryptBody w a f) ;;
    match r with
    | inl c => Ret (a, failed c)
    | inr res => Ret (mkApi DECRYPTED (a_mode a) None (a_key a) (a_enc a) (a_dh a) (a_file a), RData (mkFD (Some (a_mode a)) (Some res)))
    end).
(** DECRYPTED::encryptData: api.cpp 573-613 (noexcept); the body of the try block from the EncryptBlockChain on *)
Definition encryptBody (w : world) (key : Bytes) (data : Bytes) (d : dheader) : outcome Bytes :=
  p <- getDataHeaderParts d ;; hm <- p_getHashMode p ;; h <- getHash (w_hashes w) hm ;;
  s <- p_getSalt p ;;
  c <- new_chain Enc h key s ;;
  c <- addData (w_fuel w) data c ;;
  '(res, _) <- getResult c ;; Ret res.
Definition encryptData (w : world) (a : api) (x : option filedata) : outcome (api * reply) :=
  noexcept (
    x <- ptr x ;;
    match fd_mode x with
    | None => Ret (a, failed ERR_FILEDATASTRUCT_INCOMPLETE)
    | Some m =>
        if negb (m =? a_mode a) then Ret (a, failed ERR_FILEMODE_INVALID)
        else
          data <- ptr (fd_data x) ;;
          d <- ptr (a_dh a) ;;
          r <- try_ (any_std ERR) (setDataSize (getLen data) d) ;;
          match r with
          | inl c => Ret (a, failed c)
          | inr d1 =>
              let '(d2, r) := calcHeaderBytes (w_hashes w) (w_clk1 w) (mkBytes [] 0) d1 in
              r <- try_ (any_std ERR) (_ <- r ;; encryptBody w (a_key a) data d2) ;;
              match r with
              | inl c => Ret (mkApi (a_state a) (a_mode a) (a_fdata a) (a_key a) (a_enc a) (Some d2) (a_file a), failed c)
              | inr res => Ret (mkApi ENCRYPTED (a_mode a) (Some (mkFD (Some m) None)) (a_key a) (Some res) (Some d2) (a_file a), ROk)
              end
          end
    end).
(** DECRYPTED::changeSalt: api.cpp 623-641 (noexcept) *)
Definition changeSalt (w : world) (a : api) : outcome (api * reply) :=
  noexcept (
    d <- ptr (a_dh a) ;;
    p <- getDataHeaderParts d ;;
    s <- p_getSalt p ;;
    b <- newBytes (Z.of_N (getLen s)) ;;
    b <- fillrandom (w_rnd w 0) b ;;
    p <- p_setSalt b p ;;
    r <- setHeaderParts (w_rnd w 1) p ;;
    match r with
    | inl c => Ret (a, failed c)
    | inr d' => Ret (mkApi (a_state a) (a_mode a) (a_fdata a) (a_key a) (a_enc a) (Some d') (a_file a), ROk)
    end).
(** conversion of size_t to int64_t (implementation-defined before C++20, modulo on gcc) *)
Definition to_int64 (n : N) : Z :=
  let m := (Z.of_N n mod 18446744073709551616)%Z in
  if (m <? 9223372036854775808)%Z then m else (m - 18446744073709551616)%Z.
(** the bytes that are written: api.cpp 708-710, 727-729 *)
Definition fullData (a : api) : outcome Bytes :=
  d <- ptr (a_dh a) ;; hb <- getHeaderBytes d ;;
  e <- ptr (a_enc a) ;;
  t <- newBytes (to_int64 (getLen hb + getLen e)) ;;
  t <- addcopyToBytes hb t ;; addcopyToBytes e t.
(** the end of both writeToFile functions, after the file was opened (and truncated) *)
Definition finishWrite (w : world) (a : api) (f : fs) (p : bytes) : fs * outcome (api * reply) :=
  match noexcept (fullData a) with
  | Ret t => (write_stream w f p (bdata t), Ret (mkApi FINISHED (a_mode a) (a_fdata a) (a_key a) None (a_dh a) (a_file a), ROk))
  | Throw e => (f, Throw e)
  | Crash c => (f, Crash c)
  | OutOfFuel => (f, OutOfFuel)
  end.
(** ENCRYPTED::writeToFile(path): api.cpp 698-719 (noexcept) *)
Definition writeToPath (w : world) (a : api) (f : fs) (p : bytes) : fs * outcome (api * reply) :=
  match getFileHandler w f p with
  | Ret (inl c) => (f, Ret (a, failed c))
  | Ret (inr h) =>
      match fh_getWriteStreamIfEmpty w f h with
      | (_, f', Ret (inr _)) => finishWrite w a f' p
      | (_, f', Ret (inl c)) => (f', Ret (a, failed c))
      | (_, f', Throw _) => (f', Crash Terminate)
      | (_, f', Crash c) => (f', Crash c)
      | (_, f', OutOfFuel) => (f', OutOfFuel)
      end
  | Throw _ => (f, Crash Terminate)
  | Crash c => (f, Crash c)
  | OutOfFuel => (f, OutOfFuel)
  end.
(** ENCRYPTED::writeToFile(): api.cpp 721-737 (noexcept) *)
Definition writeToFile (w : world) (a : api) (f : fs) : fs * outcome (api * reply) :=
  match a_file a with
  | None => (f, Crash Undefined)
  | Some h =>
      match fh_getWriteStream w f h with
      | (h', f', r) =>
          let a' := mkApi (a_state a) (a_mode a) (a_fdata a) (a_key a) (a_enc a) (a_dh a) (Some h') in
          match r with
          | Ret (inr _) => finishWrite w a' f' (fh_path h)
          | Ret (inl c) => (f', Ret (a', failed c))
          | Throw _ => (f', Crash Terminate)
          | Crash c => (f', Crash c)
          | OutOfFuel => (f', OutOfFuel)
          end
      end
  end.
(** FILE_SELECTED::getFileContent: api.cpp 405-414 *)
Definition getFileContent (w : world) (a : api) (f : fs) : outcome (api * reply) :=
  noexcept (
    h <- ptr (a_file a) ;;
    r <- try_ (any_std ERR_FILE_READ) (fh_getAllBytes w f h) ;;
    Ret (a, reply_of RBytes r)).
(** DECRYPTED::getFileData: api.cpp 615-621 *)
Definition getFileData (a : api) : api * reply :=
  match a_fdata a with
  | None => (a, failed ERR_FILEDATASTRUCT_NULL)
  | Some x => (mkApi (a_state a) (a_mode a) None (a_key a) (a_enc a) (a_dh a) (a_file a), RData x)
  end.

(** One call of a public member function; [f] is the file system before it.  The file system after the call is
    returned in any case, also if the process dies.  createDataHeader checks its settings first: api.h 395-410.
    logout: api.h 125-141. *)
Definition step (w : world) (a : api) (f : fs) (o : op) : fs * outcome (api * reply) :=
  let invalid := (f, Ret (a, failed ERR_API_STATE_INVALID)) in
  match o with
  | OLogout => (f, Ret (fresh (a_mode a), RVoid))
  | OLogoutMode _ => (f, Ret (fresh (a_mode a), RVoid))
  | OHeader pw ds t =>
      if negb (set_isComplete ds) then (f, Ret (a, failed ERR_DATAHEADERSETTINGS_INCOMPLETE))
      else match a_state a with
           | EMPTY_FILE_SELECTED => (f, noexcept (headerEmpty a (createHeaderIters w (a_mode a) pw ds t)))
           | DECRYPTED => (f, noexcept (headerDecrypted a (createHeaderIters w (a_mode a) pw ds t)))
           | _ => invalid
           end
  | OHeaderTime pw ds =>
      if negb (set_isComplete ds) then (f, Ret (a, failed ERR_DATAHEADERSETTINGS_INCOMPLETE))
      else match a_state a with
           | EMPTY_FILE_SELECTED => (f, noexcept (headerEmpty a (createHeaderTime ds)))
           | DECRYPTED => (f, noexcept (headerDecrypted a (createHeaderTime ds)))
           | _ => invalid
           end
  | OList dir =>
      match a_state a with
      | INIT => (f, r <- getRelevantFileNames w f (a_mode a) dir ;; Ret (a, reply_of RNames r))
      | _ => invalid
      end
  | OCreate p =>
      match a_state a with
      | INIT => let '(f', r) := fh_createFile w f p in (f', x <- r ;; Ret (a, reply_of (fun _ => ROk) x))
      | _ => invalid
      end
  | OSelect p => match a_state a with INIT => (f, selectFile w a f p) | _ => invalid end
  | OIsEmpty =>
      match a_state a with
      | FILE_SELECTED => (f, Ret (a, RBool false))
      | EMPTY_FILE_SELECTED => (f, Ret (a, RBool true))
      | _ => invalid
      end
  | OUnselect =>
      match a_state a with
      | FILE_SELECTED | EMPTY_FILE_SELECTED => (f, Ret (unselectFile a, ROk))
      | _ => invalid
      end
  | ODelete => match a_state a with FILE_SELECTED | EMPTY_FILE_SELECTED => deleteFile w a f | _ => invalid end
  | OContent =>
      match a_state a with
      | FILE_SELECTED => (f, getFileContent w a f)
      | EMPTY_FILE_SELECTED => (f, Ret (a, RBytes (mkBytes [] 0)))
      | _ => invalid
      end
  | OVerify pw t => match a_state a with FILE_SELECTED => (f, verifyPassword w a pw t) | _ => invalid end
  | ODecrypt => match a_state a with PASSWORD_VERIFIED => (f, getDecryptedData w a f) | _ => invalid end
  | OGetData => match a_state a with DECRYPTED => (f, Ret (getFileData a)) | _ => invalid end
  | OSalt => match a_state a with DECRYPTED => (f, changeSalt w a) | _ => invalid end
  | OEncrypt x => match a_state a with DECRYPTED => (f, encryptData w a x) | _ => invalid end
  | OWrite => match a_state a with ENCRYPTED => writeToFile w a f | _ => invalid end
  | OWriteTo p => match a_state a with ENCRYPTED => writeToPath w a f p | _ => invalid end
  end.
