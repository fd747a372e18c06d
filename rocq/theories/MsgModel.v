(** The failed ErrorStruct that a call of the API object returns: the code, the text in errorInfo, and what is in
    [what].  The texts of exceptions are not modelled: [Thrown e] stands for the text of an exception of kind [e].

    The functions follow those of HeaderModel, FileModel and ApiModel, with the texts that the code sets on each
    failing path; that they fail exactly when those do, and with the same codes, is proved (C100). *)
From Coq Require Import Strings.String.
From Verif Require Import Base BytesModel MiscModel CipherModel PwModel ChModel HeaderModel FileModel ApiModel TextModel.
Open Scope N_scope.
Open Scope list_scope.

Inductive origin := Quote (t : bytes) | Thrown (e : exn).
(** error.h 60-68: errorCode, errorInfo, what *)
Record failure := mkF { x_code : errcode; x_info : bytes; x_what : origin }.
Definition fres (A : Type) := outcome (failure + A).
Definition fret {A} (a : A) : fres A := Ret (inr a).
Definition ffail {A} (c : errcode) (info : bytes) (w : origin) : fres A := Ret (inl (mkF c info w)).
Definition fbind {A B} (m : fres A) (k : A -> fres B) : fres B :=
  match m with
  | Ret (inr a) => k a
  | Ret (inl x) => Ret (inl x)
  | Throw e => Throw e
  | Crash c => Crash c
  | OutOfFuel => OutOfFuel
  end.
Notation "x <+ m ;; k" := (fbind m (fun x => k)) (at level 61, m at next level, right associativity).
Notation "' p <+ m ;; k" := (fbind m (fun x => let 'p := x in k)) (at level 61, p pattern, m at next level, right associativity).
Definition flift {A} (m : outcome A) : fres A := a <- m ;; fret a.
Definition fneed {A} (c : errcode) (info : bytes) (w : origin) (o : option A) : fres A :=
  match o with Some a => fret a | None => ffail c info w end.
(** a try block; [handler e] is the ErrorStruct of the matching catch, without [what], which is the text of [e] *)
Definition ftry {A} (handler : exn -> option (errcode * bytes)) (m : outcome A) : fres A :=
  match m with
  | Ret a => fret a
  | Throw e => match handler e with Some (c, info) => ffail c info (Thrown e) | None => Throw e end
  | Crash c => Crash c
  | OutOfFuel => OutOfFuel
  end.
Definition h_std (c : errcode) (info : bytes) (e : exn) : option (errcode * bytes) :=
  match e with PointerThrown => None | _ => Some (c, info) end.
Definition h_invalid (c : errcode) (info : bytes) (e : exn) : option (errcode * bytes) :=
  match e with InvalidArgument => Some (c, info) | _ => None end.
Definition h_invalid_or (c : errcode) (info : bytes) (c' : errcode) (info' : bytes) (e : exn) : option (errcode * bytes) :=
  match e with InvalidArgument => Some (c, info) | PointerThrown => None | _ => Some (c', info') end.

(** std::string from path::c_str(): ends at the first zero byte *)
Fixpoint cstr (p : bytes) : bytes := match p with [] => [] | x :: r => if Byte.eqb x x00 then [] else x :: cstr r end.
Definition noquote : origin := Quote [].

(** ** The stream decoder: dataheader.cpp 624-1144 *)
(** the [what] of the struct before an exception is caught: dataheader.cpp 627 *)
Definition reading : origin := Quote (str "setHeaderBytes").
(** the errorInfo before it is set: dataheader.cpp 627 *)
Definition reading_info : bytes := str "An error occurred while reading the header".
Definition f_read1 (name : bytes) (s : bytes) : fres (N * bytes) := fneed ERR_NOT_ENOUGH_DATA name reading (read1 s).
Definition f_readBytes (name : bytes) (cap : N) (size : Z) (s : bytes) : fres (bytes * bytes) :=
  fneed ERR_NOT_ENOUGH_DATA name reading (readBytes cap size s).
Definition f_read8 (name : bytes) (s : bytes) : fres (N * bytes) :=
  '(b, s) <+ f_readBytes name 8 8 s ;;
  n <+ flift (toLong (mkBytes b 8)) ;; fret (n, s).
(** std::string = unsigned char, or = u_int64_t: one character, 700, 713, 778, 917, 1085 *)
Definition one_char (n : N) : bytes := [n2b n].
(** data blocks: dataheader.cpp 728-757 *)
Fixpoint f_blocks (n : nat) (d : dheader) (s : bytes) : fres (dheader * bytes) :=
  match n with
  | O => fret (d, s)
  | S n' =>
      '(ty, s) <+ f_read1 (str "Data block type") s ;;
      '(len, s) <+ f_read1 (str "Data block len") s ;;
      '(data, s) <+ f_readBytes (str "Data block data") len (Z.of_N len) s ;;
      d <+ flift (b <- newDataBlock ty (mkBytes data len) ;; addDataBlock b d) ;;
      f_blocks n' d s
  end.
(** the texts of the two chain hashes: dataheader.cpp 759-896, 898-1037 *)
Record chain_texts := mkTexts {
  t_mode : bytes; t_format_other : bytes; t_iters : bytes; t_blocklen : bytes;
  t_short : bytes; t_short_what : origin; t_part_other : bytes; t_other : bytes }.
Definition texts1 : chain_texts := mkTexts (str "Chainhash1 mode")
  (str "An error occurred while setting up the format1 and chainhashdata1") (str "Chainhash1 iters") (str "Chainhash1 blocklen")
  (str "Chainhash data block 1") reading (str "An error occurred while reading the chainhash data block 1")
  (str "An error occurred while setting the chainhash data block 1").
Definition texts2 : chain_texts := mkTexts (str "Chainhash2 mode")
  (str "An error occurred while reading the chainhash mode 2") (str "Chainhash2 iters") (str "Chainhash2 blocklen")
  (str "Chainhash data block 2") (Thrown LengthError) (str "An error occurred while reading the chainhash data block 2")
  (str "An error occurred while setting the chainhash data block 2").
(** the handlers dataheader.cpp 837-875, 977-1016; a length_error leaves [what] alone in the first chain hash (838-844) *)
Definition f_part {A} (tx : chain_texts) (tmp : bytes) (m : outcome A) : fres A :=
  match m with
  | Ret a => fret a
  | Throw LengthError => ffail ERR_NOT_ENOUGH_DATA (t_short tx) (t_short_what tx)
  | Throw InvalidArgument => ffail ERR_CHAINHASH_DATAPART_INVALID (toHex (mkBytes tmp 255)) (Thrown InvalidArgument)
  | Throw LogicError => ffail ERR_CHAINHASH_DATABLOCK_ALREADY_COMPLETED (toHex (mkBytes tmp 255)) (Thrown LogicError)
  | Throw PointerThrown => Throw PointerThrown
  | Throw e => ffail ERR (t_part_other tx) (Thrown e)
  | Crash c => Crash c
  | OutOfFuel => OutOfFuel
  end.
Fixpoint f_parts (bd : build) (tx : chain_texts) (nls : list (bytes * N)) (lb data_len : N) (c : chd) (s : bytes) : fres (N * chd * bytes) :=
  match nls with
  | [] => fret (data_len, c, s)
  | (_, len) :: r =>
      if negb (len =? 0) then
        '(b, s) <+ fneed ERR_NOT_ENOUGH_DATA (t_short tx) (t_short_what tx) (readBytes 255 (Z.of_N len) s) ;;
        c <+ f_part tx b (cd_addBytes bd (mkBytes b 255) c) ;;
        f_parts bd tx r lb (data_len + len) c s
      else
        '(b, s) <+ fneed ERR_NOT_ENOUGH_DATA (t_short tx) (t_short_what tx) (readBytes 255 (Z.of_N lb - Z.of_N data_len) s) ;;
        c <+ f_part tx b (cd_addBytes bd (mkBytes b 255) c) ;;
        fret (lb, c, s)
  end.
Definition fassert (bd : build) (b : bool) : fres unit := assertC bd b (fret tt).
(** ERR_CHAINHASH1_INVALID and ERR_CHAINHASH2_INVALID keep the initial errorInfo: dataheader.cpp 881-887, 1022-1028 *)
Definition f_chain (bd : build) (tx : chain_texts) (code : errcode) (set : chainhash -> dheader -> outcome dheader)
    (d : dheader) (s : bytes) : fres (dheader * bytes) :=
  '(mode, s) <+ f_read1 (t_mode tx) s ;;
  f <+ ftry (h_invalid_or ERR_CHAINHASHMODE_FORMAT_INVALID (one_char mode) ERR (t_format_other tx)) (newFormat mode) ;;
  '(iters, s) <+ f_read8 (t_iters tx) s ;;
  '(lb, s) <+ f_read1 (t_blocklen tx) s ;;
  '(data_len, c, s) <+ f_parts bd tx (nameLens f) lb 0 (newChd f) s ;;
  _ <+ fassert bd (cd_len c =? lb) ;;
  _ <+ fassert bd (data_len =? lb) ;;
  d <+ ftry (h_invalid_or code reading_info ERR (t_other tx)) (ch <- newChainHash mode iters (Some c) ;; set ch d) ;;
  fret (d, s).
(** encrypted blocks: dataheader.cpp 1101-1130 *)
Fixpoint f_encs (n : nat) (d : dheader) (s : bytes) : fres (dheader * bytes) :=
  match n with
  | O => fret (d, s)
  | S n' =>
      '(ty, s) <+ f_read1 (str "Enc datablock type") s ;;
      '(len, s) <+ f_read1 (str "Enc datablock len") s ;;
      '(data, s) <+ f_readBytes (str "Enc datablock data") 255 255 s ;;
      d <+ flift (b <- createEncBlock ty (mkBytes data 255) len ;; addEncDataBlock b d) ;;
      f_encs n' d s
  end.
(** 664, 671: the numbers in the text are decimal *)
Definition size_text (file_size stream : N) : bytes :=
  str "file size is not equal to the given stream size (file_size: " ++ decimal file_size ++ str ", stream size: " ++ decimal stream ++ str ")".
Definition mismatch_text (header_size file_size : N) : bytes :=
  str "header size is bigger than the file size (header_size: " ++ decimal header_size ++ str ", file size: " ++ decimal file_size ++ str ")".
Definition f_decode (bd : build) (rnd : N -> bytes) (file : bytes) : fres (dheader * bytes) :=
  noexcept (
    '(file_size, s) <+ f_read8 (str "File size") file ;;
    '(header_size, s) <+ f_read8 (str "Header size") s ;;
    if negb (lenN file =? file_size) then ffail ERR_FILESIZE_INVALID (size_text file_size (lenN file)) reading
    else if file_size <? header_size then ffail ERR_HEADERSIZE_FILESIZE_MISMATCH (mismatch_text header_size file_size) reading
    else
      '(fmode, s) <+ f_read1 (str "File mode") s ;;
      '(hmode, s) <+ f_read1 (str "Hash mode") s ;;
      d <+ ftry (h_invalid ERR_HASHMODE_INVALID (one_char hmode)) (newDataHeader rnd hmode) ;;
      d <+ ftry (h_invalid ERR_FILEMODE_INVALID (one_char fmode)) (d_setFileDataMode fmode d) ;;
      '(count, s) <+ f_read1 (str "Data block count") s ;;
      '(d, s) <+ f_blocks (N.to_nat count) d s ;;
      '(d, s) <+ f_chain bd texts1 ERR_CHAINHASH1_INVALID setChainHash1 d s ;;
      '(d, s) <+ f_chain bd texts2 ERR_CHAINHASH2_INVALID setChainHash2 d s ;;
      '(v, s) <+ f_readBytes (str "Password validator hash") (d_hsize d) (Z.of_N (d_hsize d)) s ;;
      d <+ ftry (h_std ERR (str "An error occurred while setting and reading the password validator hash")) (setValidPasswordHashBytes (mkBytes v (d_hsize d)) d) ;;
      '(sa, s) <+ f_readBytes (str "Encrypted salt") (d_hsize d) (Z.of_N (d_hsize d)) s ;;
      d <+ ftry (h_std ERR (str "An error occurred while setting and reading the salt hash")) (d_setEncSalt (mkBytes sa (d_hsize d)) d) ;;
      d <+ ftry (h_invalid ERR_FILESIZE_INVALID (one_char file_size)) (setFileSize file_size d) ;;
      '(count, s) <+ f_read1 (str "Encrypted block count") s ;;
      '(d, s) <+ f_encs (N.to_nat count) d s ;;
      d <+ ftry (h_std ERR (str "An error occurred while calculating the header bytes")) (calc_plain d) ;;
      l <+ flift (getHeaderLength d) ;;
      _ <+ fassert bd (lenN file - lenN s =? l) ;;
      _ <+ fassert bd (l =? header_size) ;;
      fret (d, s)).
(** setHeaderParts: dataheader.cpp 1146-1174 *)
Definition f_setHeaderParts (rnd : N -> bytes) (p : dhparts) : fres dheader :=
  noexcept (ftry (h_std ERR (str "An error occurred while setting the header parts")) (
    hm <- p_getHashMode p ;; d <- newDataHeader rnd hm ;;
    fm <- p_getFileDataMode p ;; d <- d_setFileDataMode fm d ;;
    d <- setChainHash1 (p_ch1 p) d ;; d <- setChainHash2 (p_ch2 p) d ;;
    v <- p_getValid p ;; d <- setValidPasswordHashBytes v d ;;
    s <- p_getSalt p ;; d <- d_setEncSalt s d ;;
    d <- addAll (p_dec p) d ;; addAllEnc (p_enc p) d)).

(** ** The file handler: filehandler.cpp *)
(** an ErrorStruct whose errorInfo is a path and that is not from an exception *)
Definition with_path {A} (p : bytes) (r : dres A) : fres A :=
  x <- r ;; Ret (match x with inl c => inl (mkF c (cstr p) noquote) | inr u => inr u end).
(** isValidPath: filehandler.cpp 14-56, the path is set at 19 *)
Definition f_isValidPath (w : world) (f : fs) (p : bytes) (should_exist : bool) : fres unit := with_path p (isValidPath w f p should_exist).
(** createFile: filehandler.cpp 58-81, the path is set at 76 *)
Definition f_createFile (w : world) (f : fs) (p : bytes) : fres unit := with_path p (snd (fh_createFile w f p)).
(** getDataHeader: filehandler.cpp 148-154 *)
Definition f_getDataHeader (w : world) (f : fs) (i : nat) (h : handler) : fres dheader :=
  noexcept ('(d, _) <+ f_decode (w_build w) (w_rnd w i) (stream_of w f (fh_path h)) ;; fret d).
(** getWriteStream: filehandler.cpp 194-215 (211), getWriteStreamIfEmpty: 217-226 (224) *)
Definition f_writeStream (w : world) (f : fs) (h : handler) : fres unit := with_path (fh_path h) (snd (fh_getWriteStream w f h)).
Definition f_writeStreamIfEmpty (w : world) (f : fs) (h : handler) : fres unit :=
  if fh_empty h then f_writeStream w f h else ffail ERR_FILE_NOT_EMPTY (cstr (fh_path h)) noquote.

(** ** The API: api.cpp *)
(** _getFileHandler: api.cpp 12-27 *)
Definition f_getFileHandler (w : world) (f : fs) (p : bytes) : fres handler :=
  noexcept (
    _ <+ f_isValidPath w f p true ;;
    ftry (h_std ERR_FILEHANDLER_CREATION []) (newFileHandler w f p)).
(** _createDataHeaderIters: api.cpp 29-129; a timeout of performChainHash has no errorInfo *)
Definition f_createHeaderIters (w : world) (mode : N) (pw : bytes) (ds : dhsettings) (timeout : N) : fres (dheader * Bytes) :=
  noexcept (
    if negb (set_isComplete ds) then ffail ERR_DATAHEADERSETTINGS_INCOMPLETE [] noquote
    else
      fm <+ flift (set_get (s_fmode ds)) ;;
      if negb (fm =? mode) then ffail ERR_FILEMODE_INVALID (str "The file mode does not match with the file data mode") noquote
      else
        '(c1, c2) <+ ftry (h_std ERR (str "Something went wrong while creating the chainhashes")) (newChains w ds) ;;
        p <+ flift (p_setFileDataMode fm (mkParts None None None None (s_dec ds) (s_enc ds) c1 c2)) ;;
        hm <+ flift (set_get (s_hmode ds)) ;;
        p <+ flift (p_setHashMode hm p) ;;
        h <+ flift (getHash (w_hashes w) hm) ;;
        r1 <+ flift (performChainHash_s h (w_clk1 w) (p_ch1 p) pw timeout) ;;
        match r1 with
        | TimedOut => ffail ERR_TIMEOUT [] noquote
        | Done k =>
            t <+ (if timeout =? 0 then fret 0
                  else if timeout <=? w64 (w_elapsed w) then ffail ERR_TIMEOUT [] noquote
                  else fret (sub64 timeout (w64 (w_elapsed w)))) ;;
            r2 <+ flift (performChainHash_b h (w_clk2 w) (p_ch2 p) k t) ;;
            match r2 with
            | TimedOut => ffail ERR_TIMEOUT [] noquote
            | Done v =>
                p <+ flift (p_setValid v p) ;;
                salt <+ flift (fillrandom (w_rnd w 2) (mkBytes [] (hsize h))) ;;
                p <+ flift (p_setSalt salt p) ;;
                d <+ f_setHeaderParts (w_rnd w 3) p ;;
                fret (d, copyBytes k)
            end
        end).
(** INIT::selectFile: api.cpp 370-383, _select_non_empty_file: 233-247 *)
Definition f_selectFile (w : world) (f : fs) (p : bytes) : fres unit :=
  noexcept (
    h <+ f_getFileHandler w f p ;;
    if fh_empty h then fret tt else _ <+ f_getDataHeader w f 0 h ;; fret tt).
(** _deleteFile: api.cpp 249-258 *)
Definition f_deleteFile (w : world) (a : api) (f : fs) : fres unit :=
  h <+ flift (ptr (a_file a)) ;;
  if negb (w_remove w (fh_path h)) then Crash Terminate
  else match f (w_loc w (fh_path h)) with
       | None => ffail ERR_FILE_NOT_DELETED (cstr (fh_path h)) noquote
       | Some _ => fret tt
       end.
(** getAllEncFileNames: api.cpp 309-335; an empty path is not put into errorInfo, 317 *)
Definition f_getRelevantFileNames (w : world) (f : fs) (mode : N) (dir : bytes) : fres (list bytes) := with_path dir (getRelevantFileNames w f mode dir).
(** FILE_SELECTED::getFileContent: api.cpp 405-414 *)
Definition f_getFileContent (w : world) (a : api) (f : fs) : fres Bytes :=
  noexcept (h <+ flift (ptr (a_file a)) ;; ftry (h_std ERR_FILE_READ (cstr (fh_path h))) (fh_getAllBytes w f h)).
(** FILE_SELECTED::verifyPassword: api.cpp 431-493 *)
Definition f_checkPassword (w : world) (d : dheader) (pw : bytes) (timeout : N) : fres Bytes :=
  p <+ flift (getDataHeaderParts d) ;;
  hm <+ flift (p_getHashMode p) ;;
  h <+ flift (getHash (w_hashes w) hm) ;;
  r1 <+ flift (performChainHash_s h (w_clk1 w) (p_ch1 p) pw timeout) ;;
  match r1 with
  | TimedOut => ffail ERR_TIMEOUT [] noquote
  | Done k =>
      let new_timeout := sub64 timeout (w64 (w_elapsed w)) in
      if negb (timeout =? 0) && (new_timeout =? 0) then ffail ERR_TIMEOUT (str "Timeout reached after the first chainhash") noquote
      else
        r2 <+ flift (performChainHash_b h (w_clk2 w) (p_ch2 p) k new_timeout) ;;
        match r2 with
        | TimedOut => ffail ERR_TIMEOUT [] noquote
        | Done v =>
            pv <+ flift (p_getValid p) ;;
            if eqBytes v pv then fret (copyBytes k) else ffail ERR_PASSWORD_INVALID [] noquote
        end
  end.
Definition f_catch {A} (info : bytes) (m : fres A) : fres A :=
  match m with
  | Throw e => match h_std ERR info e with Some (c, i) => ffail c i (Thrown e) | None => Throw e end
  | o => o
  end.
Definition f_verifyPassword (w : world) (a : api) (pw : bytes) (timeout : N) : fres Bytes :=
  noexcept (
    d <+ flift (ptr (a_dh a)) ;;
    f_catch (str "Some error occurred while verifying the password") (f_checkPassword w d pw timeout)).
(** PASSWORD_VERIFIED::getDecryptedData: api.cpp 550-571 *)
Definition f_getDecryptedData (w : world) (a : api) (f : fs) : fres Bytes :=
  noexcept (ftry (h_std ERR (str "In getDecryptedData: Something went wrong while decrypting the data")) (decryptBody w a f)).
(** DECRYPTED::encryptData: api.cpp 573-613 *)
Definition f_encryptData (w : world) (a : api) (x : option filedata) : fres Bytes :=
  noexcept (
    x <+ flift (ptr x) ;;
    match fd_mode x with
    | None => ffail ERR_FILEDATASTRUCT_INCOMPLETE [] noquote
    | Some m =>
        if negb (m =? a_mode a)
        then ffail ERR_FILEMODE_INVALID (str " In encryptData: The provided file mode does not match with the given file data mode") noquote
        else
          data <+ flift (ptr (fd_data x)) ;;
          d <+ flift (ptr (a_dh a)) ;;
          ftry (h_std ERR (str "In encryptData: Something went wrong while encrypting the data"))
            (d1 <- setDataSize (getLen data) d ;;
             let '(d2, r) := calcHeaderBytes (w_hashes w) (w_clk1 w) (mkBytes [] 0) d1 in
             _ <- r ;; encryptBody w (a_key a) data d2)
    end).
(** DECRYPTED::changeSalt: api.cpp 623-641 *)
Definition f_changeSalt (w : world) (a : api) : fres dheader :=
  noexcept (
    p <+ flift (d <- ptr (a_dh a) ;; p <- getDataHeaderParts d ;; s <- p_getSalt p ;;
                b <- newBytes (Z.of_N (getLen s)) ;; b <- fillrandom (w_rnd w 0) b ;; p_setSalt b p) ;;
    f_setHeaderParts (w_rnd w 1) p).
(** ENCRYPTED::writeToFile(path): api.cpp 698-719, writeToFile(): 721-737; [fullData] returns no ErrorStruct *)
Definition f_writeToPath (w : world) (f : fs) (p : bytes) : fres unit := h <+ f_getFileHandler w f p ;; f_writeStreamIfEmpty w f h.
Definition f_writeToFile (w : world) (a : api) (f : fs) : fres unit := h <+ flift (ptr (a_file a)) ;; f_writeStream w f h.

(** ** The state machine *)
(** WorkflowState: api.h 145-212, the text for a call that a state does not offer *)
Definition wrong_text (o : op) : bytes :=
  match o with
  | OList _ => str "getRelevantFileNames is only available in the INIT state"
  | OCreate _ => str "createEncFile is only available in the INIT state"
  | OSelect _ => str "selectFile is only available in the INIT state"
  | OIsEmpty => str "isFileEmpty is only available in the FILE_SELECTED or EMPTY_FILE_SELECTED state"
  | ODelete => str "deleteEncFile is only available in the FILE_SELECTED or EMPTY_FILE_SELECTED state"
  | OContent => str "getFileContent is only available in the FILE_SELECTED or EMPTY_FILE_SELECTED state"
  | OUnselect => str "selectFile is only available in the FILE_SELECTED or EMPTY_FILE_SELECTED state"
  | OVerify _ _ => str "verifyPassword is only available in the FILE_SELECTED state"
  | OHeader _ _ _ => str "createDataHeader is only available in the EMPTY_FILE_SELECTED or DECRYPT state"
  | OHeaderTime _ _ => str "createDataHeader is only available in the EMPTY_FILE_SELECTED or DECRYPTED state"
  | OSalt => str "changeSalt is only available in the DECRYPTED state"
  | ODecrypt => str "getDecryptedData is only available in the PASSWORD_VERIFIED state"
  | OGetData => str "getFileData is only available in the DECRYPTED state"
  | OEncrypt _ => str "encryptData is only available in the DECRYPTED state"
  | OWrite | OWriteTo _ => str "writeToFile is only available in the ENCRYPTED state"
  | OLogout | OLogoutMode _ => []
  end.
Definition failed_with {A} (m : fres A) : option failure := match m with Ret (inl x) => Some x | _ => None end.
(** the failed ErrorStruct that a call returns, if it returns one *)
Definition told (w : world) (a : api) (f : fs) (o : op) : option failure :=
  let invalid := Some (mkF ERR_API_STATE_INVALID (wrong_text o) noquote) in
  match o with
  | OLogout | OLogoutMode _ => None
  | OHeader pw ds t =>
      if negb (set_isComplete ds)
      then Some (mkF ERR_DATAHEADERSETTINGS_INCOMPLETE (str "API call made (createDataHeader) with incomplete DataHeaderSettingsIters") noquote)   (* api.h 398 *)
      else match a_state a with
           | EMPTY_FILE_SELECTED | DECRYPTED => failed_with (f_createHeaderIters w (a_mode a) pw ds t)
           | _ => invalid
           end
  | OHeaderTime pw ds =>
      if negb (set_isComplete ds)
      then Some (mkF ERR_DATAHEADERSETTINGS_INCOMPLETE (str "API call made (createDataHeader) with incomplete DataHeaderSettingsTime") noquote)    (* api.h 406 *)
      else match a_state a with
           | EMPTY_FILE_SELECTED | DECRYPTED => None       (* the process ends: ApiModel.createHeaderTime *)
           | _ => invalid
           end
  | _ =>
      match a_state a, o with
      | INIT, OList dir => failed_with (f_getRelevantFileNames w f (a_mode a) dir)
      | INIT, OCreate p => failed_with (f_createFile w f p)
      | INIT, OSelect p => failed_with (f_selectFile w f p)
      | FILE_SELECTED, OIsEmpty | EMPTY_FILE_SELECTED, OIsEmpty => None
      | FILE_SELECTED, OUnselect | EMPTY_FILE_SELECTED, OUnselect => None
      | FILE_SELECTED, ODelete | EMPTY_FILE_SELECTED, ODelete => failed_with (f_deleteFile w a f)
      | FILE_SELECTED, OContent => failed_with (f_getFileContent w a f)
      | EMPTY_FILE_SELECTED, OContent => None
      | FILE_SELECTED, OVerify pw t => failed_with (f_verifyPassword w a pw t)
      | PASSWORD_VERIFIED, ODecrypt => failed_with (f_getDecryptedData w a f)
      | DECRYPTED, OSalt => failed_with (f_changeSalt w a)
      | DECRYPTED, OGetData => match a_fdata a with None => Some (mkF ERR_FILEDATASTRUCT_NULL [] noquote) | Some _ => None end   (* 615-621 *)
      | DECRYPTED, OEncrypt x => failed_with (f_encryptData w a x)
      | ENCRYPTED, OWrite => failed_with (f_writeToFile w a f)
      | ENCRYPTED, OWriteTo p => failed_with (f_writeToPath w f p)
      | _, _ => invalid
      end
  end.
(** ErrorStruct::getErrorMessage on it; [text] gives the texts of the exceptions *)
Definition message (text : exn -> bytes) (x : failure) (verbose : bool) : bytes :=
  getErrorMessage (match x_code x with ERR_TIMEOUT => TIMEOUT | _ => FAIL end) (code_number (x_code x)) (x_info x)
    (match x_what x with Quote t => t | Thrown e => text e end) verbose.
