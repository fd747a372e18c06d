(** The calls that use files, once more, with other processes acting during a call.

    A call is a sequence of accesses to the file system; before each access the others may change it in any way.
    [FileModel] and [ApiModel] are the case in which they do nothing (C88).  An opened stream whose file is removed still
    delivers what was in the file.  The bytes that one stream delivers are those of one moment: since the others can write
    any bytes before, nothing is lost by this.  Names, rights and the random numbers ([world]) do not change during a call. *)
From Verif Require Import Base BytesModel MiscModel CipherModel PwModel ChModel HeaderModel FileModel ApiModel.
Open Scope N_scope.

(** DataHeader::setHeaderBytes on a stream, dataheader.cpp 624-1144: [size] is what tellg said at the end of the file (636-639),
    [file] is what the stream delivers afterwards *)
Definition decode_sized (bd : build) (rnd : N -> bytes) (size : N) (file : bytes) : dres (dheader * bytes) :=
  noexcept (
    '(file_size, s) <~ read8 file ;;
    '(header_size, s) <~ read8 s ;;
    if negb (size =? file_size) then dfail ERR_FILESIZE_INVALID
    else if file_size <? header_size then dfail ERR_HEADERSIZE_FILESIZE_MISMATCH
    else
      '(fmode, s) <~ need ERR_NOT_ENOUGH_DATA (read1 s) ;;
      '(hmode, s) <~ need ERR_NOT_ENOUGH_DATA (read1 s) ;;
      d <~ try_ (only_invalid ERR_HASHMODE_INVALID) (newDataHeader rnd hmode) ;;
      d <~ try_ (only_invalid ERR_FILEMODE_INVALID) (d_setFileDataMode fmode d) ;;
      '(count, s) <~ need ERR_NOT_ENOUGH_DATA (read1 s) ;;
      '(d, s) <~ s_blocks (N.to_nat count) d s ;;
      '(d, s) <~ s_chain bd ERR_CHAINHASH1_INVALID setChainHash1 d s ;;
      '(d, s) <~ s_chain bd ERR_CHAINHASH2_INVALID setChainHash2 d s ;;
      '(v, s) <~ need ERR_NOT_ENOUGH_DATA (readBytes (d_hsize d) (Z.of_N (d_hsize d)) s) ;;
      d <~ try_ (any_std ERR) (setValidPasswordHashBytes (mkBytes v (d_hsize d)) d) ;;
      '(sa, s) <~ need ERR_NOT_ENOUGH_DATA (readBytes (d_hsize d) (Z.of_N (d_hsize d)) s) ;;
      d <~ try_ (any_std ERR) (d_setEncSalt (mkBytes sa (d_hsize d)) d) ;;
      d <~ try_ (only_invalid ERR_FILESIZE_INVALID) (setFileSize file_size d) ;;
      '(count, s) <~ need ERR_NOT_ENOUGH_DATA (read1 s) ;;
      '(d, s) <~ s_encs (N.to_nat count) d s ;;
      d <~ try_ (any_std ERR) (calc_plain d) ;;
      l <~ lift (getHeaderLength d) ;;
      _ <~ dassert bd (lenN file - lenN s =? l) ;;
      _ <~ dassert bd (l =? header_size) ;;
      dret (d, s)).

Section Inter.
Variable w : world.
(** what the others do before the n-th access *)
Variable env : nat -> fs -> fs.
(** number of accesses so far, file system *)
Definition st : Type := nat * fs.
(** an access that looks, an access that changes *)
Definition look (s : st) : st * fs := let f := env (fst s) (snd s) in ((S (fst s), f), f).
Definition change (g : fs -> fs) (s : st) : st := (S (fst s), g (env (fst s) (snd s))).
Definition at_ (p : bytes) (f : fs) : option bytes := f (w_loc w p).
(** reading from an opened stream whose file had the content [c] *)
Definition later (p : bytes) (c : bytes) (s : st) : st * bytes :=
  let '(s, f) := look s in (s, match at_ p f with Some c' => c' | None => c end).
(** std::ifstream(path): the content if it can be opened *)
Definition open_read (p : bytes) (s : st) : st * option bytes :=
  let '(s, f) := look s in (s, match at_ p f with Some c => if w_read w p then Some c else None | None => None end).

(** isValidPath: filehandler.cpp 14-56; exists at 33 and 47, the stream at 39 *)
Definition isValidPath_i (p : bytes) (should_exist : bool) (s : st) : st * dres unit :=
  if lenN p =? 0 then (s, dfail ERR_EMPTY_FILEPATH)
  else if negb (eqb_bytes (extension p) enc_extension) then (s, dfail ERR_EXTENSION_INVALID)
  else
    let '(s, f) := look s in
    if negb (w_stat w p) then (s, Crash Terminate)
    else match should_exist, at_ p f with
         | true, None => (s, dfail ERR_FILE_NOT_FOUND)
         | true, Some _ =>
             let '(s, c) := open_read p s in
             (s, match c with Some _ => dret tt | None => dfail ERR_FILE_NOT_OPEN end)
         | false, Some _ => (s, dfail ERR_FILE_EXISTS)
         | false, None => (s, dret tt)
         end.
(** std::ofstream(path): creates the file or empties it; whether it is open *)
Definition open_write (p : bytes) (s : st) : st * bool :=
  let f := env (fst s) (snd s) in
  let ok := match at_ p f with Some _ => w_write w p | None => w_create w p end in
  ((S (fst s), if ok then upd f (w_loc w p) (Some []) else f), ok).
(** createFile: filehandler.cpp 58-81 *)
Definition createFile_i (p : bytes) (s : st) : st * dres unit :=
  match isValidPath_i p false s with
  | (s, Ret (inr _)) => let '(s, ok) := open_write p s in (s, if ok then dret tt else dfail ERR_FILE_NOT_CREATED)
  | r => r
  end.

(** update: filehandler.cpp 92-129; [size] from tellg (94-97), [c] what is read then *)
Definition update_sized (p : bytes) (size : N) (c : bytes) : outcome handler :=
  hsize <- match readBytes 8 8 c with
           | None => if size =? 0 then Ret 0 else Throw LengthError
           | Some (b, s) =>
               n <- toLong (mkBytes b 8) ;;
               if negb (n =? size) then Throw LogicError
               else match readBytes 8 8 s with
                    | None => Throw LengthError
                    | Some (b', _) => toLong (mkBytes b' 8)
                    end
           end ;;
  if size <? hsize then Throw LogicError
  else if (hsize <? MIN_DATAHEADER_LEN) && negb ((hsize =? 0) && (size =? 0)) then Throw LengthError
  else Ret (mkFH p hsize size (size =? 0)).
Definition update_i (p : bytes) (s : st) : st * outcome handler :=
  match open_read p s with
  | (s, None) => (s, update_sized p 0 [])
  | (s, Some c) => let '(s, x) := later p c s in let '(s, y) := later p x s in (s, update_sized p (lenN x) y)
  end.
(** constructor: filehandler.cpp 83-90 *)
Definition newFileHandler_i (p : bytes) (s : st) : st * outcome handler :=
  match isValidPath_i p true s with
  | (s, Ret (inr _)) => update_i p s
  | (s, Ret (inl _)) => (s, Throw RuntimeError)
  | (s, Throw e) => (s, Throw e)
  | (s, Crash c) => (s, Crash c)
  | (s, OutOfFuel) => (s, OutOfFuel)
  end.
(** _getFileHandler: api.cpp 12-27 *)
Definition getFileHandler_i (p : bytes) (s : st) : st * dres handler :=
  match isValidPath_i p true s with
  | (s, Ret (inr _)) => let '(s, r) := newFileHandler_i p s in (s, noexcept (try_ (any_std ERR_FILEHANDLER_CREATION) r))
  | (s, Ret (inl c)) => (s, dfail c)
  | (s, Throw _) => (s, Crash Terminate)
  | (s, Crash c) => (s, Crash c)
  | (s, OutOfFuel) => (s, OutOfFuel)
  end.
(** getDataHeader: filehandler.cpp 148-154 *)
Definition getDataHeader_i (i : nat) (h : handler) (s : st) : st * dres dheader :=
  let '(s, size, c) :=
    match open_read (fh_path h) s with
    | (s, None) => (s, 0, [])
    | (s, Some c) => let '(s, x) := later (fh_path h) c s in let '(s, y) := later (fh_path h) x s in (s, lenN x, y)
    end in
  (s, noexcept ('(d, _) <~ decode_sized (w_build w) (w_rnd w i) size c ;; dret d)).
(** isDataHeader: filehandler.cpp 131-144 *)
Definition isDataHeader_i (i : nat) (mode : N) (h : handler) (s : st) : st * dres unit :=
  let '(s, r) := getDataHeader_i i h s in
  (s, noexcept (
    d <~ r ;;
    m <~ lift (p <- getDataHeaderParts d ;; p_getFileDataMode p) ;;
    if m =? mode then dret tt else dfail ERR_FILEMODE_INVALID)).
(** getAllBytes: filehandler.cpp 246-267 *)
Definition getAllBytes_i (h : handler) (s : st) : st * outcome Bytes :=
  match open_read (fh_path h) s with
  | (s, None) => (s, Throw RuntimeError)
  | (s, Some c) =>
      let '(s, x) := later (fh_path h) c s in let '(s, y) := later (fh_path h) x s in
      (s, match readBytes (lenN x) (Z.of_N (lenN x)) y with
          | Some (b, _) => Ret (mkBytes b (lenN x))
          | None => Throw LengthError
          end)
  end.

(** _select_empty_file, _select_non_empty_file, INIT::selectFile: api.cpp 224-247, 370-383 *)
Definition selectFile_i (a : api) (p : bytes) (s : st) : st * outcome (api * reply) :=
  match getFileHandler_i p s with
  | (s, Ret (inl c)) => (s, Ret (a, failed c))
  | (s, Ret (inr h)) =>
      if fh_empty h then (s, Ret (mkApi EMPTY_FILE_SELECTED (a_mode a) (a_fdata a) (a_key a) (a_enc a) (a_dh a) (Some h), ROk))
      else
        match getDataHeader_i 0 h s with
        | (s, Ret (inl c)) => (s, Ret (a, failed c))
        | (s, Ret (inr d)) => (s, Ret (mkApi FILE_SELECTED (a_mode a) (a_fdata a) (a_key a) (a_enc a) (Some d) (Some h), ROk))
        | (s, Throw _) => (s, Crash Terminate)
        | (s, Crash c) => (s, Crash c)
        | (s, OutOfFuel) => (s, OutOfFuel)
        end
  | (s, Throw _) => (s, Crash Terminate)
  | (s, Crash c) => (s, Crash c)
  | (s, OutOfFuel) => (s, OutOfFuel)
  end.
(** _deleteFile: api.cpp 249-258 *)
Definition deleteFile_i (a : api) (s : st) : st * outcome (api * reply) :=
  match a_file a with
  | None => (s, Crash Undefined)
  | Some h =>
      let p := fh_path h in
      if negb (w_remove w p) then (s, Crash Terminate)
      else
        let f := env (fst s) (snd s) in
        match at_ p f with
        | None => ((S (fst s), f), Ret (a, failed ERR_FILE_NOT_DELETED))
        | Some _ => ((S (fst s), upd f (w_loc w p) None), Ret (unselectFile a, ROk))
        end
  end.
(** INIT::getRelevantFileNames: api.cpp 337-363 *)
Definition count_up_i {A} (i : nat) (k : st -> st * outcome A) (s : st) : st * outcome A := if N.of_nat i =? INT_MAX then (s, Crash Undefined) else k s.
Fixpoint relevant_i (i : nat) (mode : N) (dir : bytes) (names : list bytes) (ret : list bytes) (s : st) : st * outcome (list bytes) :=
  match names with
  | [] => (s, Ret ret)
  | n :: rest =>
      match getFileHandler_i (join dir n) s with
      | (s, Ret (inl _)) => count_up_i i (relevant_i (S i) mode dir rest ret) s
      | (s, Ret (inr h)) =>
          if fh_empty h then count_up_i i (relevant_i (S i) mode dir rest ret) s
          else
            match isDataHeader_i i mode h s with
            | (s, Ret _) => count_up_i i (relevant_i (S i) mode dir rest ret) s
            | (s, Throw e) => (s, Throw e)
            | (s, Crash c) => (s, Crash c)
            | (s, OutOfFuel) => (s, OutOfFuel)
            end
      | (s, Throw e) => (s, Throw e)
      | (s, Crash c) => (s, Crash c)
      | (s, OutOfFuel) => (s, OutOfFuel)
      end
  end.
Definition getRelevantFileNames_i (mode : N) (dir : bytes) (s : st) : st * dres (list bytes) :=
  match getAllEncFileNames w dir with
  | Ret (inr names) => let '(s, r) := relevant_i 0 mode dir names [] s in (s, noexcept (lift r))
  | Ret (inl c) => (s, dfail c)
  | Throw _ => (s, Crash Terminate)
  | Crash c => (s, Crash c)
  | OutOfFuel => (s, OutOfFuel)
  end.
(** PASSWORD_VERIFIED::getDecryptedData: api.cpp 550-571; the stream is opened at 559 *)
Definition getDecryptedData_i (a : api) (s : st) : st * outcome (api * reply) :=
  let '(s, f) := look s in (s, getDecryptedData w a f).
(** FILE_SELECTED::getFileContent: api.cpp 405-414 *)
Definition getFileContent_i (a : api) (s : st) : st * outcome (api * reply) :=
  match a_file a with
  | None => (s, Crash Undefined)
  | Some h => let '(s, r) := getAllBytes_i h s in (s, noexcept (r <- try_ (any_std ERR_FILE_READ) r ;; Ret (a, reply_of RBytes r)))
  end.

(** writing at a position of an opened file: what is there is overwritten, the rest stays; a removed file stays removed *)
Definition overwrite (off : N) (x c : bytes) : bytes := takeN off c ++ repeat x00 (N.to_nat (off - lenN c)) ++ x ++ dropN (off + lenN x) c.
Definition write_at (p : bytes) (off : N) (x : bytes) : fs -> fs :=
  fun f => match at_ p f with Some c => upd f (w_loc w p) (Some (overwrite off x c)) | None => f end.
(** the stream writes the data in pieces of these sizes, then the rest *)
Fixpoint write_pieces (cuts : list N) (p : bytes) (off : N) (data : bytes) (s : st) : st :=
  match cuts with
  | [] => change (write_at p off data) s
  | k :: r => write_pieces r p (off + lenN (takeN k data)) (dropN k data) (change (write_at p off (takeN k data)) s)
  end.
(** getWriteStream: filehandler.cpp 194-215 *)
Definition getWriteStream_i (h : handler) (s : st) : handler * st * dres unit :=
  let h' := mkFH (fh_path h) 0 0 (fh_empty h) in
  match isValidPath_i (fh_path h) true s with
  | (s, Ret (inr _)) => let '(s, ok) := open_write (fh_path h) s in (h', s, if ok then dret tt else dfail ERR_FILE_NOT_OPEN)
  | (s, r) => (h', s, r)
  end.
Definition getWriteStreamIfEmpty_i (h : handler) (s : st) : handler * st * dres unit :=
  if fh_empty h then getWriteStream_i h s else (h, s, dfail ERR_FILE_NOT_EMPTY).
(** api.cpp 708-715, 727-734 *)
Definition finishWrite_i (cuts : list N) (a : api) (p : bytes) (s : st) : st * outcome (api * reply) :=
  match noexcept (fullData a) with
  | Ret t => (write_pieces cuts p 0 (takeN (w_room w) (bdata t)) s, Ret (mkApi FINISHED (a_mode a) (a_fdata a) (a_key a) None (a_dh a) (a_file a), ROk))
  | Throw e => (s, Throw e)
  | Crash c => (s, Crash c)
  | OutOfFuel => (s, OutOfFuel)
  end.
(** ENCRYPTED::writeToFile(path), writeToFile(): api.cpp 698-719, 721-737 *)
Definition writeToPath_i (cuts : list N) (a : api) (p : bytes) (s : st) : st * outcome (api * reply) :=
  match getFileHandler_i p s with
  | (s, Ret (inl c)) => (s, Ret (a, failed c))
  | (s, Ret (inr h)) =>
      match getWriteStreamIfEmpty_i h s with
      | (_, s, Ret (inr _)) => finishWrite_i cuts a p s
      | (_, s, Ret (inl c)) => (s, Ret (a, failed c))
      | (_, s, Throw _) => (s, Crash Terminate)
      | (_, s, Crash c) => (s, Crash c)
      | (_, s, OutOfFuel) => (s, OutOfFuel)
      end
  | (s, Throw _) => (s, Crash Terminate)
  | (s, Crash c) => (s, Crash c)
  | (s, OutOfFuel) => (s, OutOfFuel)
  end.
Definition writeToFile_i (cuts : list N) (a : api) (s : st) : st * outcome (api * reply) :=
  match a_file a with
  | None => (s, Crash Undefined)
  | Some h =>
      match getWriteStream_i h s with
      | (h', s, r) =>
          let a' := mkApi (a_state a) (a_mode a) (a_fdata a) (a_key a) (a_enc a) (a_dh a) (Some h') in
          match r with
          | Ret (inr _) => finishWrite_i cuts a' (fh_path h) s
          | Ret (inl c) => (s, Ret (a', failed c))
          | Throw _ => (s, Crash Terminate)
          | Crash c => (s, Crash c)
          | OutOfFuel => (s, OutOfFuel)
          end
      end
  end.

(** one call; the calls that do not use files are those of [step] *)
Definition step_i (cuts : list N) (a : api) (o : op) (s : st) : st * outcome (api * reply) :=
  match o, a_state a with
  | OList dir, INIT => let '(s, r) := getRelevantFileNames_i (a_mode a) dir s in (s, r <- r ;; Ret (a, reply_of RNames r))
  | OCreate p, INIT => let '(s, r) := createFile_i p s in (s, r <- r ;; Ret (a, reply_of (fun _ => ROk) r))
  | OSelect p, INIT => selectFile_i a p s
  | ODelete, (FILE_SELECTED | EMPTY_FILE_SELECTED) => deleteFile_i a s
  | OContent, FILE_SELECTED => getFileContent_i a s
  | ODecrypt, PASSWORD_VERIFIED => getDecryptedData_i a s
  | OWrite, ENCRYPTED => writeToFile_i cuts a s
  | OWriteTo p, ENCRYPTED => writeToPath_i cuts a p s
  | _, _ => (s, snd (step w a (snd s) o))
  end.
End Inter.
