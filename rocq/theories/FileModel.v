(** Model of the file handler: src/filehandler.cpp, include/filehandler.h.

    The file system is a map from file identities to contents.  A path is a byte string;
    [w_loc] says which file a path names (relative and absolute spellings may name the same
    file).  Not modelled: links.  For directories, pipes
    and I/O errors while reading see [FaultModel].  Other
    processes may change files between calls; for changes during a call see [InterModel]. *)
From Coq Require Import Strings.String.
From Verif Require Import Base BytesModel MiscModel CipherModel PwModel ChModel HeaderModel.

Notation path := bytes (only parsing).
Definition fs : Type := N -> option bytes.
Definition upd (f : fs) (l : N) (v : option bytes) : fs := fun k => if k =? l then v else f k.

(** what a directory iterator delivers: the entries with "is a regular file", or an exception *)
Inductive listing := Missing | Unlistable | Entries (l : list (bytes * bool)).

(** everything a call meets besides its arguments: operating system, random numbers, clock *)
Record world := mkWorld {
  w_loc : path -> N;              (* the file a path names *)
  w_stat : path -> bool;          (* false: std::filesystem::exists throws (e.g. name too long) *)
  w_read : path -> bool;          (* an existing file can be opened for reading *)
  w_write : path -> bool;         (* an existing file can be opened for writing *)
  w_create : path -> bool;        (* a new file can be created *)
  w_remove : path -> bool;        (* false: std::filesystem::remove throws *)
  w_dir : path -> listing;        (* directory contents *)
  w_room : N;                     (* how many of the bytes written to a stream reach the file *)
  w_rnd : nat -> N -> bytes;      (* [w_rnd i n]: n bytes from the i-th use of the generator *)
  w_elapsed : N;                  (* the API's own timer after the first chain hash, in ms *)
  w_clk1 : nat -> N; w_clk2 : nat -> N;   (* the timers inside the two chain hashes *)
  w_hashes : hashes;              (* the digest functions *)
  w_build : build;
  w_fuel : nat }.                 (* rounds given to a loop before the call counts as not returning *)

(** std::filesystem::path::extension for POSIX paths: the file name is what follows the last
    slash; "." and ".." have no extension; otherwise from the last dot on, unless that is the
    first character *)
Fixpoint after_last (c : byte) (acc : option bytes) (s : bytes) : option bytes :=
  match s with
  | [] => acc
  | x :: r => after_last c (if Byte.eqb x c then Some r else acc) r
  end.
Definition slash : byte := x2f.
Definition dot : byte := x2e.
Definition filename (p : path) : bytes :=
  match after_last slash None p with Some r => r | None => p end.
Definition extension (p : path) : bytes :=
  let fn := filename p in
  if eqb_bytes fn [dot] || eqb_bytes fn [dot; dot] then []
  else match after_last dot None fn with
       | None => []
       | Some e => if lenN e + 1 =? lenN fn then [] else dot :: e
       end.
(** operator/ of a directory and the name of an entry *)
Definition join (dir name : path) : path :=
  if lenN (filename dir) =? 0 then dir ++ name else dir ++ [slash] ++ name.
(** filehandler.cpp 12 *)
Definition enc_extension : bytes := str ".enc".

Definition exists_ (w : world) (f : fs) (p : path) : outcome bool :=
  if w_stat w p then Ret (match f (w_loc w p) with Some _ => true | None => false end) else Throw OtherExn.

(** isValidPath: filehandler.cpp 14-56 (noexcept) *)
Definition isValidPath (w : world) (f : fs) (p : path) (should_exist : bool) : dres unit :=
  noexcept (
    if lenN p =? 0 then dfail ERR_EMPTY_FILEPATH
    else if negb (eqb_bytes (extension p) enc_extension) then dfail ERR_EXTENSION_INVALID
    else
      ex <- exists_ w f p ;;
      if should_exist then
        if negb ex then dfail ERR_FILE_NOT_FOUND
        else if negb (w_read w p) then dfail ERR_FILE_NOT_OPEN
        else dret tt
      else if (ex : bool) then dfail ERR_FILE_EXISTS
      else dret tt).
(** createFile: filehandler.cpp 58-81 (noexcept); returns the file system *)
Definition fh_createFile (w : world) (f : fs) (p : path) : fs * dres unit :=
  match isValidPath w f p false with
  | Ret (inr _) => if w_create w p then (upd f (w_loc w p) (Some []), dret tt) else (f, dfail ERR_FILE_NOT_CREATED)
  | r => (f, r)
  end.

Record handler := mkFH { fh_path : path; fh_hsize : N; fh_fsize : N; fh_empty : bool }.
Definition MIN_DATAHEADER_LEN : N := 104.                        (* settings.h *)
(** the bytes a stream opened for reading delivers; a stream that is not open delivers none *)
Definition stream_of (w : world) (f : fs) (p : path) : bytes :=
  match f (w_loc w p) with Some c => if w_read w p then c else [] | None => [] end.
(** update: filehandler.cpp 92-129 on a stream that delivers [c] *)
Definition fh_update (p : path) (c : bytes) : outcome handler :=
  let fsize := lenN c in
  hsize <- match readBytes 8 8 c with
           | None => if fsize =? 0 then Ret 0 else Throw LengthError
           | Some (b, s) =>
               n <- toLong (mkBytes b 8) ;;
               if negb (n =? fsize) then Throw LogicError
               else match readBytes 8 8 s with
                    | None => Throw LengthError
                    | Some (b', _) => toLong (mkBytes b' 8)
                    end
           end ;;
  if fsize <? hsize then Throw LogicError
  else if (hsize <? MIN_DATAHEADER_LEN) && negb ((hsize =? 0) && (fsize =? 0)) then Throw LengthError
  else Ret (mkFH p hsize fsize (fsize =? 0)).
(** constructor: filehandler.cpp 83-90 *)
Definition newFileHandler (w : world) (f : fs) (p : path) : outcome handler :=
  v <- isValidPath w f p true ;;
  match v with
  | inl _ => Throw RuntimeError
  | inr _ => fh_update p (stream_of w f p)
  end.
(** getDataHeader: filehandler.cpp 148-154 (noexcept); [i] numbers the use of the random generator *)
Definition fh_getDataHeader (w : world) (f : fs) (i : nat) (h : handler) : dres dheader :=
  noexcept ('(d, _) <~ decode_stream (w_build w) (w_rnd w i) (stream_of w f (fh_path h)) ;; dret d).
(** isDataHeader: filehandler.cpp 131-144 (noexcept) *)
Definition fh_isDataHeader (w : world) (f : fs) (i : nat) (mode : N) (h : handler) : dres unit :=
  noexcept (
    d <~ fh_getDataHeader w f i h ;;
    m <~ lift (p <- getDataHeaderParts d ;; p_getFileDataMode p) ;;
    if m =? mode then dret tt else dfail ERR_FILEMODE_INVALID).
(** getDataStream: filehandler.cpp 161-166: the stream after seeking *)
Definition fh_dataStream (w : world) (f : fs) (h : handler) : bytes := dropN (fh_hsize h) (stream_of w f (fh_path h)).
(** getDataSize: filehandler.cpp 172 *)
Definition fh_dataSize (h : handler) : N := sub64 (fh_fsize h) (fh_hsize h).
(** getWriteStream: filehandler.cpp 194-215 (noexcept): the handler and the file system afterwards; opening truncates *)
Definition fh_getWriteStream (w : world) (f : fs) (h : handler) : handler * fs * dres unit :=
  let h' := mkFH (fh_path h) 0 0 (fh_empty h) in
  match isValidPath w f (fh_path h) true with
  | Ret (inr _) =>
      if w_write w (fh_path h) then (h', upd f (w_loc w (fh_path h)) (Some []), dret tt)
      else (h', f, dfail ERR_FILE_NOT_OPEN)
  | r => (h', f, r)
  end.
(** getWriteStreamIfEmpty: filehandler.cpp 217-226 *)
Definition fh_getWriteStreamIfEmpty (w : world) (f : fs) (h : handler) : handler * fs * dres unit :=
  if fh_empty h then fh_getWriteStream w f h else (h, f, dfail ERR_FILE_NOT_EMPTY).
(** writing to a stream opened by getWriteStream and closing it; a short write goes unnoticed *)
Definition write_stream (w : world) (f : fs) (p : path) (data : bytes) : fs :=
  upd f (w_loc w p) (Some (takeN (w_room w) data)).
(** getAllBytes: filehandler.cpp 246-267; the size is converted to unsigned int *)
Definition fh_getAllBytes (w : world) (f : fs) (h : handler) : outcome Bytes :=
  match f (w_loc w (fh_path h)) with
  | Some c =>
      if w_read w (fh_path h) then
        match readBytes (lenN c) (Z.of_N (lenN c)) c with
        | Some (b, _) => Ret (mkBytes b (lenN c))
        | None => Throw LengthError
        end
      else Throw RuntimeError
  | None => Throw RuntimeError
  end.
(** getFirstBytes: filehandler.cpp 269-283 *)
Definition fh_getFirstBytes (w : world) (f : fs) (num : N) (h : handler) : outcome Bytes :=
  match f (w_loc w (fh_path h)) with
  | Some c =>
      if w_read w (fh_path h) then
        match readBytes num (Z.of_N num) c with
        | Some (b, _) => Ret (mkBytes b num)
        | None => Throw LengthError
        end
      else Throw RuntimeError
  | None => Throw RuntimeError
  end.
