(** All calls on a FileHandler object: src/filehandler.cpp, include/filehandler.h.  Exceptions are caught by the program, which
    goes on with the object as the call left it. *)
From Verif Require Import Base BytesModel MiscModel CipherModel PwModel ChModel HeaderModel FileModel.
Open Scope N_scope.

(** update: filehandler.cpp 92-129 with the members after an exception: file_size and empty are set first (97-98), header_size
    before the last two checks (103, 118) *)
Definition fh_check (h : handler) : handler * outcome unit :=
  (h, if fh_fsize h <? fh_hsize h then Throw LogicError
      else if (fh_hsize h <? MIN_DATAHEADER_LEN) && negb ((fh_hsize h =? 0) && (fh_fsize h =? 0)) then Throw LengthError
      else Ret tt).
Definition fh_updated (c : bytes) (h : handler) : handler * outcome unit :=
  let fsize := lenN c in
  let set hs := mkFH (fh_path h) hs fsize (fsize =? 0) in
  match readBytes 8 8 c with
  | None => if fsize =? 0 then fh_check (set 0) else (set (fh_hsize h), Throw LengthError)
  | Some (b, s) =>
      match toLong (mkBytes b 8) with
      | Ret n =>
          if negb (n =? fsize) then (set (fh_hsize h), Throw LogicError)
          else match readBytes 8 8 s with
               | None => (set (fh_hsize h), Throw LengthError)
               | Some (b', _) => match toLong (mkBytes b' 8) with Ret hs => fh_check (set hs) | r => (set (fh_hsize h), x <- r ;; Ret tt) end
               end
      | r => (set (fh_hsize h), x <- r ;; Ret tt)
      end
  end.

(** the calls; [FSave] and [FSaveIfEmpty] take the stream, write to it and close it; [FStream] and [FDataStream] read a stream to
    its end *)
Inductive fh_op :=
| FUpdate | FIsEmpty | FHeaderSize | FFileSize | FDataSize | FPath | FStream | FDataStream | FAllBytes | FFirstBytes (n : N)
| FHeader | FIsHeader (mode : N) | FSave (data : bytes) | FSaveIfEmpty (data : bytes).
Inductive fh_reply :=
| FDone | FBool (b : bool) | FNum (n : N) | FText (p : bytes) | FBytes (b : bytes) | FHead (d : dheader) | FErr (e : errcode) | FThrown (e : exn).
(** a result that may be an exception, for a program that catches it *)
Definition caught {A} (m : outcome A) (k : A -> fh_reply) : outcome fh_reply :=
  match m with Ret x => Ret (k x) | Throw e => Ret (FThrown e) | Crash c => Crash c | OutOfFuel => OutOfFuel end.
Definition told {A} (k : A -> fh_reply) (r : errcode + A) : fh_reply := match r with inl e => FErr e | inr x => k x end.
(** write and close after getWriteStream: filehandler.cpp 194-215 *)
Definition fh_save (w : world) (data : bytes) (p : path) (x : handler * fs * dres unit) : fs * outcome (handler * fh_reply) :=
  let '(h, f, r) := x in
  (match r with Ret (inr _) => write_stream w f p data | _ => f end, v <- caught r (told (fun _ => FDone)) ;; Ret (h, v)).
Definition fh_call (w : world) (h : handler) (f : fs) (o : fh_op) : fs * outcome (handler * fh_reply) :=
  match o with
  | FUpdate => let '(h', r) := fh_updated (stream_of w f (fh_path h)) h in (f, v <- caught r (fun _ => FDone) ;; Ret (h', v))
  | FIsEmpty => (f, Ret (h, FBool (fh_empty h)))
  | FHeaderSize => (f, Ret (h, FNum (fh_hsize h)))
  | FFileSize => (f, Ret (h, FNum (fh_fsize h)))
  | FDataSize => (f, Ret (h, FNum (fh_dataSize h)))
  | FPath => (f, Ret (h, FText (fh_path h)))
  | FStream => (f, Ret (h, FBytes (stream_of w f (fh_path h))))
  | FDataStream => (f, Ret (h, FBytes (fh_dataStream w f h)))
  | FAllBytes => (f, v <- caught (fh_getAllBytes w f h) (fun b => FBytes (bdata b)) ;; Ret (h, v))
  | FFirstBytes n => (f, v <- caught (fh_getFirstBytes w f n h) (fun b => FBytes (bdata b)) ;; Ret (h, v))
  | FHeader => (f, v <- caught (fh_getDataHeader w f 0 h) (told FHead) ;; Ret (h, v))
  | FIsHeader m => (f, v <- caught (fh_isDataHeader w f 0 m h) (told (fun _ => FDone)) ;; Ret (h, v))
  | FSave data => fh_save w data (fh_path h) (fh_getWriteStream w f h)
  | FSaveIfEmpty data => fh_save w data (fh_path h) (fh_getWriteStreamIfEmpty w f h)
  end.
