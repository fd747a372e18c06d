(** The functions whose results depend on the order in which the machine keeps the bytes of a
    number: Bytes::fromLong and Bytes::toLong go through memcpy (bytes.cpp 12, 365).  The other
    Model files fix the order that x86 and ARM machines have; here it is a parameter.
    /repo/src/bytes.cpp, /repo/src/dataheader.cpp, /repo/src/filehandler.cpp,
    /repo/src/chainhash_modes.cpp, /repo/src/rng.cpp, /repo/include/dataheader.h. *)
From Coq Require Import Strings.String.
From Verif Require Import Base BytesModel PwModel ChModel CipherModel HeaderModel FileModel MiscModel.
Open Scope N_scope.
Open Scope list_scope.

Inductive order := Little | Big.
(** the eight bytes of a u_int64_t in memory, lowest address first *)
Definition mem8 (o : order) (v : N) : bytes :=
  match o with Little => rev (be8 v) | Big => be8 v end.
(** the number whose eight bytes in memory are [m] *)
Definition val8 (o : order) (m : bytes) : N :=
  match o with Little => le_val m | Big => le_val (rev m) end.

(** fromLong: bytes.cpp 8-21; the copy of the number is gone through backwards *)
Definition fromLong_on (o : order) (l : N) (addzeros : bool) : outcome Bytes :=
  res <- newBytes 8 ;; fromLong_loop addzeros (rev (mem8 o l)) res.
(** toLong: bytes.cpp 354-367; only the first [len] bytes of a number that was 0 are overwritten *)
Definition toLong_on (o : order) (b : Bytes) : outcome N :=
  if 8 <? getLen b then Throw LengthError
  else Ret (val8 o (rev (bdata b) ++ repeat x00 (8 - length (bdata b)))).

Section On.
Variable o : order.

(** ** chain hashes: chainhash_modes.cpp 61-93 and 95-127 *)
Definition partNum_on (c : chainhash) (name : string) : outcome N := b <- partOf c name ;; toLong_on o b.
Definition performChainHash_b_on (h : hashfn) (clk : nat -> N) (c : chainhash) (data : Bytes) (timeout : N) : outcome chres :=
  mode <- ch_getMode c ;;
  match mode with
  | 1 => it <- ch_getIters c ;; chainhash_b h clk data it timeout
  | 2 => s <- partOf c "S" ;; it <- ch_getIters c ;;
         chainhashWithConstantSalt_b h clk data it (bytesToString s) timeout
  | 3 => n <- partNum_on c "SN" ;; it <- ch_getIters c ;;
         chainhashWithCountSalt_b h clk data it n timeout
  | 4 => n <- partNum_on c "SN" ;; s <- partOf c "S" ;; it <- ch_getIters c ;;
         chainhashWithCountAndConstantSalt_b h clk data it n (bytesToString s) timeout
  | 5 => n <- partNum_on c "SN" ;; x <- partNum_on c "A" ;; y <- partNum_on c "B" ;; z <- partNum_on c "C" ;; it <- ch_getIters c ;;
         chainhashWithQuadraticCountSalt_b h clk data it n x y z timeout
  | _ => Throw InvalidArgument
  end.
Definition performChainHash_s_on (h : hashfn) (clk : nat -> N) (c : chainhash) (data : bytes) (timeout : N) : outcome chres :=
  mode <- ch_getMode c ;;
  match mode with
  | 1 => it <- ch_getIters c ;; chainhash_s h clk data it timeout
  | 2 => s <- partOf c "S" ;; it <- ch_getIters c ;;
         chainhashWithConstantSalt_s h clk data it (bytesToString s) timeout
  | 3 => n <- partNum_on c "SN" ;; it <- ch_getIters c ;;
         chainhashWithCountSalt_s h clk data it n timeout
  | 4 => n <- partNum_on c "SN" ;; s <- partOf c "S" ;; it <- ch_getIters c ;;
         chainhashWithCountAndConstantSalt_s h clk data it n (bytesToString s) timeout
  | 5 => n <- partNum_on c "SN" ;; x <- partNum_on c "A" ;; y <- partNum_on c "B" ;; z <- partNum_on c "C" ;; it <- ch_getIters c ;;
         chainhashWithQuadraticCountSalt_s h clk data it n x y z timeout
  | _ => Throw InvalidArgument
  end.

(** ** encrypted blocks: dataheader.h 61-80, 87-102, 109-113 *)
Definition keyByte_on (i : N) (pwhash : Bytes) : outcome N :=
  b <- copySubBytes i (i + 1) pwhash ;; toLong_on o b.
Definition newEncDataBlock_on (fuel : nat) (rnd : N -> bytes) (h : hashfn) (db : datablock) (pwhash enc_salt : Bytes) : outcome encblock :=
  pwh <- do_hash h (bdata pwhash) 0 ;;
  k0 <- keyByte_on 0 pwh ;;
  k1 <- keyByte_on 1 pwh ;;
  let enc_len := w8 (getLen (db_data db) + k1) in
  enc <- enc_loop fuel h (db_data db) pwh enc_salt 0 (mkBytes [] 255) ;;
  enc' <- fillrandom rnd (addSize (255 - getLen enc) enc) ;;
  db' <- db_setData enc' db ;;
  Ret (mkEB db' enc_len).
(** [w8 k1]: the difference of the int and the u_int64_t is taken mod 2^64 and cut to a byte *)
Definition getDec_on (fuel : nat) (h : hashfn) (pwhash enc_salt : Bytes) (e : encblock) : outcome Bytes :=
  noexcept (
    pwh <- do_hash h (bdata pwhash) 0 ;;
    k1 <- keyByte_on 1 pwh ;;
    let len := w8 (eb_len e + 256 - w8 k1) in
    dec_loop fuel h (db_data (eb_block e)) pwh enc_salt len 0 (mkBytes [] len)).
Definition getDecType_on (h : hashfn) (pwhash : Bytes) (e : encblock) : outcome N :=
  noexcept (
    pwh <- do_hash h (bdata pwhash) 0 ;;
    k0 <- keyByte_on 0 pwh ;;
    Ret (w8 (db_type (eb_block e) + 256 - w8 k0))).

(** ** writing a header: dataheader.cpp 166-242 *)
Definition addLong_on (n : N) (t : Bytes) : outcome Bytes := b <- fromLong_on o n true ;; addcopyToBytes b t.
Definition addChainHash_on (c : chainhash) (t : Bytes) : outcome Bytes :=
  m <- ch_getMode c ;; t <- addChar m t ;;
  it <- ch_getIters c ;; t <- addLong_on it t ;;
  p <- ch_getData c ;; x <- deref p ;; t <- addChar (cd_len x) t ;;
  b <- getDataBlock x ;; addcopyToBytes b t.
Definition calcBody_on (fsize len : N) (p : dhparts) : outcome Bytes :=
  let t := mkBytes [] len in
  t <- addLong_on fsize t ;; t <- addLong_on len t ;;
  fm <- p_getFileDataMode p ;; t <- addChar fm t ;;
  hm <- p_getHashMode p ;; t <- addChar hm t ;;
  t <- addChar (lenN (p_dec p)) t ;; t <- addBlocks (p_dec p) t ;;
  t <- addChainHash_on (p_ch1 p) t ;; t <- addChainHash_on (p_ch2 p) t ;;
  v <- p_getValid p ;; t <- addcopyToBytes v t ;;
  s <- p_getSalt p ;; t <- addcopyToBytes s t ;;
  t <- addChar (lenN (p_enc p)) t ;; addEncBlocks (p_enc p) t.
Definition checkPwHash_on (H : hashes) (clk : nat -> N) (pwhash : Bytes) (p : dhparts) : outcome unit :=
  if isEmpty pwhash then Ret tt
  else
    hm <- p_getHashMode p ;; h <- getHash H hm ;;
    v <- p_getValid p ;;
    r <- performChainHash_b_on h clk (p_ch2 p) pwhash 0 ;;
    match r with
    | Done b => if eqBytes v b then Ret tt else Throw InvalidArgument
    | TimedOut => Throw LogicError
    end.
Definition calcHeaderBytes_on (H : hashes) (clk : nat -> N) (pwhash : Bytes) (d : dheader) : dheader * outcome unit :=
  let early :=
    if negb (d_isComplete d) then Throw LogicError
    else match d_fsize d with
    | None => Throw LogicError
    | Some n =>
        l <- getHeaderLength d ;;
        if n <? l then Throw InvalidArgument
        else _ <- checkPwHash_on H clk pwhash (d_parts d) ;; Ret n
    end in
  match early with
  | Ret n =>
      let d' := mkDH (d_parts d) (d_hsize d) (clearBytes (d_bytes d)) (d_fsize d) (d_blen d) in
      match getHeaderLength d' with
      | Ret len =>
          match calcBody_on n len (d_parts d) with
          | Ret t =>
              if negb (getLen t =? len) then (d', Throw LogicError)
              else (mkDH (d_parts d) (d_hsize d) (copyBytes t) (d_fsize d) (d_blen d), Ret tt)
          | Throw LengthError => (d', Throw LogicError)
          | Throw e => (d', Throw e)
          | Crash c => (d', Crash c)
          | OutOfFuel => (d', OutOfFuel)
          end
      | Throw e => (d', Throw e)
      | Crash c => (d', Crash c)
      | OutOfFuel => (d', OutOfFuel)
      end
  | Throw e => (d, Throw e)
  | Crash c => (d, Crash c)
  | OutOfFuel => (d, OutOfFuel)
  end.
(** calcHeaderBytes() on a fresh object *)
Definition calc_plain_on (d : dheader) : outcome dheader :=
  let '(d', r) := calcHeaderBytes_on (mkHashes (fun x => x) (fun x => x) (fun x => x)) (fun _ => 0) (mkBytes [] 0) d in
  _ <- r ;; Ret d'.

(** ** reading a header from a file: dataheader.cpp 624-1144 *)
Definition read8_on (s : bytes) : dres (N * bytes) :=
  '(b, s) <~ need ERR_NOT_ENOUGH_DATA (readBytes 8 8 s) ;;
  n <~ lift (toLong_on o (mkBytes b 8)) ;; dret (n, s).
Definition s_chain_on (bd : build) (code : errcode) (set : chainhash -> dheader -> outcome dheader)
    (d : dheader) (s : bytes) : dres (dheader * bytes) :=
  '(mode, s) <~ need ERR_NOT_ENOUGH_DATA (read1 s) ;;
  f <~ try_ (invalid_or ERR_CHAINHASHMODE_FORMAT_INVALID ERR) (newFormat mode) ;;
  '(iters, s) <~ read8_on s ;;
  '(lb, s) <~ need ERR_NOT_ENOUGH_DATA (read1 s) ;;
  '(data_len, c, s) <~ s_parts bd (nameLens f) lb 0 (newChd f) s ;;
  _ <~ dassert bd (cd_len c =? lb) ;;
  _ <~ dassert bd (data_len =? lb) ;;
  d <~ try_ (invalid_or code ERR) (ch <- newChainHash mode iters (Some c) ;; set ch d) ;;
  dret (d, s).
Definition decode_stream_on (bd : build) (rnd : N -> bytes) (file : bytes) : dres (dheader * bytes) :=
  noexcept (
    '(file_size, s) <~ read8_on file ;;
    '(header_size, s) <~ read8_on s ;;
    if negb (lenN file =? file_size) then dfail ERR_FILESIZE_INVALID
    else if file_size <? header_size then dfail ERR_HEADERSIZE_FILESIZE_MISMATCH
    else
      '(fmode, s) <~ need ERR_NOT_ENOUGH_DATA (read1 s) ;;
      '(hmode, s) <~ need ERR_NOT_ENOUGH_DATA (read1 s) ;;
      d <~ try_ (only_invalid ERR_HASHMODE_INVALID) (newDataHeader rnd hmode) ;;
      d <~ try_ (only_invalid ERR_FILEMODE_INVALID) (d_setFileDataMode fmode d) ;;
      '(count, s) <~ need ERR_NOT_ENOUGH_DATA (read1 s) ;;
      '(d, s) <~ s_blocks (N.to_nat count) d s ;;
      '(d, s) <~ s_chain_on bd ERR_CHAINHASH1_INVALID setChainHash1 d s ;;
      '(d, s) <~ s_chain_on bd ERR_CHAINHASH2_INVALID setChainHash2 d s ;;
      '(v, s) <~ need ERR_NOT_ENOUGH_DATA (readBytes (d_hsize d) (Z.of_N (d_hsize d)) s) ;;
      d <~ try_ (any_std ERR) (setValidPasswordHashBytes (mkBytes v (d_hsize d)) d) ;;
      '(sa, s) <~ need ERR_NOT_ENOUGH_DATA (readBytes (d_hsize d) (Z.of_N (d_hsize d)) s) ;;
      d <~ try_ (any_std ERR) (d_setEncSalt (mkBytes sa (d_hsize d)) d) ;;
      d <~ try_ (only_invalid ERR_FILESIZE_INVALID) (setFileSize file_size d) ;;
      '(count, s) <~ need ERR_NOT_ENOUGH_DATA (read1 s) ;;
      '(d, s) <~ s_encs (N.to_nat count) d s ;;
      d <~ try_ (any_std ERR) (calc_plain_on d) ;;
      l <~ lift (getHeaderLength d) ;;
      _ <~ dassert bd (lenN file - lenN s =? l) ;;
      _ <~ dassert bd (l =? header_size) ;;
      dret (d, s)).

(** ** FileHandler::update on a stream that delivers [c]: filehandler.cpp 92-129 *)
Definition fh_update_on (p : path) (c : bytes) : outcome handler :=
  let fsize := lenN c in
  hsize <- match readBytes 8 8 c with
           | None => if fsize =? 0 then Ret 0 else Throw LengthError
           | Some (b, s) =>
               n <- toLong_on o (mkBytes b 8) ;;
               if negb (n =? fsize) then Throw LogicError
               else match readBytes 8 8 s with
                    | None => Throw LengthError
                    | Some (b', _) => toLong_on o (mkBytes b' 8)
                    end
           end ;;
  if fsize <? hsize then Throw LogicError
  else if (hsize <? MIN_DATAHEADER_LEN) && negb ((hsize =? 0) && (fsize =? 0)) then Throw LengthError
  else Ret (mkFH p hsize fsize (fsize =? 0)).

(** ** RNG::get_random_byte: rng.cpp 61-89 *)
Definition get_random_byte_on (rnd : N -> option bytes) (lower upper : byte) (buffer_size : N) : outcome byte :=
  if (buffer_size <? 1) || (8 <? buffer_size) then Throw LogicError
  else if b2n upper <=? b2n lower then
    if b2n upper =? b2n lower then Ret upper else Throw LogicError
  else
    match rnd buffer_size with
    | None => Throw RuntimeError
    | Some bs => v <- toLong_on o (mkBytes bs buffer_size) ;; Ret (n2b (v mod (b2n upper - b2n lower) + b2n lower))
    end.
End On.
