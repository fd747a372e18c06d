(** Conversions of integers to enumerations.  include/base.h 10-40 declares FModes, HModes, CHModes and DatablockType without
    an underlying type.  C++17 (expr.static.cast): converting an integer outside of the values of such an enumeration, which
    are 0 to 2^M - 1 for the least M that holds every enumerator, is undefined.  [HeaderModel] keeps the number, as gcc does.
    Here the same functions are written once more with the conversions checked. *)
From Coq Require Import ZArith.
From Verif Require Import Base BytesModel MiscModel CipherModel PwModel ChModel HeaderModel.
Open Scope N_scope.

(** the number of values of an enumeration whose greatest enumerator is [m]: 2^M *)
Definition values (m : N) : N := 2 ^ N.size m.
(** greatest enumerators: base.h 26-28, 19-23, 10-16, 34-40 *)
Definition FM_MAX : N := 1.
Definition HM_MAX : N := 3.
Definition CH_MAX : N := 5.
Definition DB_MAX : N := 4.
(** [E(v)] for an enumeration E with greatest enumerator [m] *)
Definition cast (m v : N) : outcome N := if v <? values m then Ret v else Crash Undefined.

(** dataheader.cpp 313, 695; 325, 707 *)
Definition newDataHeader_e (rnd : N -> bytes) (mode : N) : outcome dheader := m <- cast HM_MAX mode ;; newDataHeader rnd m.
Definition setFileDataMode_e (mode : N) (d : dheader) : outcome dheader := m <- cast FM_MAX mode ;; d_setFileDataMode m d.
(** dataheader.cpp 349, 756; dataheader.h 56; dataheader.cpp 358, 458, 772, 911 *)
Definition newDataBlock_e (type : N) (data : Bytes) : outcome datablock := t <- cast DB_MAX type ;; newDataBlock t data.
Definition createEncBlock_e (enc_type : N) (enc_data : Bytes) (enc_len : N) : outcome encblock :=
  if negb (getLen enc_data =? 255) then Throw InvalidArgument
  else t <- cast DB_MAX enc_type ;; db <- db_setData enc_data (mkDB t (mkBytes [] 0)) ;; Ret (mkEB db enc_len).
Definition newFormat_e (mode : N) : outcome N := m <- cast CH_MAX mode ;; newFormat m.

(** EncDataBlock::EncDataBlock, getDecType: dataheader.h 61-80, 109-113 *)
Definition newEncDataBlock_e (fuel : nat) (rnd : N -> bytes) (h : hashfn) (db : datablock) (pwhash enc_salt : Bytes) : outcome encblock :=
  pwh <- do_hash h (bdata pwhash) 0 ;;
  k0 <- keyByte 0 pwh ;;
  _ <- cast DB_MAX (w8 (db_type db + k0)) ;;
  k1 <- keyByte 1 pwh ;;
  let enc_len := w8 (getLen (db_data db) + k1) in
  enc <- enc_loop fuel h (db_data db) pwh enc_salt 0 (mkBytes [] 255) ;;
  enc' <- fillrandom rnd (addSize (255 - getLen enc) enc) ;;
  db' <- db_setData enc' db ;;
  Ret (mkEB db' enc_len).
Definition getDecType_e (h : hashfn) (pwhash : Bytes) (e : encblock) : outcome N :=
  noexcept (
    pwh <- do_hash h (bdata pwhash) 0 ;;
    k0 <- keyByte 0 pwh ;;
    cast DB_MAX (w8 (db_type (eb_block e) + 256 - k0))).

(** the stream decoder: dataheader.cpp 624-1144 *)
Fixpoint s_blocks_e (n : nat) (d : dheader) (s : bytes) : dres (dheader * bytes) :=
  match n with
  | O => dret (d, s)
  | S n' =>
      '(ty, s) <~ need ERR_NOT_ENOUGH_DATA (read1 s) ;;
      '(len, s) <~ need ERR_NOT_ENOUGH_DATA (read1 s) ;;
      '(data, s) <~ need ERR_NOT_ENOUGH_DATA (readBytes len (Z.of_N len) s) ;;
      d <~ lift (b <- newDataBlock_e ty (mkBytes data len) ;; addDataBlock b d) ;;
      s_blocks_e n' d s
  end.
Definition s_chain_e (bd : build) (code : errcode) (set : chainhash -> dheader -> outcome dheader)
    (d : dheader) (s : bytes) : dres (dheader * bytes) :=
  '(mode, s) <~ need ERR_NOT_ENOUGH_DATA (read1 s) ;;
  f <~ try_ (invalid_or ERR_CHAINHASHMODE_FORMAT_INVALID ERR) (newFormat_e mode) ;;
  '(iters, s) <~ read8 s ;;
  '(lb, s) <~ need ERR_NOT_ENOUGH_DATA (read1 s) ;;
  '(data_len, c, s) <~ s_parts bd (nameLens f) lb 0 (newChd f) s ;;
  _ <~ dassert bd (cd_len c =? lb) ;;
  _ <~ dassert bd (data_len =? lb) ;;
  d <~ try_ (invalid_or code ERR) (m <- cast CH_MAX mode ;; ch <- newChainHash m iters (Some c) ;; set ch d) ;;
  dret (d, s).
Fixpoint s_encs_e (n : nat) (d : dheader) (s : bytes) : dres (dheader * bytes) :=
  match n with
  | O => dret (d, s)
  | S n' =>
      '(ty, s) <~ need ERR_NOT_ENOUGH_DATA (read1 s) ;;
      '(len, s) <~ need ERR_NOT_ENOUGH_DATA (read1 s) ;;
      '(data, s) <~ need ERR_NOT_ENOUGH_DATA (readBytes 255 255 s) ;;
      d <~ lift (b <- createEncBlock_e ty (mkBytes data 255) len ;; addEncDataBlock b d) ;;
      s_encs_e n' d s
  end.
Definition decode_stream_e (bd : build) (rnd : N -> bytes) (file : bytes) : dres (dheader * bytes) :=
  noexcept (
    '(file_size, s) <~ read8 file ;;
    '(header_size, s) <~ read8 s ;;
    if negb (lenN file =? file_size) then dfail ERR_FILESIZE_INVALID
    else if file_size <? header_size then dfail ERR_HEADERSIZE_FILESIZE_MISMATCH
    else
      '(fmode, s) <~ need ERR_NOT_ENOUGH_DATA (read1 s) ;;
      '(hmode, s) <~ need ERR_NOT_ENOUGH_DATA (read1 s) ;;
      d <~ try_ (only_invalid ERR_HASHMODE_INVALID) (newDataHeader_e rnd hmode) ;;
      d <~ try_ (only_invalid ERR_FILEMODE_INVALID) (setFileDataMode_e fmode d) ;;
      '(count, s) <~ need ERR_NOT_ENOUGH_DATA (read1 s) ;;
      '(d, s) <~ s_blocks_e (N.to_nat count) d s ;;
      '(d, s) <~ s_chain_e bd ERR_CHAINHASH1_INVALID setChainHash1 d s ;;
      '(d, s) <~ s_chain_e bd ERR_CHAINHASH2_INVALID setChainHash2 d s ;;
      '(v, s) <~ need ERR_NOT_ENOUGH_DATA (readBytes (d_hsize d) (Z.of_N (d_hsize d)) s) ;;
      d <~ try_ (any_std ERR) (setValidPasswordHashBytes (mkBytes v (d_hsize d)) d) ;;
      '(sa, s) <~ need ERR_NOT_ENOUGH_DATA (readBytes (d_hsize d) (Z.of_N (d_hsize d)) s) ;;
      d <~ try_ (any_std ERR) (d_setEncSalt (mkBytes sa (d_hsize d)) d) ;;
      d <~ try_ (only_invalid ERR_FILESIZE_INVALID) (setFileSize file_size d) ;;
      '(count, s) <~ need ERR_NOT_ENOUGH_DATA (read1 s) ;;
      '(d, s) <~ s_encs_e (N.to_nat count) d s ;;
      d <~ try_ (any_std ERR) (calc_plain d) ;;
      l <~ lift (getHeaderLength d) ;;
      _ <~ dassert bd (lenN file - lenN s =? l) ;;
      _ <~ dassert bd (l =? header_size) ;;
      dret (d, s)).

(** the in-memory decoder: dataheader.cpp 254-622 *)
Fixpoint m_blocks_e (n : nat) (f : Bytes) (d : dheader) (ix : N) : dres (dheader * N) :=
  match n with
  | O => dret (d, ix)
  | S n' =>
      ty <~ lift (at1 f ix) ;; let ix := w16 (ix + 1) in
      len <~ lift (at1 f ix) ;; let ix := w16 (ix + 1) in
      data <~ lift (copySubBytes ix (ix + len) f) ;; let ix := w16 (ix + len) in
      d <~ lift (b <- newDataBlock_e ty data ;; addDataBlock b d) ;;
      m_blocks_e n' f d ix
  end.
Definition m_chain_e (bd : build) (code : errcode) (set : chainhash -> dheader -> outcome dheader)
    (f : Bytes) (d : dheader) (ix : N) : dres (dheader * N) :=
  mode <~ try_ (invalid_or ERR_CHAINHASHMODE_FORMAT_INVALID ERR) (m <- at1 f ix ;; newFormat_e m) ;;
  let ix := w16 (ix + 1) in
  iters <~ lift (at8 f ix) ;; let ix := w16 (ix + 8) in
  lb <~ lift (at1 f ix) ;; let ix := w16 (ix + 1) in
  '(data_len, c, ix) <~ m_parts bd (nameLens mode) f lb 0 (newChd mode) ix ;;
  _ <~ dassert bd (cd_len c =? lb) ;;
  _ <~ dassert bd (data_len =? lb) ;;
  d <~ try_ (invalid_or code ERR) (m <- cast CH_MAX mode ;; ch <- newChainHash m iters (Some c) ;; set ch d) ;;
  dret (d, ix).
Fixpoint m_encs_e (n : nat) (f : Bytes) (d : dheader) (ix : N) : dres (dheader * N) :=
  match n with
  | O => dret (d, ix)
  | S n' =>
      ty <~ lift (at1 f ix) ;; let ix := w16 (ix + 1) in
      len <~ lift (at1 f ix) ;; let ix := w16 (ix + 1) in
      data <~ lift (copySubBytes ix (ix + 255) f) ;; let ix := w16 (ix + 255) in
      d <~ lift (b <- createEncBlock_e ty data len ;; addEncDataBlock b d) ;;
      m_encs_e n' f d ix
  end.
Definition decode_mem_body_e (bd : build) (rnd : N -> bytes) (f : Bytes) : dres dheader :=
  file_size <~ try_ (only_length ERR_NOT_ENOUGH_DATA) (at8 f 0) ;;
  header_size <~ try_ (only_length ERR_NOT_ENOUGH_DATA) (at8 f 8) ;;
  if getLen f <? header_size then dfail ERR_NOT_ENOUGH_DATA
  else
    fmode <~ lift (at1 f 16) ;;
    hmode <~ lift (at1 f 17) ;;
    d <~ try_ (only_invalid ERR_HASHMODE_INVALID) (newDataHeader_e rnd hmode) ;;
    d <~ try_ (only_invalid ERR_FILEMODE_INVALID) (setFileDataMode_e fmode d) ;;
    count <~ lift (at1 f 18) ;;
    '(d, ix) <~ m_blocks_e (N.to_nat count) f d 19 ;;
    '(d, ix) <~ m_chain_e bd ERR_CHAINHASH1_INVALID setChainHash1 f d ix ;;
    '(d, ix) <~ m_chain_e bd ERR_CHAINHASH2_INVALID setChainHash2 f d ix ;;
    d <~ try_ (any_std ERR) (v <- copySubBytes ix (ix + d_hsize d) f ;; setValidPasswordHashBytes v d) ;;
    let ix := w16 (ix + d_hsize d) in
    d <~ try_ (any_std ERR) (sa <- copySubBytes ix (ix + d_hsize d) f ;; d_setEncSalt sa d) ;;
    let ix := w16 (ix + d_hsize d) in
    count <~ lift (at1 f ix) ;; let ix := w16 (ix + 1) in
    '(d, ix) <~ m_encs_e (N.to_nat count) f d ix ;;
    d <~ try_ (only_invalid ERR_FILESIZE_INVALID) (setFileSize file_size d) ;;
    d <~ try_ (any_std ERR) (calc_plain d) ;;
    l <~ lift (getHeaderLength d) ;;
    _ <~ dassert bd (ix =? header_size) ;;
    _ <~ dassert bd (l =? header_size) ;;
    dret d.
Definition decode_mem_e (bd : build) (rnd : N -> bytes) (f : Bytes) : dres dheader :=
  noexcept (match decode_mem_body_e bd rnd f with
            | Throw PointerThrown => Throw PointerThrown
            | Throw _ => dfail ERR
            | o => o
            end).
