(** What a call of the API object writes to the log (plog, include/logger.h).

    A line is recorded with its severity, the source file and line number of the statement, and the values that the
    statement inserts, in order; the constant words between them are determined by the statement and left out.
    Not recorded: time stamps and thread numbers that plog adds, and the texts of exceptions and of constant
    errorInfo strings ([e.what()] is the kind of the exception; all texts are constants except the path in the
    exception of the FileHandler constructor and lengths in those of Bytes).

    A function that may throw in a lower layer is wrapped in [trouble]: one line of severity fatal from [Lower]
    stands for the one or two lines (error or fatal, inserting nothing but lengths, sizes and modes) that
    bytes.cpp, rng.cpp, utility.cpp, block*.cpp, blockchain*.{h,cpp}, chainhash_data.cpp, and the getters and
    setters of dataheader.h and chainhash_modes.h write before they throw.  The warnings of
    BlockChain::addBlock about a block that is not full and of Block::addData about a second hash cannot occur
    in one addData on a new chain and are left out. *)
From Coq Require Import Strings.String.
From Verif Require Import Base BytesModel MiscModel CipherModel PwModel ChModel HeaderModel FileModel ApiModel.
Open Scope N_scope.
Open Scope list_scope.

(** plog::Severity; the higher, the worse *)
Inductive severity := SVerbose | SDebug | SInfo | SWarning | SError | SFatal.
Definition rank (s : severity) : N :=
  match s with SVerbose => 0 | SDebug => 1 | SInfo => 2 | SWarning => 3 | SError => 4 | SFatal => 5 end.
Inductive source :=
| Api_h | Api_cpp | Dataheader_h | Dataheader_cpp | Chainhash_modes_h | Chainhash_modes_cpp | Format_cpp
| Hash_modes_cpp | Filehandler_cpp | Blockchain_cpp | Blockchain_encrypt_h | Blockchain_decrypt_h | File_data_h
| Error_h | Pwfunc_cpp | Utility_cpp | Lower.
Inductive field :=
| Num (n : N) | Hex (b : bytes) | Txt (s : bytes) | Flag (b : bool) | Code (c : errcode) | Succ (s : success_type)
| What (e : exn) | Unset | Incomplete | Minus (n : N).
Record line := mkLine { l_sev : severity; l_src : source; l_no : N; l_fields : list field }.

(** ** Calls that write to the log *)
Definition logm (A : Type) : Type := (list line * outcome A)%type.
Definition silent {A} (m : outcome A) : logm A := ([], m).
Definition bindl {A B} (m : logm A) (k : A -> logm B) : logm B :=
  match snd m with
  | Ret x => let r := k x in (fst m ++ fst r, snd r)
  | Throw e => (fst m, Throw e)
  | Crash c => (fst m, Crash c)
  | OutOfFuel => (fst m, OutOfFuel)
  end.
Notation "x <!- m ;; k" := (bindl m (fun x => k)) (at level 61, m at next level, right associativity).
Notation "' p <!- m ;; k" := (bindl m (fun x => let 'p := x in k)) (at level 61, p pattern, m at next level, right associativity).
Definition say (l : line) : logm unit := ([l], Ret tt).
Definition says {A} (ls : list line) (m : logm A) : logm A := (ls ++ fst m, snd m).
Definition noexcept_l {A} (m : logm A) : logm A := (fst m, noexcept (snd m)).
Definition low (e : exn) : line := mkLine SFatal Lower 0 [What e].
Definition low_lines {A} (m : outcome A) : list line := match m with Throw e => [low e] | _ => [] end.
Definition trouble {A} (m : outcome A) : logm A := (low_lines m, m).

(** a failed ErrorStruct: code, values in errorInfo, exception whose text is in [what] *)
Record lerr := E { e_code : errcode; e_info : list field; e_what : option exn }.
Definition lres (A : Type) : Type := logm (lerr + A).
Definition ok {A} (x : A) : lres A := ([], Ret (inr x)).
Definition err {A} (ls : list line) (e : lerr) : lres A := (ls, Ret (inl e)).
Definition bindr {A B} (m : lres A) (k : A -> lres B) : lres B :=
  bindl m (fun r => match r with inl e => err [] e | inr x => k x end).
Notation "x <!~ m ;; k" := (bindr m (fun x => k)) (at level 61, m at next level, right associativity).
Notation "' p <!~ m ;; k" := (bindr m (fun x => let 'p := x in k)) (at level 61, p pattern, m at next level, right associativity).
Definition lift_l {A} (m : logm A) : lres A := (fst m, a <- snd m ;; Ret (inr a)).
(** a try block: the lines and the ErrorStruct that the matching catch gives *)
Definition try_l {A} (handler : exn -> option (list line * lerr)) (m : logm A) : lres A :=
  match snd m with
  | Ret x => (fst m, Ret (inr x))
  | Throw e => match handler e with Some (ls, r) => (fst m ++ ls, Ret (inl r)) | None => (fst m, Throw e) end
  | Crash c => (fst m, Crash c)
  | OutOfFuel => (fst m, OutOfFuel)
  end.
(** the same for a block that returns an ErrorStruct *)
Definition catch_l {A} (handler : exn -> option (list line * lerr)) (m : lres A) : lres A :=
  match snd m with
  | Throw e => match handler e with Some (ls, r) => (fst m ++ ls, Ret (inl r)) | None => m end
  | _ => m
  end.
(** lines that the caller writes if an ErrorStruct has failed *)
Definition onerr {A} (g : lerr -> list line) (m : lres A) : lres A :=
  match snd m with Ret (inl e) => (fst m ++ g e, snd m) | _ => m end.
(** the ErrorStruct as the callers log it: errorCode, errorInfo, what; with the success type in front *)
Definition shown (e : lerr) : list field := Code (e_code e) :: e_info e ++ match e_what e with Some x => [What x] | None => [] end.
Definition shown_s (e : lerr) : list field := Succ (match e_code e with ERR_TIMEOUT => TIMEOUT | _ => FAIL end) :: shown e.
Definition handle_std (ls : exn -> list line) (c : errcode) (info : list field) (e : exn) : option (list line * lerr) :=
  match e with PointerThrown => None | _ => Some (ls e, E c info (Some e)) end.
Definition handle_invalid (ls : exn -> list line) (c : errcode) (info : list field) (e : exn) : option (list line * lerr) :=
  match e with InvalidArgument => Some (ls e, E c info (Some e)) | _ => None end.
Definition handle_invalid_or (ls : exn -> list line) (c : errcode) (info : list field)
    (ls' : exn -> list line) (c' : errcode) (e : exn) : option (list line * lerr) :=
  match e with InvalidArgument => Some (ls e, E c info (Some e)) | PointerThrown => None | _ => Some (ls' e, E c' [] (Some e)) end.

(** ** How objects are printed *)
Definition opt_num (o : option N) : field := match o with Some n => Num n | None => Unset end.
Definition opt_hex (o : option Bytes) : field := match o with Some b => Hex (bdata b) | None => Unset end.
(** operator<<(ChainHash): chainhash_modes.h 161-173 *)
Definition chain_fields (c : chainhash) : list field :=
  [ opt_num (ch_mode c); Num (ch_iters c);
    match ch_data c with Some d => if cd_complete d then Hex (bdata (cd_block d)) else Incomplete | None => Unset end;
    Flag (ch_val c) ].
(** operator<<(DataHeaderParts): dataheader.h 248-257 *)
Definition parts_fields (p : dhparts) : list field :=
  [opt_num (p_fmode p); opt_num (p_hmode p); opt_hex (p_valid p); opt_hex (p_salt p)] ++ chain_fields (p_ch1 p) ++ chain_fields (p_ch2 p).
(** operator<<(DataHeaderSettingsIters / Time): dataheader.h 421-430, 595-604 *)
Definition set_fields (s : dhsettings) : list field :=
  [opt_num (s_fmode s); opt_num (s_hmode s); opt_num (s_ch1 s); opt_num (s_n1 s); opt_num (s_ch2 s); opt_num (s_n2 s)].

(** ** Hash functions and chain hashes *)
(** HashModes::getHash: hash_modes.cpp 17-31 *)
Definition hash_line (mode : N) : line := mkLine SVerbose Hash_modes_cpp 19 [Num mode].
Definition getHash_l (H : hashes) (mode : N) : logm hashfn :=
  (hash_line mode :: (if hash_mode_valid mode then [] else [mkLine SError Hash_modes_cpp 28 [Num mode]]), getHash H mode).
(** Format::Format: format.cpp 10-55; for an invalid mode all three functions complain *)
Definition newFormat_l (mode : N) : logm N :=
  (if ch_mode_valid mode then []
   else [mkLine SFatal Format_cpp 24 [Num mode]; mkLine SFatal Format_cpp 43 [Num mode]; mkLine SFatal Format_cpp 52 [Num mode]],
   newFormat mode).
(** ChainHash::isValid: chainhash_modes.h 47-80; the object is printed after [val] was set to false *)
Definition validate_lines (mode : option N) (data : option chd) (iters : N) : list line :=
  let dump n := mkLine SDebug Chainhash_modes_h n (chain_fields (mkCH mode data iters false)) in
  match mode, data with
  | Some mo, Some d =>
      if negb ((0 <? iters) && (iters <=? MAX_ITERATIONS)) then [mkLine SWarning Chainhash_modes_h 58 [Num iters]; dump 59]
      else if negb (cd_completedFormat mo d) then [mkLine SWarning Chainhash_modes_h 64 []; dump 65]
      else if 255 <? cd_len d then [mkLine SWarning Chainhash_modes_h 71 [Num (cd_len d)]; dump 72]
      else []
  | _, _ => [mkLine SWarning Chainhash_modes_h 51 []; dump 52]
  end.
(** constructor: chainhash_modes.h 109-116 *)
Definition newChainHash_l (mode iters : N) (data : option chd) : logm chainhash :=
  (if ch_mode_valid mode then validate_lines (Some mode) data iters else [mkLine SFatal Chainhash_modes_h 90 [Num mode]],
   newChainHash mode iters data).
(** operator=: chainhash_modes.h 101-107 *)
Definition ch_assign_l (this ch : chainhash) : logm chainhash :=
  (match ch_assign this ch with
   | Ret c => validate_lines (ch_mode c) (ch_data c) (ch_iters c)
   | Throw e => [low e]
   | _ => []
   end, ch_assign this ch).
(** the round in which a chain hash gives up: the loop control of pwfunc.cpp 42-235 without the digests *)
Fixpoint late (clk : nat -> N) (timeout : N) (k : nat) (i : N) (peeks : nat) : option N :=
  match k with
  | O => None
  | S k' =>
      if negb (timeout =? 0) && (i mod TIMEOUT_ITERATIONS =? 0) then
        if timeout <=? clk peeks then Some i else late clk timeout k' (w64 (i + 1)) (S peeks)
      else late clk timeout k' (w64 (i + 1)) peeks
  end.
(** the warning about the timeout, pwfunc.cpp: its line for each mode, on strings and on Bytes *)
Definition timeout_site_s (mode : N) : N := match mode with 1 => 51 | 2 => 70 | 3 => 90 | 4 => 112 | _ => 133 end.
Definition timeout_site_b (mode : N) : N := match mode with 1 => 150 | 2 => 169 | 3 => 189 | 4 => 209 | _ => 229 end.
(** performChainHash: chainhash_modes.cpp 61-93 (Bytes, line 63), 95-127 (string, line 97) *)
Definition perform_lines (n : N) (c : chainhash) (timeout : N) (warn : N -> line) (r : outcome chres) : list line :=
  match ch_getMode c with
  | Ret mode =>
      mkLine SVerbose Chainhash_modes_cpp n [Num mode; Num (ch_iters c); Num timeout]
      :: match r with Ret TimedOut => [warn mode] | Throw e => [low e] | _ => [] end
  | Throw e => [low e]
  | _ => []
  end.
Definition performChainHash_sl (h : hashfn) (clk : nat -> N) (c : chainhash) (data : bytes) (timeout : N) : logm chres :=
  (perform_lines 97 c timeout
     (fun mode => mkLine SWarning Pwfunc_cpp (timeout_site_s mode) [Num timeout; opt_num (late clk timeout (N.to_nat (ch_iters c - 1)) 1 0)])
     (performChainHash_s h clk c data timeout),
   performChainHash_s h clk c data timeout).
Definition performChainHash_bl (h : hashfn) (clk : nat -> N) (c : chainhash) (data : Bytes) (timeout : N) : logm chres :=
  (perform_lines 63 c timeout
     (fun mode => mkLine SWarning Pwfunc_cpp (timeout_site_b mode) [Num timeout; opt_num (late clk timeout (N.to_nat (ch_iters c)) 0 0)])
     (performChainHash_b h clk c data timeout),
   performChainHash_b h clk c data timeout).

(** ** Data headers *)
(** DataHeaderParts::isComplete: dataheader.h 234-246 *)
Definition complete_lines (d : dheader) : list line :=
  if d_isComplete d then [] else [mkLine SDebug Dataheader_h 244 (parts_fields (d_parts d))].
(** DataHeaderParts::setHashMode: dataheader.h 205-214 looks the hash function up *)
Definition p_setHashMode_l (m : N) (p : dhparts) : logm dhparts :=
  (if hash_mode_valid m then [hash_line m] else [mkLine SError Dataheader_h 211 [Num m]], p_setHashMode m p).
(** constructor: dataheader.cpp 10-20 *)
Definition newDataHeader_l (rnd : N -> bytes) (mode : N) : logm dheader :=
  (mkLine SVerbose Dataheader_cpp 11 [Num mode]
   :: (if hash_mode_valid mode then hash_line mode :: hash_line mode :: low_lines (newDataHeader rnd mode)
       else [mkLine SError Dataheader_h 211 [Num mode]]),
   newDataHeader rnd mode).
(** setChainHash1, setChainHash2: dataheader.cpp 41-63 *)
Definition set_chain_lines (n bad : N) (c : chainhash) (a : logm chainhash) : list line :=
  mkLine SVerbose Dataheader_cpp n (chain_fields c)
  :: (if ch_val c then fst a else [mkLine SError Dataheader_cpp bad (chain_fields c)]).
Definition setChainHash1_l (c : chainhash) (d : dheader) : logm dheader :=
  (set_chain_lines 43 45 c (ch_assign_l (p_ch1 (d_parts d)) c), setChainHash1 c d).
Definition setChainHash2_l (c : chainhash) (d : dheader) : logm dheader :=
  (set_chain_lines 55 57 c (ch_assign_l (p_ch2 (d_parts d)) c), setChainHash2 c d).
(** setFileDataMode: dataheader.cpp 65-70 *)
Definition d_setFileDataMode_l (m : N) (d : dheader) : logm dheader :=
  (mkLine SVerbose Dataheader_cpp 67 [Num m] :: (if file_mode_valid m then [] else [mkLine SError Dataheader_h 201 [Num m]]),
   d_setFileDataMode m d).
(** setValidPasswordHashBytes: dataheader.cpp 72-77 *)
Definition setValid_l (b : Bytes) (d : dheader) : logm dheader :=
  (mkLine SVerbose Dataheader_cpp 74 [Hex (bdata b)] :: low_lines (setValidPasswordHashBytes b d), setValidPasswordHashBytes b d).
(** setEncSalt: dataheader.cpp 143-148 *)
Definition d_setEncSalt_l (b : Bytes) (d : dheader) : logm dheader :=
  (mkLine SVerbose Dataheader_cpp 145 [Hex (bdata b)] :: low_lines (d_setEncSalt b d), d_setEncSalt b d).
(** setFileSize: dataheader.cpp 112-127 *)
Definition setFileSize_l (n : N) (d : dheader) : logm dheader :=
  (mkLine SVerbose Dataheader_cpp 114 [Num n]
   :: (if d_isComplete d
       then match getHeaderLength d with
            | Ret l => if n <? l then [mkLine SError Dataheader_cpp 122 [Num n; Num l]] else []
            | _ => []
            end
       else complete_lines d ++ [mkLine SError Dataheader_cpp 117 []]),
   setFileSize n d).
(** setDataSize: dataheader.cpp 129-139 *)
Definition setDataSize_l (n : N) (d : dheader) : logm dheader :=
  (mkLine SVerbose Dataheader_cpp 131 [Num n]
   :: (if d_isComplete d then [] else complete_lines d ++ [mkLine SError Dataheader_cpp 134 []]),
   setDataSize n d).
(** calcHeaderBytes without a password hash: pwfunc.cpp 166-242; [r] is how the call ended *)
Definition calc_lines (d : dheader) (r : outcome unit) : list line :=
  mkLine SVerbose Dataheader_cpp 168 [Flag false]
  :: (if d_isComplete d
      then match d_fsize d, getHeaderLength d with
           | None, _ => [mkLine SError Dataheader_cpp 176 []]
           | Some n, Ret l => if n <? l then [mkLine SError Dataheader_cpp 182 [Num n; Num l]] else low_lines r
           | Some _, _ => []
           end
      else complete_lines d ++ [mkLine SError Dataheader_cpp 171 []]).
Definition calc_plain_l (d : dheader) : logm dheader := (calc_lines d (_ <- calc_plain d ;; Ret tt), calc_plain d).
(** getDataHeaderParts: dataheader.cpp 244-252 *)
Definition getDataHeaderParts_l (d : dheader) : logm dhparts :=
  (if d_isComplete d then [] else complete_lines d ++ [mkLine SError Dataheader_cpp 248 []], getDataHeaderParts d).
(** setHeaderParts: dataheader.cpp 1146-1174 *)
Definition setHeaderParts_l (rnd : N -> bytes) (p : dhparts) : lres dheader :=
  noexcept_l (try_l (handle_std (fun e => [mkLine SError Dataheader_cpp 1169 [What e]]) ERR []) (
    hm <!- trouble (p_getHashMode p) ;; d <!- newDataHeader_l rnd hm ;;
    fm <!- trouble (p_getFileDataMode p) ;; d <!- d_setFileDataMode_l fm d ;;
    d <!- setChainHash1_l (p_ch1 p) d ;; d <!- setChainHash2_l (p_ch2 p) d ;;
    v <!- trouble (p_getValid p) ;; d <!- setValid_l v d ;;
    s <!- trouble (p_getSalt p) ;; d <!- d_setEncSalt_l s d ;;
    d <!- trouble (addAll (p_dec p) d) ;; trouble (addAllEnc (p_enc p) d))).

(** ** The stream decoder: dataheader.cpp 624-1144 *)
Definition dh_error (n : N) (fs : list field) : line := mkLine SError Dataheader_cpp n fs.
(** the warnings of readData: utility.cpp 83 and 91, 111 *)
Definition short_line (cap : N) (size : Z) : line :=
  mkLine SWarning Utility_cpp (if cap <? Z.to_N (size mod 4294967296) then 83 else 91) [].
Definition read1_l (n : N) (s : bytes) : lres (N * bytes) :=
  match read1 s with
  | Some x => ok x
  | None => err [mkLine SWarning Utility_cpp 111 []; dh_error n []] (E ERR_NOT_ENOUGH_DATA [] None)
  end.
Definition readBytes_l (n : N) (cap : N) (size : Z) (s : bytes) : lres (bytes * bytes) :=
  match readBytes cap size s with
  | Some x => ok x
  | None => err [short_line cap size; dh_error n []] (E ERR_NOT_ENOUGH_DATA [] None)
  end.
Definition read8_l (n : N) (s : bytes) : lres (N * bytes) :=
  '(b, s) <!~ readBytes_l n 8 8 s ;;
  k <!~ lift_l (trouble (toLong (mkBytes b 8))) ;; ok (k, s).
(** data blocks: dataheader.cpp 728-757 *)
Fixpoint s_blocks_l (n : nat) (d : dheader) (s : bytes) : lres (dheader * bytes) :=
  match n with
  | O => ok (d, s)
  | S n' =>
      '(ty, s) <!~ read1_l 733 s ;;
      '(len, s) <!~ read1_l 742 s ;;
      '(data, s) <!~ readBytes_l 751 len (Z.of_N len) s ;;
      d <!~ lift_l (trouble (b <- newDataBlock ty (mkBytes data len) ;; addDataBlock b d)) ;;
      s_blocks_l n' d s
  end.
(** the statements of the two chain hashes, dataheader.cpp 759-896 and 898-1037 *)
Record chain_sites := mkSites {
  cs_mode : N; cs_format : N; cs_format_other : N; cs_iters : N; cs_blocklen : N;
  cs_short : N; cs_part_invalid : N; cs_part_done : N; cs_part_other : N; cs_invalid : N; cs_other : N;
  cs_short_what : bool }.           (* the second chain hash also shows the text of the length_error: 981, 984 *)
Definition sites1 : chain_sites := mkSites 766 776 783 794 805 841 855 862 869 883 890 false.
Definition sites2 : chain_sites := mkSites 905 915 922 934 945 981 996 1003 1010 1024 1031 true.
Definition short_end (cs : chain_sites) : list line * lerr :=
  ([dh_error (cs_short cs) (if cs_short_what cs then [What LengthError] else [])],
   E ERR_NOT_ENOUGH_DATA [] (if cs_short_what cs then Some LengthError else None)).
Definition part_handler_l (cs : chain_sites) (tmp : bytes) (e : exn) : option (list line * lerr) :=
  match e with
  | LengthError => Some (short_end cs)
  | InvalidArgument => Some ([dh_error (cs_part_invalid cs) [What e]], E ERR_CHAINHASH_DATAPART_INVALID [Hex tmp] (Some e))
  | LogicError => Some ([dh_error (cs_part_done cs) [What e]], E ERR_CHAINHASH_DATABLOCK_ALREADY_COMPLETED [Hex tmp] (Some e))
  | PointerThrown => None
  | _ => Some ([dh_error (cs_part_other cs) [What e]], E ERR [] (Some e))
  end.
Definition readPart_l (cs : chain_sites) (size : Z) (s : bytes) : lres (bytes * bytes) :=
  match readBytes 255 size s with
  | Some x => ok x
  | None => err (short_line 255 size :: fst (short_end cs)) (snd (short_end cs))
  end.
Fixpoint s_parts_l (bd : build) (cs : chain_sites) (nls : list (bytes * N)) (lb data_len : N) (c : chd) (s : bytes) : lres (N * chd * bytes) :=
  match nls with
  | [] => ok (data_len, c, s)
  | (_, len) :: r =>
      if negb (len =? 0) then
        '(b, s) <!~ readPart_l cs (Z.of_N len) s ;;
        c <!~ try_l (part_handler_l cs b) (trouble (cd_addBytes bd (mkBytes b 255) c)) ;;
        s_parts_l bd cs r lb (data_len + len) c s
      else
        '(b, s) <!~ readPart_l cs (Z.of_N lb - Z.of_N data_len) s ;;
        c <!~ try_l (part_handler_l cs b) (trouble (cd_addBytes bd (mkBytes b 255) c)) ;;
        ok (lb, c, s)
  end.
Definition assert_l (bd : build) (b : bool) : lres unit := ([], assertC bd b (Ret (inr tt))).
Definition s_chain_l (bd : build) (cs : chain_sites) (code : errcode) (set : chainhash -> dheader -> logm dheader)
    (d : dheader) (s : bytes) : lres (dheader * bytes) :=
  '(mode, s) <!~ read1_l (cs_mode cs) s ;;
  f <!~ try_l (handle_invalid_or (fun e => [dh_error (cs_format cs) [Num mode; What e]]) ERR_CHAINHASHMODE_FORMAT_INVALID [Txt [n2b mode]]
                 (fun e => [dh_error (cs_format_other cs) [What e]]) ERR) (newFormat_l mode) ;;
  '(iters, s) <!~ read8_l (cs_iters cs) s ;;
  '(lb, s) <!~ read1_l (cs_blocklen cs) s ;;
  '(data_len, c, s) <!~ s_parts_l bd cs (nameLens f) lb 0 (newChd f) s ;;
  _ <!~ assert_l bd (cd_len c =? lb) ;;
  _ <!~ assert_l bd (data_len =? lb) ;;
  d <!~ try_l (handle_invalid_or (fun e => [dh_error (cs_invalid cs) [What e]]) code []
                 (fun e => [dh_error (cs_other cs) [What e]]) ERR)
          (ch <!- newChainHash_l mode iters (Some c) ;; set ch d) ;;
  ok (d, s).
(** encrypted blocks: dataheader.cpp 1101-1130 *)
Fixpoint s_encs_l (n : nat) (d : dheader) (s : bytes) : lres (dheader * bytes) :=
  match n with
  | O => ok (d, s)
  | S n' =>
      '(ty, s) <!~ read1_l 1106 s ;;
      '(len, s) <!~ read1_l 1115 s ;;
      '(data, s) <!~ readBytes_l 1124 255 255 s ;;
      d <!~ lift_l (trouble (b <- createEncBlock ty (mkBytes data 255) len ;; addEncDataBlock b d)) ;;
      s_encs_l n' d s
  end.
Definition decode_stream_l (bd : build) (rnd : N -> bytes) (file : bytes) : lres (dheader * bytes) :=
  noexcept_l (
    '(file_size, s) <!~ read8_l 643 file ;;
    '(header_size, s) <!~ read8_l 653 s ;;
    if negb (lenN file =? file_size)
    then err [dh_error 662 [Num file_size; Num (lenN file)]] (E ERR_FILESIZE_INVALID [Num file_size; Num (lenN file)] None)
    else if file_size <? header_size
    then err [dh_error 669 [Num header_size; Num file_size]] (E ERR_HEADERSIZE_FILESIZE_MISMATCH [Num header_size; Num file_size] None)
    else
      '(fmode, s) <!~ read1_l 678 s ;;
      '(hmode, s) <!~ read1_l 688 s ;;
      d <!~ try_l (handle_invalid (fun e => [dh_error 698 [Num hmode; What e]]) ERR_HASHMODE_INVALID [Txt [n2b hmode]]) (newDataHeader_l rnd hmode) ;;
      d <!~ try_l (handle_invalid (fun e => [dh_error 710 [Num fmode; What e]]) ERR_FILEMODE_INVALID [Txt [n2b fmode]]) (d_setFileDataMode_l fmode d) ;;
      '(count, s) <!~ read1_l 723 s ;;
      '(d, s) <!~ s_blocks_l (N.to_nat count) d s ;;
      '(d, s) <!~ s_chain_l bd sites1 ERR_CHAINHASH1_INVALID setChainHash1_l d s ;;
      '(d, s) <!~ s_chain_l bd sites2 ERR_CHAINHASH2_INVALID setChainHash2_l d s ;;
      '(v, s) <!~ readBytes_l 1044 (d_hsize d) (Z.of_N (d_hsize d)) s ;;
      d <!~ try_l (handle_std (fun e => [dh_error 1052 [What e]]) ERR []) (setValid_l (mkBytes v (d_hsize d)) d) ;;
      '(sa, s) <!~ readBytes_l 1065 (d_hsize d) (Z.of_N (d_hsize d)) s ;;
      d <!~ try_l (handle_std (fun e => [dh_error 1073 [What e]]) ERR []) (d_setEncSalt_l (mkBytes sa (d_hsize d)) d) ;;
      d <!~ try_l (handle_invalid (fun e => [dh_error 1083 [What e]]) ERR_FILESIZE_INVALID [Txt [n2b file_size]]) (setFileSize_l file_size d) ;;
      '(count, s) <!~ read1_l 1095 s ;;
      '(d, s) <!~ s_encs_l (N.to_nat count) d s ;;
      d <!~ try_l (handle_std (fun e => [dh_error 1135 [What e]]) ERR []) (calc_plain_l d) ;;
      l <!~ lift_l (silent (getHeaderLength d)) ;;
      _ <!~ assert_l bd (lenN file - lenN s =? l) ;;
      _ <!~ assert_l bd (l =? header_size) ;;
      ok (d, s)).

(** ** The file handler: filehandler.cpp *)
Definition fh_line (s : severity) (n : N) (fs : list field) : line := mkLine s Filehandler_cpp n fs.
(** isValidPath: filehandler.cpp 14-56; errorInfo is the path *)
Definition path_error (p : bytes) (c : errcode) : lerr := E c [Txt p] None.
Definition isValidPath_l (w : world) (f : fs) (p : bytes) (should_exist : bool) : lres unit :=
  let r := isValidPath w f p should_exist in
  (match r with
   | Ret (inl ERR_EMPTY_FILEPATH) => [fh_line SError 22 [Txt p]]
   | Ret (inl ERR_EXTENSION_INVALID) => [fh_line SError 28 [Txt p; Txt (extension p)]]
   | Ret (inl ERR_FILE_NOT_FOUND) => [fh_line SError 35 [Txt p]]
   | Ret (inl ERR_FILE_NOT_OPEN) => [fh_line SError 42 [Txt p]]
   | Ret (inl _) => [fh_line SError 49 [Txt p]]
   | _ => []
   end,
   x <- r ;; Ret (match x with inl c => inl (path_error p c) | inr u => inr u end)).
(** createFile: filehandler.cpp 58-81 *)
Definition createFile_lines (w : world) (f : fs) (p : bytes) : list line :=
  let v := isValidPath_l w f p false in
  fh_line SVerbose 60 [Txt p]
  :: fst v ++ match snd v with
              | Ret (inl e) => [fh_line SError 67 (shown e)]
              | Ret (inr _) => if w_create w p then [] else [fh_line SError 74 []]
              | _ => []
              end.
(** update: filehandler.cpp 92-129; the first read fails on an empty file *)
Definition update_lines (c : bytes) : list line :=
  let fsize := lenN c in
  match readBytes 8 8 c with
  | None => short_line 8 8 :: (if fsize =? 0 then [] else [fh_line SError 105 []])
  | Some (b, s) =>
      match toLong (mkBytes b 8) with
      | Ret n =>
          if negb (n =? fsize) then [fh_line SError 110 []]
          else match readBytes 8 8 s with
               | None => [short_line 8 8; fh_line SError 115 []]
               | Some (b', _) =>
                   match toLong (mkBytes b' 8) with
                   | Ret hsize => if fsize <? hsize then [fh_line SError 122 []]
                                  else if hsize <? MIN_DATAHEADER_LEN then [fh_line SError 126 []] else []
                   | r => low_lines r
                   end
               end
      | r => low_lines r
      end
  end.
(** constructor: filehandler.cpp 83-90 *)
Definition newFileHandler_l (w : world) (f : fs) (p : bytes) : logm handler :=
  let v := isValidPath_l w f p true in
  (fst v ++ match snd v with
            | Ret (inl _) => [fh_line SFatal 86 [Txt p]]
            | Ret (inr _) => update_lines (stream_of w f p)
            | _ => []
            end, newFileHandler w f p).
(** getDataHeader: filehandler.cpp 148-154 *)
Definition fh_getDataHeader_l (w : world) (f : fs) (i : nat) (h : handler) : lres dheader :=
  noexcept_l ('(d, _) <!~ decode_stream_l (w_build w) (w_rnd w i) (stream_of w f (fh_path h)) ;; ok d).
(** isDataHeader: filehandler.cpp 131-144 *)
Definition fh_isDataHeader_l (w : world) (f : fs) (i : nat) (mode : N) (h : handler) : lres unit :=
  noexcept_l (
    d <!~ onerr (fun e => [fh_line SError 135 (shown e)]) (fh_getDataHeader_l w f i h) ;;
    m <!~ lift_l (p <!- getDataHeaderParts_l d ;; trouble (p_getFileDataMode p)) ;;
    if m =? mode then ok tt
    else err [fh_line SWarning 141 [Txt (fh_path h); Num mode; Num m]] (E ERR_FILEMODE_INVALID [Num m] None)).
(** getWriteStream: filehandler.cpp 194-215, getWriteStreamIfEmpty: 217-226: the lines, and the ErrorStruct *)
Definition write_stream_l (w : world) (f : fs) (h : handler) : lres unit :=
  let v := isValidPath_l w f (fh_path h) true in
  (fh_line SVerbose 199 [Txt (fh_path h)]
   :: fst v ++ match snd v with
               | Ret (inl e) => [fh_line SError 203 (shown e)]
               | Ret (inr _) => if w_write w (fh_path h) then [] else [fh_line SFatal 209 []]
               | _ => []
               end,
   match snd v with
   | Ret (inr _) => if w_write w (fh_path h) then Ret (inr tt) else Ret (inl (E ERR_FILE_NOT_OPEN [Txt (fh_path h)] None))
   | r => r
   end).
Definition write_stream_empty_l (w : world) (f : fs) (h : handler) : lres unit :=
  if fh_empty h then write_stream_l w f h
  else err [fh_line SWarning 223 [Txt (fh_path h)]] (E ERR_FILE_NOT_EMPTY [Txt (fh_path h)] None).
(** getAllBytes: filehandler.cpp 246-267 *)
Definition getAllBytes_l (w : world) (f : fs) (h : handler) : logm Bytes :=
  (fh_line SVerbose 248 [Txt (fh_path h)]
   :: match fh_getAllBytes w f h with
      | Throw LengthError => [mkLine SWarning Utility_cpp 91 []]
      | _ => []
      end, fh_getAllBytes w f h).

(** ** The API: api.cpp, api.h *)
Definition api_line (s : severity) (n : N) (fs : list field) : line := mkLine s Api_cpp n fs.
Definition call_line (n : N) (fs : list field) : line := mkLine SDebug Api_h n fs.
(** the constructor of a state: api.h 219-274 *)
Definition state_line (s : state) : line :=
  call_line (match s with
             | INIT => 221 | FILE_SELECTED => 229 | EMPTY_FILE_SELECTED => 239 | PASSWORD_VERIFIED => 250
             | DECRYPTED => 256 | ENCRYPTED => 266 | FINISHED => 273
             end) [].
(** constructor: api.cpp 268-279 *)
Definition newAPI_l (mode : N) : logm api :=
  (state_line INIT :: api_line SVerbose 270 [Num mode] :: (if file_mode_valid mode then [] else [api_line SError 272 [Num mode]]),
   newAPI mode).
(** _getFileHandler: api.cpp 12-27 *)
Definition getFileHandler_l (w : world) (f : fs) (p : bytes) : lres handler :=
  noexcept_l (
    _ <!~ onerr (fun e => [api_line SError 17 (Txt p :: shown e)]) (isValidPath_l w f p true) ;;
    try_l (handle_std (fun e => [api_line SError 24 [What e]]) ERR_FILEHANDLER_CREATION []) (newFileHandler_l w f p)).
(** the try block of _createDataHeaderIters: api.cpp 50-64 *)
Definition newChains_l (w : world) (ds : dhsettings) : logm (chainhash * chainhash) :=
  m1 <!- trouble (set_get (s_ch1 ds)) ;; f1 <!- newFormat_l m1 ;;
  m2 <!- trouble (set_get (s_ch2 ds)) ;; f2 <!- newFormat_l m2 ;;
  d1 <!- trouble (cd_generate (w_rnd w 0) (newChd f1)) ;;
  d2 <!- trouble (cd_generate (w_rnd w 1) (newChd f2)) ;;
  n1 <!- trouble (set_get (s_n1 ds)) ;; x1 <!- newChainHash_l m1 n1 (Some d1) ;; c1 <!- ch_assign_l ch_default x1 ;;
  n2 <!- trouble (set_get (s_n2 ds)) ;; x2 <!- newChainHash_l m2 n2 (Some d2) ;; c2 <!- ch_assign_l ch_default x2 ;;
  l1 <!- trouble (ch_dataLen c1) ;; l2 <!- trouble (ch_dataLen c2) ;;
  if negb (l1 =? cd_len d1) || negb (l2 =? cd_len d2) then silent (Throw LogicError) else silent (Ret (c1, c2)).
Definition timed_out : lerr := E ERR_TIMEOUT [] None.
(** _createDataHeaderIters: api.cpp 29-129 *)
Definition createHeaderIters_l (w : world) (mode : N) (pw : bytes) (ds : dhsettings) (timeout : N) : lres (dheader * Bytes) :=
  noexcept_l (
    if negb (set_isComplete ds)
    then err [mkLine SDebug Dataheader_h 417 (set_fields ds); api_line SError 32 []] (E ERR_DATAHEADERSETTINGS_INCOMPLETE [] None)
    else
      _ <!~ lift_l (say (api_line SVerbose 36 (set_fields ds ++ [Num timeout]))) ;;
      fm <!~ lift_l (trouble (set_get (s_fmode ds))) ;;
      if negb (fm =? mode) then err [api_line SError 40 [Num fm; Num mode]] (E ERR_FILEMODE_INVALID [] None)
      else
        '(c1, c2) <!~ try_l (handle_std (fun e => [api_line SError 65 [What e]]) ERR []) (newChains_l w ds) ;;
        p <!~ lift_l (trouble (p_setFileDataMode fm (mkParts None None None None (s_dec ds) (s_enc ds) c1 c2))) ;;
        hm <!~ lift_l (trouble (set_get (s_hmode ds))) ;;
        p <!~ lift_l (p_setHashMode_l hm p) ;;
        h <!~ lift_l (getHash_l (w_hashes w) hm) ;;
        r1 <!~ lift_l (performChainHash_sl h (w_clk1 w) (p_ch1 p) pw timeout) ;;
        match r1 with
        | TimedOut => err [api_line SError 83 (shown_s timed_out)] timed_out
        | Done k =>
            t <!~ (if timeout =? 0 then ok 0
                   else if timeout <=? w64 (w_elapsed w) then err [api_line SError 98 []] timed_out
                   else ok (sub64 timeout (w64 (w_elapsed w)))) ;;
            r2 <!~ lift_l (performChainHash_bl h (w_clk2 w) (p_ch2 p) k t) ;;
            match r2 with
            | TimedOut => err [api_line SError 111 (shown_s timed_out)] timed_out
            | Done v =>
                p <!~ lift_l (trouble (p_setValid v p)) ;;
                salt <!~ lift_l (trouble (fillrandom (w_rnd w 2) (mkBytes [] (hsize h)))) ;;
                p <!~ lift_l (trouble (p_setSalt salt p)) ;;
                d <!~ setHeaderParts_l (w_rnd w 3) p ;;
                ok (d, copyBytes k)
            end
        end).
(** verifyPassword, the try block: api.cpp 438-486 *)
Definition checkPassword_l (w : world) (d : dheader) (pw : bytes) (timeout : N) : lres Bytes :=
  p <!~ lift_l (getDataHeaderParts_l d) ;;
  hm <!~ lift_l (trouble (p_getHashMode p)) ;;
  h <!~ lift_l (getHash_l (w_hashes w) hm) ;;
  r1 <!~ lift_l (performChainHash_sl h (w_clk1 w) (p_ch1 p) pw timeout) ;;
  match r1 with
  | TimedOut => err [api_line SError 449 (shown_s timed_out)] timed_out
  | Done k =>
      let new_timeout := sub64 timeout (w64 (w_elapsed w)) in
      if negb (timeout =? 0) && (new_timeout =? 0) then err [api_line SWarning 457 []] timed_out
      else
        r2 <!~ lift_l (performChainHash_bl h (w_clk2 w) (p_ch2 p) k new_timeout) ;;
        match r2 with
        | TimedOut => err [api_line SError 467 (shown_s timed_out)] timed_out
        | Done v =>
            pv <!~ lift_l (trouble (p_getValid p)) ;;
            if eqBytes v pv then ([api_line SInfo 475 []], Ret (inr (copyBytes k)))
            else err [api_line SWarning 481 []] (E ERR_PASSWORD_INVALID [] None)
        end
  end.
(** FILE_SELECTED::verifyPassword: api.cpp 431-493 *)
Definition verifyPassword_l (w : world) (a : api) (pw : bytes) (timeout : N) : logm (api * reply) :=
  noexcept_l (
    _ <!- say (api_line SVerbose 437 [Num timeout]) ;;
    d <!- silent (ptr (a_dh a)) ;;
    r <!- catch_l (handle_std (fun e => [api_line SError 489 [What e]]) ERR []) (checkPassword_l w d pw timeout) ;;
    match r with
    | inl e => silent (Ret (a, failed (e_code e)))
    | inr k =>
        ([state_line PASSWORD_VERIFIED],
         Ret (mkApi PASSWORD_VERIFIED (a_mode a) (a_fdata a) k (a_enc a) (a_dh a) (a_file a), ROk))
    end).
(** _select_empty_file: api.cpp 224-231, _select_non_empty_file: 233-247, INIT::selectFile: 370-383 *)
Definition selectFile_l (w : world) (a : api) (f : fs) (p : bytes) : logm (api * reply) :=
  noexcept_l (
    _ <!- say (api_line SVerbose 372 [Txt p]) ;;
    r <!- onerr (fun e => [api_line SError 376 (shown e)]) (getFileHandler_l w f p) ;;
    match r with
    | inl e => silent (Ret (a, failed (e_code e)))
    | inr h =>
        if fh_empty h then
          ([api_line SInfo 226 [Txt (fh_path h)]; state_line EMPTY_FILE_SELECTED],
           Ret (mkApi EMPTY_FILE_SELECTED (a_mode a) (a_fdata a) (a_key a) (a_enc a) (a_dh a) (Some h), ROk))
        else
          r <!- onerr (fun e => [api_line SError 238 (shown e)]) (fh_getDataHeader_l w f 0 h) ;;
          match r with
          | inl e => silent (Ret (a, failed (e_code e)))
          | inr d =>
              ([api_line SInfo 242 [Txt (fh_path h)]; state_line FILE_SELECTED],
               Ret (mkApi FILE_SELECTED (a_mode a) (a_fdata a) (a_key a) (a_enc a) (Some d) (Some h), ROk))
          end
    end).
(** unselectFile: api.cpp 421-429, 260-266; [n] is the line of the state's own function *)
Definition unselect_lines (n : N) (a : api) : list line :=
  match a_file a with
  | Some h => [api_line SVerbose n [Txt (fh_path h)]; state_line INIT]
  | None => []
  end.
(** deleteFile: api.cpp 395-403, _deleteFile: 249-258 *)
Definition delete_lines (w : world) (n n_unselect : N) (a : api) (f : fs) : list line :=
  match a_file a with
  | None => []
  | Some h =>
      api_line SVerbose n [Txt (fh_path h)]
      :: (if negb (w_remove w (fh_path h)) then []
          else match f (w_loc w (fh_path h)) with
               | None => [api_line SError 253 []]
               | Some _ => unselect_lines n_unselect a
               end)
  end.
(** getAllEncFileNames: api.cpp 309-335 *)
Definition getAllEncFileNames_l (w : world) (dir : bytes) : lres (list bytes) :=
  let r := getAllEncFileNames w dir in
  (match r with
   | Ret (inl ERR_EMPTY_FILEPATH) => [api_line SError 316 []]
   | Ret (inl _) => [api_line SError 322 [Txt dir]]
   | _ => []
   end,
   x <- r ;; Ret (match x with
                  | inl ERR_EMPTY_FILEPATH => inl (E ERR_EMPTY_FILEPATH [] None)
                  | inl c => inl (E c [Txt dir] None)
                  | inr l => inr l
                  end)).
(** INIT::getRelevantFileNames: api.cpp 337-363 *)
Definition count_up_l {A} (i : nat) (k : logm A) : logm A := if N.of_nat i =? INT_MAX then silent (Crash Undefined) else k.
Fixpoint relevant_loop_l (w : world) (f : fs) (i : nat) (mode : N) (dir : bytes) (names ret : list bytes) : logm (list bytes) :=
  match names with
  | [] => silent (Ret ret)
  | n :: rest =>
      r <!- getFileHandler_l w f (join dir n) ;;
      match r with
      | inl _ => count_up_l i (relevant_loop_l w f (S i) mode dir rest ret)
      | inr h =>
          take <!- (if fh_empty h then silent (Ret true)
                    else x <!- fh_isDataHeader_l w f i mode h ;; silent (Ret (match x with inr _ => true | inl _ => false end))) ;;
          let tmp := if (take : bool) then ret ++ [n] else ret in
          count_up_l i (relevant_loop_l w f (S i) mode dir rest ret)
      end
  end.
Definition getRelevantFileNames_l (w : world) (f : fs) (mode : N) (dir : bytes) : lres (list bytes) :=
  noexcept_l (
    _ <!~ lift_l (say (api_line SVerbose 340 [Txt dir])) ;;
    names <!~ onerr (fun e => [api_line SError 343 (Code (e_code e) :: e_info e)]) (getAllEncFileNames_l w dir) ;;
    lift_l (relevant_loop_l w f 0 mode dir names [])).
(** EMPTY_FILE_SELECTED::createDataHeader: api.cpp 495-521 *)
Definition headerEmpty_l (a : api) (r : lres (dheader * Bytes)) : logm (api * reply) :=
  x <!- onerr (fun e => [api_line SError 509 (shown_s e)]) r ;;
  match x with
  | inl e => silent (Ret (a, failed (e_code e)))
  | inr (d, k) =>
      ([api_line SInfo 514 []; state_line DECRYPTED],
       Ret (mkApi DECRYPTED (a_mode a) (Some (mkFD (Some (a_mode a)) (Some (mkBytes [] 0)))) (copyBytes k) (a_enc a) (Some d) (a_file a), ROk))
  end.
(** DECRYPTED::createDataHeader: api.cpp 643-669 *)
Definition headerDecrypted_l (a : api) (r : lres (dheader * Bytes)) : logm (api * reply) :=
  x <!- onerr (fun e => [api_line SError 659 (shown_s e)]) r ;;
  match x with
  | inl e => silent (Ret (a, failed (e_code e)))
  | inr (d, k) =>
      ([api_line SInfo 664 []],
       Ret (mkApi (a_state a) (a_mode a) (a_fdata a) (copyBytes k) (a_enc a) (Some d) (a_file a), ROk))
  end.
(** the versions with times: 131-140, 523-548, 671-696; the helper is built from a failed ErrorStruct, and
    returnRef logs before it throws: error.h 128 *)
Definition time_lines (ds : dhsettings) : list line := [api_line SVerbose 139 (set_fields ds); mkLine SFatal Error_h 128 []].
(** the statements of the two block chains and the two addData functions *)
Definition chain_line (k : kind) : line := mkLine SVerbose (match k with Enc => Blockchain_encrypt_h | Dec => Blockchain_decrypt_h end) 13 [].
Definition new_chain_l (k : kind) (h : hashfn) (key s : Bytes) : logm chain :=
  (match new_chain k h key s with Ret _ => [chain_line k] | r => low_lines r end, new_chain k h key s).
Definition added_line (n : N) (c : chain) : line := mkLine SVerbose Blockchain_cpp n [Num (getHeight c); Num (getDataSize c)].
Definition add_l (n : N) (r : outcome chain) : logm chain := (match r with Ret c => [added_line n c] | _ => low_lines r end, r).
Definition getResult_l (c : chain) : logm Bytes :=
  (mkLine SDebug Blockchain_cpp 77 [Num (getHeight c); Num (getDataSize c)] :: low_lines (getResult c),
   '(res, _) <- getResult c ;; Ret res).
(** PASSWORD_VERIFIED::getDecryptedData: api.cpp 550-571 *)
Definition decryptBody_l (w : world) (a : api) (f : fs) : logm Bytes :=
  d <!- silent (ptr (a_dh a)) ;;
  p <!- getDataHeaderParts_l d ;; hm <!- trouble (p_getHashMode p) ;; h <!- getHash_l (w_hashes w) hm ;;
  s <!- trouble (p_getSalt p) ;;
  c <!- new_chain_l Dec h (a_key a) s ;;
  x <!- silent (ptr (a_file a)) ;;
  c <!- add_l 53 (addStream (w_fuel w) (fh_dataStream w f x) (fh_dataSize x) c) ;;
  getResult_l c.
Definition getDecryptedData_l (w : world) (a : api) (f : fs) : logm (api * reply) :=
  noexcept_l (
    _ <!- say (api_line SVerbose 554 []) ;;
    r <!- try_l (handle_std (fun e => [api_line SError 568 [What e]]) ERR []) (decryptBody_l w a f) ;;
    match r with
    | inl e => silent (Ret (a, failed (e_code e)))
    | inr res =>
        ([state_line DECRYPTED],
         Ret (mkApi DECRYPTED (a_mode a) None (a_key a) (a_enc a) (a_dh a) (a_file a), RData (mkFD (Some (a_mode a)) (Some res))))
    end).
(** DECRYPTED::encryptData: api.cpp 573-613 *)
Definition encryptBody_l (w : world) (key : Bytes) (data : Bytes) (d : dheader) : logm Bytes :=
  p <!- getDataHeaderParts_l d ;; hm <!- trouble (p_getHashMode p) ;; h <!- getHash_l (w_hashes w) hm ;;
  s <!- trouble (p_getSalt p) ;;
  c <!- new_chain_l Enc h key s ;;
  c <!- add_l 72 (addData (w_fuel w) data c) ;;
  getResult_l c.
Definition encryptData_l (w : world) (a : api) (x : option filedata) : logm (api * reply) :=
  let caught := handle_std (fun e => [api_line SError 608 [What e]]) ERR [] in
  noexcept_l (
    _ <!- say (api_line SVerbose 576 []) ;;
    x <!- silent (ptr x) ;;
    match fd_mode x with
    | None => ([mkLine SWarning File_data_h 59 []; api_line SError 578 []], Ret (a, failed ERR_FILEDATASTRUCT_INCOMPLETE))
    | Some m =>
        if negb (m =? a_mode a) then ([api_line SError 585 [Num m; Num (a_mode a)]], Ret (a, failed ERR_FILEMODE_INVALID))
        else
          data <!- silent (ptr (fd_data x)) ;;
          d <!- silent (ptr (a_dh a)) ;;
          r <!- try_l caught (setDataSize_l (getLen data) d) ;;
          match r with
          | inl e => silent (Ret (a, failed (e_code e)))
          | inr d1 =>
              let '(d2, r) := calcHeaderBytes (w_hashes w) (w_clk1 w) (mkBytes [] 0) d1 in
              r <!- try_l caught (_ <!- (calc_lines d1 r, r) ;; encryptBody_l w (a_key a) data d2) ;;
              match r with
              | inl e => silent (Ret (mkApi (a_state a) (a_mode a) (a_fdata a) (a_key a) (a_enc a) (Some d2) (a_file a), failed (e_code e)))
              | inr res =>
                  ([state_line ENCRYPTED],
                   Ret (mkApi ENCRYPTED (a_mode a) (Some (mkFD (Some m) None)) (a_key a) (Some res) (Some d2) (a_file a), ROk))
              end
          end
    end).
(** DECRYPTED::changeSalt: api.cpp 623-641 *)
Definition changeSalt_l (w : world) (a : api) : logm (api * reply) :=
  noexcept_l (
    _ <!- say (api_line SVerbose 626 []) ;;
    d <!- silent (ptr (a_dh a)) ;;
    p <!- getDataHeaderParts_l d ;;
    s <!- trouble (p_getSalt p) ;;
    b <!- trouble (newBytes (Z.of_N (getLen s))) ;;
    b <!- trouble (fillrandom (w_rnd w 0) b) ;;
    p <!- trouble (p_setSalt b p) ;;
    r <!- onerr (fun e => [api_line SError 637 (shown_s e)]) (setHeaderParts_l (w_rnd w 1) p) ;;
    match r with
    | inl e => silent (Ret (a, failed (e_code e)))
    | inr d' => silent (Ret (mkApi (a_state a) (a_mode a) (a_fdata a) (a_key a) (a_enc a) (Some d') (a_file a), ROk))
    end).
(** the end of both writeToFile functions *)
Definition finish_lines (a : api) : list line := match fullData a with Ret _ => [state_line FINISHED] | r => low_lines r end.
(** ENCRYPTED::writeToFile(path): api.cpp 698-719 *)
Definition writeToPath_lines (w : world) (a : api) (f : fs) (p : bytes) : list line :=
  let g := getFileHandler_l w f p in
  api_line SVerbose 700 [Txt p]
  :: fst g ++ match snd g with
              | Ret (inl e) => [api_line SError 704 (shown e)]
              | Ret (inr h) =>
                  let s := write_stream_empty_l w f h in
                  fst s ++ match snd s with
                           | Ret (inl e) => [api_line SError 716 (shown e)]
                           | Ret (inr _) => finish_lines a
                           | _ => []
                           end
              | _ => []
              end.
(** ENCRYPTED::writeToFile(): api.cpp 721-737 *)
Definition writeToFile_lines (w : world) (a : api) (f : fs) : list line :=
  match a_file a with
  | None => []
  | Some h =>
      let s := write_stream_l w f h in
      api_line SVerbose 723 [Txt (fh_path h)]
      :: fst s ++ match snd s with
                  | Ret (inl e) => [api_line SFatal 734 (shown e)]
                  | Ret (inr _) => finish_lines a
                  | _ => []
                  end
  end.
(** FILE_SELECTED::getFileContent: api.cpp 405-414 *)
Definition getFileContent_l (w : world) (a : api) (f : fs) : logm (api * reply) :=
  noexcept_l (
    h <!- silent (ptr (a_file a)) ;;
    r <!- try_l (handle_std (fun e => [api_line SError 411 [What e]]) ERR_FILE_READ [Txt (fh_path h)]) (getAllBytes_l w f h) ;;
    silent (Ret (a, match r with inl e => failed (e_code e) | inr b => RBytes b end))).
(** getFileData: api.cpp 615-621 *)
Definition fileData_lines (a : api) : list line := match a_fdata a with None => [api_line SError 617 []] | Some _ => [] end.

(** One call: the lines, and what [step] gives.  The public functions log the call before they pass it on
    (api.h 338-463); the versions of createDataHeader refuse incomplete settings before that. *)
Definition lines_of (w : world) (a : api) (f : fs) (o : op) : list line :=
  match o with
  | OLogout => [call_line 461 []; state_line INIT]
  | OLogoutMode m => [call_line 456 [Num m]; state_line INIT]
  | OHeader pw ds t =>
      if negb (set_isComplete ds) then [mkLine SDebug Dataheader_h 417 (set_fields ds); mkLine SError Api_h 397 []]
      else call_line 400 [Num t; opt_num (s_n1 ds); opt_num (s_n2 ds)]
           :: match a_state a with
              | EMPTY_FILE_SELECTED => fst (headerEmpty_l a (createHeaderIters_l w (a_mode a) pw ds t))
              | DECRYPTED =>
                  api_line SVerbose 654 (set_fields ds ++ [Num t])
                  :: fst (headerDecrypted_l a (createHeaderIters_l w (a_mode a) pw ds t))
              | _ => []
              end
  | OHeaderTime pw ds =>
      if negb (set_isComplete ds) then [mkLine SDebug Dataheader_h 591 (set_fields ds); mkLine SError Api_h 405 []]
      else call_line 408 [opt_num (s_n1 ds); opt_num (s_n2 ds)]
           :: match a_state a with
              | EMPTY_FILE_SELECTED => time_lines ds
              | DECRYPTED => api_line SVerbose 681 (set_fields ds) :: time_lines ds
              | _ => []
              end
  | OList dir => call_line 340 [Txt dir] :: match a_state a with INIT => fst (getRelevantFileNames_l w f (a_mode a) dir) | _ => [] end
  | OCreate p => call_line 346 [Txt p] :: match a_state a with INIT => createFile_lines w f p | _ => [] end
  | OSelect p => call_line 353 [Txt p] :: match a_state a with INIT => fst (selectFile_l w a f p) | _ => [] end
  | OIsEmpty => [call_line 359 []]
  | OUnselect =>
      call_line 365 [] :: match a_state a with
                          | FILE_SELECTED => unselect_lines 422 a
                          | EMPTY_FILE_SELECTED => unselect_lines 427 a
                          | _ => []
                          end
  | ODelete =>
      call_line 371 [] :: match a_state a with
                          | FILE_SELECTED => delete_lines w 396 422 a f
                          | EMPTY_FILE_SELECTED => delete_lines w 401 427 a f
                          | _ => []
                          end
  | OContent => call_line 377 [] :: match a_state a with FILE_SELECTED => fst (getFileContent_l w a f) | _ => [] end
  | OVerify pw t => call_line 387 [Num t] :: match a_state a with FILE_SELECTED => fst (verifyPassword_l w a pw t) | _ => [] end
  | ODecrypt => call_line 423 [] :: match a_state a with PASSWORD_VERIFIED => fst (getDecryptedData_l w a f) | _ => [] end
  | OGetData => call_line 430 [] :: match a_state a with DECRYPTED => fileData_lines a | _ => [] end
  | OSalt => call_line 415 [] :: match a_state a with DECRYPTED => fst (changeSalt_l w a) | _ => [] end
  | OEncrypt x => call_line 437 [] :: match a_state a with DECRYPTED => fst (encryptData_l w a x) | _ => [] end
  | OWrite => call_line 444 [] :: match a_state a with ENCRYPTED => writeToFile_lines w a f | _ => [] end
  | OWriteTo p => call_line 449 [Txt p] :: match a_state a with ENCRYPTED => writeToPath_lines w a f p | _ => [] end
  end.

(** ** PwFunc::isPasswordValid: pwfunc.cpp 8-38 (21, 29); [+password[i]] is the code of a signed char *)
Definition password_lines (pw : bytes) : list line :=
  match isPasswordValid pw with
  | Ret PwOk => []
  | Ret (PwCharInvalid c) => [mkLine SWarning Pwfunc_cpp 21 [Txt [c]; if b2n c <? 128 then Num (b2n c) else Minus (256 - b2n c)]]
  | Ret PwTooShort => [mkLine SWarning Pwfunc_cpp 29 [Num (lenN pw); Num MIN_PASS_LEN]]
  | _ => []                                                                (* before the undefined step nothing is written *)
  end.
