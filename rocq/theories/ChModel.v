(** Model of chain hash data and chain hash descriptions:
    src/format.cpp, include/format.h, src/chainhash_data.cpp, include/chainhash_data.h,
    src/chainhash_modes.cpp, include/chainhash_modes.h, include/base.h, src/hash_modes.cpp.

    A mode is the integer value of the enum (a byte read from a file is cast to it).
    [ChainHash] keeps a shared pointer to its data; here it keeps the value, and a change
    made through another copy of the pointer is [ch_mutate] below. *)
From Verif Require Import Base BytesModel CipherModel PwModel.
From Coq Require Import Strings.String.

(** ** Format: format.cpp 10-67 *)
(** isModeValid: chainhash_modes.cpp 56-59, settings.h 28 *)
Definition ch_mode_valid (mode : N) : bool := (1 <=? mode) && (mode <=? 5).
(** getFormatString: format.cpp 10-27 *)
Definition formatString (mode : N) : bytes :=
  match mode with
  | 1 => str ""
  | 2 => str "*B S"
  | 3 => str "8B SN"
  | 4 => str "8B SN *B S"
  | 5 => str "8B SN 8B A 8B B 8B C"
  | _ => str "error type"
  end.
(** calcNameLenList: format.cpp 29-46; name and length, 0 for a free length *)
Definition nameLens (mode : N) : list (bytes * N) :=
  match mode with
  | 1 => []
  | 2 => [(str "S", 0)]
  | 3 => [(str "SN", 8)]
  | 4 => [(str "SN", 8); (str "S", 0)]
  | 5 => [(str "SN", 8); (str "A", 8); (str "B", 8); (str "C", 8)]
  | _ => []
  end.
(** constructor: format.cpp 48-55; a Format is represented by its mode *)
Definition newFormat (mode : N) : outcome N :=
  if ch_mode_valid mode then Ret mode else Throw InvalidArgument.
(** operator==: format.cpp 64-67 *)
Definition format_eqb (a b : N) : bool := eqb_bytes (formatString a) (formatString b).

(** ** ChainHashData: chainhash_data.cpp *)
Record chd := mkChd { cd_mode : N; cd_block : Bytes; cd_size : N; cd_star : bool; cd_ind : N }.

(** calculateDatablockSize: chainhash_data.cpp 11-19 (unsigned char sum) *)
Definition datablockSize (mode : N) : N := fold_left (fun s nl => w8 (s + snd nl)) (nameLens mode) 0.
(** constructor: 21-26; datablock is Bytes{255} (chainhash_data.h 14) *)
Definition newChd (mode : N) : chd :=
  mkChd mode (mkBytes [] 255) (datablockSize mode)
    (match rev (nameLens mode) with [] => false | (_, l) :: _ => l =? 0 end) 0.
(** isComplete: chainhash_data.cpp 28-33 *)
Definition cd_complete (d : chd) : bool := cd_ind d =? lenN (nameLens (cd_mode d)).
(** isCompletedFormat: chainhash_data.cpp 35-38 *)
Definition cd_completedFormat (mode : N) (d : chd) : bool := format_eqb mode (cd_mode d) && cd_complete d.
(** getDataBlock: chainhash_data.cpp 45-53 *)
Definition getDataBlock (d : chd) : outcome Bytes :=
  if cd_complete d then Ret (copyBytes (cd_block d)) else Throw LogicError.
(** getPart: chainhash_data.cpp 55-68; [start_ind] is an unsigned char *)
Fixpoint getPart_loop (d : chd) (name : bytes) (i start_ind : N) (nls : list (bytes * N)) : outcome Bytes :=
  match nls with
  | [] => Throw InvalidArgument
  | (nm, len) :: r =>
      if eqb_bytes nm name && (i <? cd_ind d) then
        copySubBytes start_ind (if i + 1 <? cd_ind d then start_ind + len else getLen (cd_block d)) (cd_block d)
      else getPart_loop d name (i + 1) (w8 (start_ind + len)) r
  end.
Definition getPart (d : chd) (name : bytes) : outcome Bytes := getPart_loop d name 0 0 (nameLens (cd_mode d)).
(** getLen: chainhash_data.cpp 70-73 *)
Definition cd_len (d : chd) : N := w8 (getLen (cd_block d)).
(** addBytes: chainhash_data.cpp 75-100; the vector access at [name_len_ind] is out of range when the index
    is past the end, which isComplete excludes as long as the index never exceeds the size *)
Definition cd_addBytes (bd : build) (b : Bytes) (d : chd) : outcome chd :=
  if cd_complete d then Throw LogicError
  else
    match nth_error (nameLens (cd_mode d)) (N.to_nat (cd_ind d)) with
    | None => Crash Undefined
    | Some (_, len) =>
        if negb (len =? getLen b) && negb (len =? 0) then Throw InvalidArgument
        else
          match addcopyToBytes b (cd_block d) with
          | Ret blk =>
              assertC bd (cd_len (mkChd (cd_mode d) blk (cd_size d) (cd_star d) (cd_ind d)) <=? 255)
                (Ret (mkChd (cd_mode d) blk (cd_size d) (cd_star d) (w8 (cd_ind d + 1))))
          | Throw LengthError =>
              assertC bd (255 <? cd_len d + getLen b) (Throw LengthError)
          | Throw e => Throw e
          | Crash c => Crash c
          | OutOfFuel => OutOfFuel
          end
    end.
(** generateRandomData: chainhash_data.cpp 102-115; [rnd n] are n random bytes *)
Definition cd_generate (rnd : N -> bytes) (d : chd) : outcome chd :=
  if negb (isEmpty (cd_block d)) then Throw PointerThrown
  else
    blk <- (if cd_star d then fillrandom rnd (cd_block d) else addrandom rnd (cd_size d) (cd_block d)) ;;
    Ret (mkChd (cd_mode d) blk (cd_size d) (cd_star d) (w8 (lenN (nameLens (cd_mode d))))).
(** operator==: chainhash_data.cpp 117-123 *)
Definition cd_eqb (a b : chd) : bool :=
  if cd_complete a && cd_complete b then eqBytes (cd_block a) (cd_block b) else false.

(** ** ChainHash: chainhash_modes.h 39-174 *)
Record chainhash := mkCH { ch_mode : option N; ch_data : option chd; ch_iters : N; ch_val : bool }.
Definition MAX_ITERATIONS : N := 1000000000.                                  (* settings.h 38 *)

(** isValid: chainhash_modes.h 47-80 *)
Definition ch_check (mode : option N) (data : option chd) (iters : N) : bool :=
  match mode, data with
  | Some mo, Some d =>
      if negb ((0 <? iters) && (iters <=? MAX_ITERATIONS)) then false
      else if negb (cd_completedFormat mo d) then false
      else if 255 <? cd_len d then false
      else true
  | _, _ => false
  end.
Definition ch_revalidate (c : chainhash) : chainhash :=
  mkCH (ch_mode c) (ch_data c) (ch_iters c) (ch_check (ch_mode c) (ch_data c) (ch_iters c)).
(** default constructor: chainhash_modes.h 108 *)
Definition ch_default : chainhash := mkCH None None 0 false.
(** constructor: chainhash_modes.h 109-116; _setMode 87-94; a null data pointer is [None] *)
Definition newChainHash (mode iters : N) (data : option chd) : outcome chainhash :=
  if ch_mode_valid mode then Ret (ch_revalidate (mkCH (Some mode) data iters false))
  else Throw InvalidArgument.
(** public setters: chainhash_modes.h 119-133 *)
Definition ch_setIters (iters : N) (c : chainhash) : outcome chainhash :=
  Ret (ch_revalidate (mkCH (ch_mode c) (ch_data c) iters (ch_val c))).
Definition ch_setMode (mode : N) (c : chainhash) : outcome chainhash :=
  if ch_mode_valid mode then Ret (ch_revalidate (mkCH (Some mode) (ch_data c) (ch_iters c) (ch_val c)))
  else Throw InvalidArgument.
Definition ch_setData (data : option chd) (c : chainhash) : outcome chainhash :=
  Ret (ch_revalidate (mkCH (ch_mode c) data (ch_iters c) (ch_val c))).
(** getters: chainhash_modes.h 136-159; the value accesses behind the check cannot fail when val is set by isValid *)
Definition ch_getMode (c : chainhash) : outcome N :=
  if ch_val c then match ch_mode c with Some mo => Ret mo | None => Throw OtherExn end else Throw RuntimeError.
Definition ch_getData (c : chainhash) : outcome (option chd) :=
  if ch_val c then Ret (ch_data c) else Throw RuntimeError.
Definition ch_getIters (c : chainhash) : outcome N :=
  if ch_val c then Ret (ch_iters c) else Throw RuntimeError.
(** operator=: chainhash_modes.h 101-107 *)
Definition ch_assign (this ch : chainhash) : outcome chainhash :=
  mo <- ch_getMode ch ;;
  this1 <- (if ch_mode_valid mo then Ret (mkCH (Some mo) (ch_data this) (ch_iters this) (ch_val this)) else Throw InvalidArgument) ;;
  it <- ch_getIters ch ;;
  Ret (ch_revalidate (mkCH (ch_mode this1) (ch_data ch) it (ch_val this1))).
(** a change of the shared data object, made through another pointer: no revalidation *)
Definition ch_mutate (f : chd -> outcome chd) (c : chainhash) : chainhash :=
  match ch_data c with
  | Some d => match f d with Ret d' => mkCH (ch_mode c) (Some d') (ch_iters c) (ch_val c) | _ => c end
  | None => c
  end.

(** ** ChainHashTimed: chainhash_modes.h 178-312; [run_time] is uninitialised in a default
    constructed object ([None]); using it then is undefined behaviour *)
Record chtimed := mkCHT { ct_mode : option N; ct_data : option chd; ct_time : option N; ct_val : bool }.
Definition MAX_RUNTIME : N := 86400000.                                       (* settings.h 40 *)
(** isValid: chainhash_modes.h 186-219 *)
Definition ct_check (mode : option N) (data : option chd) (rt : option N) : outcome bool :=
  match mode, data with
  | Some mo, Some d =>
      match rt with
      | None => Crash Undefined
      | Some t =>
          Ret (if negb ((0 <? t) && (t <=? MAX_RUNTIME)) then false
               else if negb (cd_completedFormat mo d) then false
               else if 255 <? cd_len d then false
               else true)
      end
  | _, _ => Ret false
  end.
Definition ct_revalidate (c : chtimed) : outcome chtimed :=
  v <- ct_check (ct_mode c) (ct_data c) (ct_time c) ;; Ret (mkCHT (ct_mode c) (ct_data c) (ct_time c) v).
Definition ct_default : chtimed := mkCHT None None None false.
(** constructor: chainhash_modes.h 248-255 *)
Definition newChainHashTimed (mode rt : N) (data : option chd) : outcome chtimed :=
  if ch_mode_valid mode then ct_revalidate (mkCHT (Some mode) data (Some rt) false) else Throw InvalidArgument.
(** setters: chainhash_modes.h 258-272 *)
Definition ct_setTime (rt : N) (c : chtimed) : outcome chtimed :=
  ct_revalidate (mkCHT (ct_mode c) (ct_data c) (Some rt) (ct_val c)).
Definition ct_setMode (mode : N) (c : chtimed) : outcome chtimed :=
  if ch_mode_valid mode then ct_revalidate (mkCHT (Some mode) (ct_data c) (ct_time c) (ct_val c)) else Throw InvalidArgument.
Definition ct_setData (data : option chd) (c : chtimed) : outcome chtimed :=
  ct_revalidate (mkCHT (ct_mode c) data (ct_time c) (ct_val c)).
(** getters: chainhash_modes.h 275-298 *)
Definition ct_getMode (c : chtimed) : outcome N :=
  if ct_val c then match ct_mode c with Some mo => Ret mo | None => Throw OtherExn end else Throw RuntimeError.
Definition ct_getData (c : chtimed) : outcome (option chd) :=
  if ct_val c then Ret (ct_data c) else Throw RuntimeError.
Definition ct_getTime (c : chtimed) : outcome N :=
  if ct_val c then match ct_time c with Some t => Ret t | None => Crash Undefined end else Throw RuntimeError.
(** operator=: chainhash_modes.h 240-246 *)
Definition ct_assign (this ch : chtimed) : outcome chtimed :=
  mo <- ct_getMode ch ;;
  this1 <- (if ch_mode_valid mo then Ret (mkCHT (Some mo) (ct_data this) (ct_time this) (ct_val this)) else Throw InvalidArgument) ;;
  t <- ct_getTime ch ;;
  ct_revalidate (mkCHT (ct_mode this1) (ct_data ch) (Some t) (ct_val this1)).
(** a change of the shared data object *)
Definition ct_mutate (f : chd -> outcome chd) (c : chtimed) : chtimed :=
  match ct_data c with
  | Some d => match f d with Ret d' => mkCHT (ct_mode c) (Some d') (ct_time c) (ct_val c) | _ => c end
  | None => c
  end.

(** dereferencing the data pointer *)
Definition deref (d : option chd) : outcome chd :=
  match d with Some x => Ret x | None => Crash Undefined end.
Definition partOf (c : chainhash) (name : string) : outcome Bytes :=
  p <- ch_getData c ;; d <- deref p ;; getPart d (str name).
Definition partNum (c : chainhash) (name : string) : outcome N :=
  b <- partOf c name ;; toLong b.
Definition tpartOf (c : chtimed) (name : string) : outcome Bytes :=
  p <- ct_getData c ;; d <- deref p ;; getPart d (str name).
Definition tpartNum (c : chtimed) (name : string) : outcome N :=
  b <- tpartOf c name ;; toLong b.

Section Perform.
Variable h : hashfn.
Variable clk : nat -> N.

(** performChainHash on Bytes: chainhash_modes.cpp 61-93 *)
Definition performChainHash_b (c : chainhash) (data : Bytes) (timeout : N) : outcome chres :=
  mode <- ch_getMode c ;;
  match mode with
  | 1 => it <- ch_getIters c ;; chainhash_b h clk data it timeout
  | 2 => s <- partOf c "S" ;; it <- ch_getIters c ;;
         chainhashWithConstantSalt_b h clk data it (bytesToString s) timeout
  | 3 => n <- partNum c "SN" ;; it <- ch_getIters c ;;
         chainhashWithCountSalt_b h clk data it n timeout
  | 4 => n <- partNum c "SN" ;; s <- partOf c "S" ;; it <- ch_getIters c ;;
         chainhashWithCountAndConstantSalt_b h clk data it n (bytesToString s) timeout
  | 5 => n <- partNum c "SN" ;; x <- partNum c "A" ;; y <- partNum c "B" ;; z <- partNum c "C" ;; it <- ch_getIters c ;;
         chainhashWithQuadraticCountSalt_b h clk data it n x y z timeout
  | _ => Throw InvalidArgument
  end.
(** performChainHash on a string: chainhash_modes.cpp 95-127 *)
Definition performChainHash_s (c : chainhash) (data : bytes) (timeout : N) : outcome chres :=
  mode <- ch_getMode c ;;
  match mode with
  | 1 => it <- ch_getIters c ;; chainhash_s h clk data it timeout
  | 2 => s <- partOf c "S" ;; it <- ch_getIters c ;;
         chainhashWithConstantSalt_s h clk data it (bytesToString s) timeout
  | 3 => n <- partNum c "SN" ;; it <- ch_getIters c ;;
         chainhashWithCountSalt_s h clk data it n timeout
  | 4 => n <- partNum c "SN" ;; s <- partOf c "S" ;; it <- ch_getIters c ;;
         chainhashWithCountAndConstantSalt_s h clk data it n (bytesToString s) timeout
  | 5 => n <- partNum c "SN" ;; x <- partNum c "A" ;; y <- partNum c "B" ;; z <- partNum c "C" ;; it <- ch_getIters c ;;
         chainhashWithQuadraticCountSalt_s h clk data it n x y z timeout
  | _ => Throw InvalidArgument
  end.

(** the switch of the timed versions has no breaks: chainhash_modes.cpp 139-161, 176-198.
    [case_k] runs the code from case k on; [clks j] is the clock of the j-th timed call. *)
Variable clks : nat -> nat -> N.
Variable fuel : nat.

Section Switch.
Variable c : chtimed.
Variable t1 : nat -> N -> outcome (N * Bytes).                                (* normal *)
Variable t2 : nat -> N -> bytes -> outcome (N * Bytes).
Variable t3 : nat -> N -> N -> outcome (N * Bytes).
Variable t4 : nat -> N -> N -> bytes -> outcome (N * Bytes).
Variable t5 : nat -> N -> N -> N -> N -> N -> outcome (N * Bytes).

Definition timed_case5 (tr : N * Bytes) : outcome (N * Bytes) :=
  n <- tpartNum c "SN" ;; x <- tpartNum c "A" ;; y <- tpartNum c "B" ;; z <- tpartNum c "C" ;;
  rt <- ct_getTime c ;; _ <- t5 5%nat rt n x y z ;;
  Throw InvalidArgument.                                                      (* default: *)
Definition timed_case4 (tr : N * Bytes) : outcome (N * Bytes) :=
  n <- tpartNum c "SN" ;; s <- tpartOf c "S" ;; rt <- ct_getTime c ;;
  tr' <- t4 4%nat rt n (bytesToString s) ;; timed_case5 tr'.
Definition timed_case3 (tr : N * Bytes) : outcome (N * Bytes) :=
  n <- tpartNum c "SN" ;; rt <- ct_getTime c ;; tr' <- t3 3%nat rt n ;; timed_case4 tr'.
Definition timed_case2 (tr : N * Bytes) : outcome (N * Bytes) :=
  s <- tpartOf c "S" ;; rt <- ct_getTime c ;; tr' <- t2 2%nat rt (bytesToString s) ;; timed_case3 tr'.
Definition timed_case1 (tr : N * Bytes) : outcome (N * Bytes) :=
  rt <- ct_getTime c ;; tr' <- t1 1%nat rt ;; timed_case2 tr'.
(** TimedResult tr{} : 0 iterations, empty result *)
Definition timed_switch (mode : N) : outcome (N * Bytes) :=
  let tr := (0, mkBytes [] 0) in
  match mode with
  | 1 => timed_case1 tr | 2 => timed_case2 tr | 3 => timed_case3 tr
  | 4 => timed_case4 tr | 5 => timed_case5 tr | _ => Throw InvalidArgument
  end.
(** line 163 / 200: the result *)
Definition timed_perform : outcome (chainhash * Bytes) :=
  mode <- ct_getMode c ;;
  tr <- timed_switch mode ;;
  d <- ct_getData c ;;
  ch <- newChainHash mode (fst tr) d ;;
  Ret (ch, snd tr).
End Switch.

(** performChainHash(ChainHashTimed, Bytes): chainhash_modes.cpp 129-164 *)
Definition performTimed_b (c : chtimed) (data : Bytes) : outcome (chainhash * Bytes) :=
  timed_perform c
    (fun j rt => chainhashTimed_b h (clks j) fuel data rt)
    (fun j rt s => chainhashWithConstantSaltTimed_b h (clks j) fuel data rt s)
    (fun j rt n => chainhashWithCountSaltTimed_b h (clks j) fuel data rt n)
    (fun j rt n s => chainhashWithCountAndConstantSaltTimed_b h (clks j) fuel data rt n s)
    (fun j rt n x y z => chainhashWithQuadraticCountSaltTimed_b h (clks j) fuel data rt n x y z).
(** performChainHash(ChainHashTimed, string): chainhash_modes.cpp 166-201 *)
Definition performTimed_s (c : chtimed) (data : bytes) : outcome (chainhash * Bytes) :=
  timed_perform c
    (fun j rt => chainhashTimed_s h (clks j) fuel data rt)
    (fun j rt s => chainhashWithConstantSaltTimed_s h (clks j) fuel data rt s)
    (fun j rt n => chainhashWithCountSaltTimed_s h (clks j) fuel data rt n)
    (fun j rt n s => chainhashWithCountAndConstantSaltTimed_s h (clks j) fuel data rt n s)
    (fun j rt n x y z => chainhashWithQuadraticCountSaltTimed_s h (clks j) fuel data rt n x y z).
End Perform.

(** ** HashModes: hash_modes.cpp 12-31; [H] gives the three digest functions of OpenSSL *)
Record hashes := mkHashes { H256 : bytes -> bytes; H384 : bytes -> bytes; H512 : bytes -> bytes }.
Definition hash_mode_valid (mode : N) : bool := (1 <=? mode) && (mode <=? 3).
Definition getHash (H : hashes) (mode : N) : outcome hashfn :=
  match mode with
  | 1 => Ret (mkHash 32 (H256 H))
  | 2 => Ret (mkHash 48 (H384 H))
  | 3 => Ret (mkHash 64 (H512 H))
  | _ => Throw InvalidArgument
  end.
