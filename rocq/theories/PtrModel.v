(** Bytes functions called with raw pointers and signed numbers, which [BytesModel] leaves out.
    Sources: src/bytes.cpp, src/rng.cpp.  A pointer is [None] if null, else [Some] of the array it points to. *)
From Coq Require Import ZArith.
From Verif Require Import Base BytesModel.
Open Scope N_scope.

(** [len] bytes read through a pointer: undefined behind the end of the array *)
Definition read_ptr (p : bytes) (len : N) : outcome bytes := if lenN p <? len then Crash Undefined else Ret (takeN len p).

(** Bytes(unsigned char* bytes, size_t len): bytes.cpp 43-52; the array becomes the object's *)
Definition newPtr (p : option bytes) (len : N) : outcome Bytes :=
  match p with None => Throw InvalidArgument | Some a => l <- read_ptr a len ;; Ret (mkBytes l len) end.
(** setBytes: bytes.cpp 138-150 *)
Definition setPtr (p : option bytes) (len : N) (b : Bytes) : outcome Bytes :=
  if bmax b <? len then Throw LengthError
  else match p with None => Throw InvalidArgument | Some a => l <- read_ptr a len ;; Ret (mkBytes l (bmax b)) end.
(** addBytes: bytes.cpp 152-164; the sum is a 64-bit sum *)
Definition addPtr (p : option bytes) (len : N) (b : Bytes) : outcome Bytes :=
  if bmax b <? w64 (getLen b + len) then Throw LengthError
  else match p with
       | None => Throw InvalidArgument
       | Some a => l <- read_ptr a len ;; if bmax b <? getLen b + len then Crash Undefined else Ret (mkBytes (bdata b ++ l) (bmax b))
       end.
(** consumeBytes: bytes.cpp 166-179 *)
Definition consumePtr (p : option bytes) (len : N) (b : Bytes) : outcome Bytes :=
  if bmax b <? len then Throw LengthError
  else match p with None => Throw InvalidArgument | Some a => l <- read_ptr a len ;; Ret (mkBytes l (bmax b)) end.
(** copyToArray: bytes.cpp 207-218; the array afterwards.  [len] is what the caller says, the array may be shorter *)
Definition copyToArray (b : Bytes) (p : option bytes) (len : N) : outcome bytes :=
  if len <? getLen b then Throw LengthError
  else match p with
       | None => Throw InvalidArgument
       | Some a => if lenN a <? getLen b then Crash Undefined else Ret (bdata b ++ dropN (getLen b) a)
       end.

(** RAND_bytes called with an [unsigned int] as its [int] argument; a negative number is undefined (see [random_bytes]) *)
Definition rand_int (rnd : N -> bytes) (num : N) : outcome bytes :=
  if (to_int32 num <? 0)%Z then Crash Undefined else if lenN (rnd num) =? num then Ret (rnd num) else Throw RuntimeError.
(** addrandom with its [int64_t] argument: bytes.cpp 128-136, rng.cpp 40-47.  The number is converted to size_t in the test, to
    [unsigned int] for the generator and to size_t for the new length. *)
Definition addrandomZ (rnd : N -> bytes) (num : Z) (b : Bytes) : outcome Bytes :=
  let u := Z.to_N (num mod 18446744073709551616) in
  if bmax b <? w64 (getLen b + u) then Throw LengthError
  else
    l <- rand_int rnd (w32 u) ;;
    if bmax b <? getLen b + lenN l then Crash Undefined                    (* written behind the array *)
    else
      let n := w64 (getLen b + u) in
      if lenN (bdata b ++ l) <? n then Crash Undefined                     (* indeterminate bytes become content *)
      else Ret (mkBytes (takeN n (bdata b ++ l)) (bmax b)).
(** fill_random_bytes(Bytes&, unsigned int): rng.cpp 49-60 *)
Definition fillRandomBytes (rnd : N -> bytes) (num : N) (b : Bytes) : outcome Bytes :=
  if bmax b <? num then Throw LogicError
  else l <- rand_int rnd num ;; if bmax b <? num then Throw LengthError else Ret (mkBytes l (bmax b)).
