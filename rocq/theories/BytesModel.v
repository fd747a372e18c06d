(** Value-level model of class [Bytes] (src/bytes.cpp, include/bytes.h).

    A [Bytes] object is its content and its declared capacity [max_len].
    Pointer effects (allocation, aliasing through moves, deletes) are the
    subject of HeapModel.v.  Simplifications, all recorded in DESIGN.md:
    - no allocation fails and no object has 2^63 bytes or more, so the
      [int64_t] constructor is only modelled with its sign check;
    - null pointers are not passed ([bytes == nullptr] checks omitted). *)
From Verif Require Import Base.

Record Bytes := mkBytes { bdata : bytes; bmax : N }.

(** getLen, getMaxLen, isEmpty: bytes.cpp 266-274, 295-298 *)
Definition getLen (b : Bytes) : N := lenN (bdata b).
Definition isEmpty (b : Bytes) : bool := getLen b =? 0.

(** Bytes(int64_t max_len): bytes.cpp 31-41 *)
Definition newBytes (max_len : Z) : outcome Bytes :=
  if (max_len <? 0)%Z then Throw InvalidArgument
  else Ret (mkBytes [] (Z.to_N max_len)).

(** withU64: bytes.cpp 23-29 *)
Definition withU64 (max_len : N) : Bytes := mkBytes [] max_len.

(** Bytes(unsigned char* bytes, size_t len), non-null pointer: bytes.cpp 43-52 *)
Definition fromArray (l : bytes) : Bytes := mkBytes l (lenN l).

(** Bytes(const Bytes& other, size_t extra_len): bytes.cpp 54-67 *)
Definition copyExtra (other : Bytes) (extra : N) : Bytes :=
  mkBytes (bdata other) (bmax other + extra).

(** copy constructor and operator=: bytes.cpp 70-83, 96-115 (the target takes the source's max_len) *)
Definition copyBytes (other : Bytes) : Bytes := mkBytes (bdata other) (bmax other).

(** RNG::fill_random_bytes: rng.cpp 40-48.  [rnd n] are the bytes that [RAND_bytes] delivers when asked for [n];
    a list of another length stands for a failure of [RAND_bytes].  The number is narrowed to [unsigned int] and then
    to [int]: from 2^31 on it is negative, or fewer bytes than asked for are written and the rest stays indeterminate. *)
Definition random_bytes (rnd : N -> bytes) (n : N) : outcome bytes :=
  if 2147483648 <=? n then Crash Undefined
  else if lenN (rnd n) =? n then Ret (rnd n) else Throw RuntimeError.

(** fillrandom: bytes.cpp 122-126 (noexcept) *)
Definition fillrandom (rnd : N -> bytes) (b : Bytes) : outcome Bytes :=
  noexcept (l <- random_bytes rnd (bmax b - getLen b) ;; Ret (mkBytes (bdata b ++ l) (bmax b))).

(** addrandom: bytes.cpp 128-136 (non-negative num) *)
Definition addrandom (rnd : N -> bytes) (num : N) (b : Bytes) : outcome Bytes :=
  if bmax b <? getLen b + num then Throw LengthError
  else l <- random_bytes rnd num ;; Ret (mkBytes (bdata b ++ l) (bmax b)).

(** setBytes: bytes.cpp 138-150 *)
Definition setBytes (l : bytes) (b : Bytes) : outcome Bytes :=
  if bmax b <? lenN l then Throw LengthError
  else Ret (mkBytes l (bmax b)).

(** addBytes: bytes.cpp 152-164 *)
Definition addBytes (l : bytes) (b : Bytes) : outcome Bytes :=
  if bmax b <? getLen b + lenN l then Throw LengthError
  else Ret (mkBytes (bdata b ++ l) (bmax b)).

(** consumeBytes (both overloads): bytes.cpp 166-191; content replaced, max_len kept *)
Definition consumeBytes (l : bytes) (b : Bytes) : outcome Bytes :=
  if bmax b <? lenN l then Throw LengthError
  else Ret (mkBytes l (bmax b)).

(** setLen: bytes.cpp 198-205.  Growing the length makes indeterminate bytes
    part of the content; that is a separate outcome here. *)
Definition setLen (n : N) (b : Bytes) : outcome Bytes :=
  if bmax b <? n then Throw LengthError
  else if n <=? getLen b then Ret (mkBytes (takeN n (bdata b)) (bmax b))
  else Crash Undefined.

(** copyToBytes: bytes.cpp 220-228 (returns the new target) *)
Definition copyToBytes (this b : Bytes) : outcome Bytes :=
  if bmax b <? getLen this then Throw LengthError
  else Ret (mkBytes (bdata this) (bmax b)).

(** addcopyToBytes (both overloads): bytes.cpp 230-248 (returns the new target) *)
Definition addcopyToBytes (this b : Bytes) : outcome Bytes :=
  if bmax b <? getLen this + getLen b then Throw LengthError
  else Ret (mkBytes (bdata b ++ bdata this) (bmax b)).

(** copySubBytes: bytes.cpp 250-264 *)
Definition copySubBytes (start end_ : N) (b : Bytes) : outcome Bytes :=
  if end_ <? start then Throw InvalidArgument
  else if getLen b <? end_ then Throw LengthError
  else Ret (mkBytes (sliceN start end_ (bdata b)) (end_ - start)).

(** addSize: bytes.cpp 276-283 *)
Definition addSize (n : N) (b : Bytes) : Bytes := mkBytes (bdata b) (bmax b + n).

(** addByte: bytes.cpp 285-293 *)
Definition addByte (x : byte) (b : Bytes) : outcome Bytes :=
  if bmax b <=? getLen b then Throw LengthError
  else Ret (mkBytes (bdata b ++ [x]) (bmax b)).

(** operator==, !=: bytes.cpp 300-310 *)
Definition eqBytes (a b : Bytes) : bool :=
  if getLen a =? getLen b then eqb_bytes (bdata a) (bdata b) else false.

(** elementwise sum and difference mod 256 of two arrays of the same length *)
Definition addb (x y : byte) : byte := n2b (b2n x + b2n y).
Definition subb (x y : byte) : byte := n2b (b2n x + 256 - b2n y).
Fixpoint zipb (f : byte -> byte -> byte) (x y : bytes) : bytes :=
  match x, y with
  | a :: x', b :: y' => f a b :: zipb f x' y'
  | _, _ => []
  end.

(** operator+: bytes.cpp 312-324 *)
Definition plusBytes (a b : Bytes) : outcome Bytes :=
  if getLen a =? getLen b then Ret (mkBytes (zipb addb (bdata a) (bdata b)) (bmax a))
  else Throw LengthError.

(** operator-: bytes.cpp 326-338 *)
Definition minusBytes (a b : Bytes) : outcome Bytes :=
  if getLen a =? getLen b then Ret (mkBytes (zipb subb (bdata a) (bdata b)) (bmax a))
  else Throw LengthError.

(** fromLong: bytes.cpp 8-21; the eight bytes of [l] from most to least significant *)
Definition be8 (l : N) : bytes :=
  map (fun i => n2b (l / 256 ^ i)) [7; 6; 5; 4; 3; 2; 1; 0].
Fixpoint fromLong_loop (addzeros : bool) (bs : bytes) (res : Bytes) : outcome Bytes :=
  match bs with
  | [] => Ret res
  | x :: r =>
      if negb (isEmpty res) || negb (b2n x =? 0) then
        res' <- addByte x res ;; fromLong_loop addzeros r res'
      else if addzeros then
        res' <- addByte x00 res ;; fromLong_loop addzeros r res'
      else fromLong_loop addzeros r res
  end.
Definition fromLong (l : N) (addzeros : bool) : outcome Bytes :=
  res <- newBytes 8 ;; fromLong_loop addzeros (be8 l) res.

(** toLong: bytes.cpp 354-367; little-endian host assumed (as in the memcpy there):
    [reversedBytes] is the content backwards, read as a little-endian number. *)
Fixpoint le_val (l : bytes) : N :=
  match l with [] => 0 | x :: r => b2n x + 256 * le_val r end.
Definition toLong (b : Bytes) : outcome N :=
  if 8 <? getLen b then Throw LengthError
  else Ret (le_val (rev (bdata b))).

(** toHex: bytes.cpp 340-352 *)
Definition hexChars : bytes :=
  [x30; x31; x32; x33; x34; x35; x36; x37; x38; x39; x41; x42; x43; x44; x45; x46].
Definition hexChar (n : N) : byte := nth (N.to_nat n) hexChars x00.
Definition toHex (b : Bytes) : bytes :=
  flat_map (fun x => [hexChar (b2n x / 16); hexChar (b2n x mod 16)]) (bdata b).

(** ** utility.cpp *)

(** stringToBytes, bytesToString: utility.cpp 21-32 (strings are byte lists here) *)
Definition stringToBytes (s : bytes) : Bytes := mkBytes s (lenN s).
Definition bytesToString (b : Bytes) : bytes := bdata b.

(** addStringToBytes: utility.cpp 34-42; [max_len - len] is an unsigned subtraction *)
Definition addStringToBytes (s : bytes) (b : Bytes) : outcome Bytes :=
  if sub64 (bmax b) (getLen b) <? lenN s then Throw RuntimeError
  else addBytes s b.

(** getLongLen: utility.cpp 44-55; the shift loop ends after at most 8 rounds for a 64-bit number *)
Fixpoint getLongLen_loop (fuel : nat) (tmp ret : N) : outcome N :=
  match fuel with
  | O => OutOfFuel
  | S f => if tmp =? 0 then Ret ret else getLongLen_loop f (tmp / 256) (ret + 1)
  end.
Definition getLongLen (num : N) : outcome N := getLongLen_loop 9 num 0.
