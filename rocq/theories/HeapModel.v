(** Pointer-level model of class [Bytes]: src/bytes.cpp, include/bytes.h.

    A program is a list of operations on named objects.  Memory is a map from addresses of allocated
    arrays to their cells; a cell is [None] until something is written to it.  An address is never given out
    twice, so using an array after its deletion is visible.  The outcome [Crash Undefined] stands for an access
    outside of an array or to a deleted one, for deleting an array twice, for an overlapping memcpy, for using
    an indeterminate byte in a computation and for using an object outside of its lifetime.
    Allocation does not fail; sums of sizes are 64-bit sums.  No public function leaves a null pointer in an
    object, so the null checks are omitted. *)
From Verif Require Import Base BytesModel.

Definition cells := list (option byte).
(** [h_freed]: what the arrays contained when they were given back, the last one first; nothing in the program can see it *)
Record heap := mkHeap { h_next : N; h_mem : N -> option cells; h_freed : list cells }.
(** bytes.h 14-17 *)
Record obj := mkObj { o_ptr : N; o_max : N; o_len : N; o_dealloc : bool }.
Definition objs := N -> option obj.
Record hstate := mkHS { hs_heap : heap; hs_objs : objs }.
Definition hs_init : hstate := mkHS (mkHeap 0 (fun _ => None) []) (fun _ => None).

Definition put {A} (f : N -> option A) (x : N) (v : option A) : N -> option A := fun k => if k =? x then v else f k.

(** new unsigned char[n] *)
Definition alloc (n : N) (h : heap) : heap * N :=
  (mkHeap (h_next h + 1) (put (h_mem h) (h_next h) (Some (repeat None (N.to_nat n)))) (h_freed h), h_next h).
(** a new array with a content, made by the caller *)
Definition alloc_with (l : bytes) (h : heap) : heap * N :=
  (mkHeap (h_next h + 1) (put (h_mem h) (h_next h) (Some (map Some l))) (h_freed h), h_next h).
(** delete[] *)
Definition free (p : N) (h : heap) : outcome heap :=
  match h_mem h p with Some c => Ret (mkHeap (h_next h) (put (h_mem h) p None) (c :: h_freed h)) | None => Crash Undefined end.
(** the source and the target of memcpy *)
Definition load (p off n : N) (h : heap) : outcome cells :=
  match h_mem h p with
  | Some c => if off + n <=? lenN c then Ret (takeN n (dropN off c)) else Crash Undefined
  | None => Crash Undefined
  end.
Definition store (p off : N) (l : cells) (h : heap) : outcome heap :=
  match h_mem h p with
  | Some c =>
      if off + lenN l <=? lenN c
      then Ret (mkHeap (h_next h) (put (h_mem h) p (Some (takeN off c ++ l ++ dropN (off + lenN l) c))) (h_freed h))
      else Crash Undefined
  | None => Crash Undefined
  end.
(** bytes used in a computation *)
Fixpoint determinate (l : cells) : outcome bytes :=
  match l with
  | [] => Ret []
  | Some b :: r => t <- determinate r ;; Ret (b :: t)
  | None :: _ => Crash Undefined
  end.

Inductive hop :=
| HNew (x : N) (n : Z)                (* Bytes x(n) *)
| HWith (x n : N)                     (* Bytes x = Bytes::withU64(n) *)
| HArray (x : N) (l : bytes)          (* Bytes x(array, len) with a new array *)
| HCopy (x y : N)                     (* Bytes x(y) *)
| HCopyExtra (x y n : N)              (* Bytes x(y, n) *)
| HMove (x y : N)                     (* Bytes x(std::move(y)) *)
| HAssign (x y : N)                   (* x = y, also x = std::move(y) *)
| HDestroy (x : N)
| HDealloc (x : N) (b : bool)         (* x.setDeallocate(b) *)
| HFill (x : N) (l : bytes)           (* x.fillrandom(); l: the random bytes *)
| HAddRandom (x : N) (l : bytes)      (* x.addrandom(len) *)
| HSet (x : N) (l : bytes)            (* x.setBytes(array, len) *)
| HAdd (x : N) (l : bytes)            (* x.addBytes(array, len) *)
| HAddByte (x : N) (b : byte)
| HTake (x : N) (l : bytes)           (* x.consumeBytes(array, len) with a new array *)
| HConsume (x y : N)                  (* x.consumeBytes(std::move(y)) *)
| HSetLen (x n : N)
| HCopyTo (y x : N)                   (* y.copyToBytes(x) *)
| HAddCopyTo (y x : N)                (* y.addcopyToBytes(x) *)
| HSub (z x s e : N)                  (* Bytes z = x.copySubBytes(s, e) *)
| HAddSize (x n : N)
| HPlus (z x y : N) | HMinus (z x y : N)   (* Bytes z = x + y, x - y *)
| HRaw (x : N) (l : bytes)            (* a digest written to x.getBytes(), then x.setLen: sha256.cpp 7-20 and the like *)
| HRead (x : N) (l : bytes)           (* l read from a stream to x.getBytes() + x.getLen(): utility.cpp 81-103 *)
| HGet (x : N)                        (* x.toHex(), os << x, bytesToString(x) *)
| HEq (x y : N)                       (* x == y *)
| HLong (x : N).                      (* x.toLong() *)
Inductive hreply := HVoid | HBytes (l : bytes) | HBool (b : bool) | HNum (n : N).

(** an object in its lifetime; a name that is free for a new object *)
Definition obj_of (s : hstate) (x : N) : outcome obj := match hs_objs s x with Some o => Ret o | None => Crash Undefined end.
Definition unused (s : hstate) (x : N) : outcome unit := match hs_objs s x with Some _ => Crash Undefined | None => Ret tt end.
Definition with_obj (s : hstate) (h : heap) (x : N) (o : obj) : hstate := mkHS h (put (hs_objs s) x (Some o)).

(** constructors that allocate [max] bytes and copy [l] to the front: bytes.cpp 31-41, 54-83, 250-264, 312-338 *)
Definition construct (s : hstate) (x max : N) (l : cells) : outcome (hstate * hreply) :=
  let '(h, p) := alloc max (hs_heap s) in
  h <- store p 0 l h ;; Ret (with_obj s h x (mkObj p max (lenN l) true), HVoid).
(** memcpy behind the content and the new length: bytes.cpp 128-136, 152-164, 230-248, 285-293 *)
Definition append (s : hstate) (x : N) (o : obj) (l : cells) : outcome (hstate * hreply) :=
  h <- store (o_ptr o) (o_len o) l (hs_heap s) ;;
  Ret (with_obj s h x (mkObj (o_ptr o) (o_max o) (w64 (o_len o + lenN l)) (o_dealloc o)), HVoid).

Definition hstep (s : hstate) (op : hop) : outcome (hstate * hreply) :=
  let m := hs_heap s in
  match op with
  | HNew x n =>                                                          (* 31-41 *)
      _ <- unused s x ;;
      if (n <? 0)%Z then Throw InvalidArgument else construct s x (Z.to_N n) []
  | HWith x n => _ <- unused s x ;; construct s x n []                  (* 23-29 *)
  | HArray x l =>                                                        (* 43-52 *)
      _ <- unused s x ;;
      let '(h, p) := alloc_with l m in Ret (with_obj s h x (mkObj p (lenN l) (lenN l) true), HVoid)
  | HCopy x y =>                                                         (* 70-83 *)
      _ <- unused s x ;; o <- obj_of s y ;;
      c <- load (o_ptr o) 0 (o_len o) m ;; construct s x (o_max o) c
  | HCopyExtra x y n =>                                                  (* 54-67 *)
      _ <- unused s x ;; o <- obj_of s y ;;
      c <- load (o_ptr o) 0 (o_len o) m ;; construct s x (w64 (o_max o + n)) c
  | HMove x y =>                                                         (* 85-94 *)
      _ <- unused s x ;; o <- obj_of s y ;;
      Ret (with_obj (with_obj s m y (mkObj (o_ptr o) (o_max o) (o_len o) false)) m x (mkObj (o_ptr o) (o_max o) (o_len o) true), HVoid)
  | HAssign x y =>                                                       (* 96-115; the flag is kept *)
      ox <- obj_of s x ;; oy <- obj_of s y ;;
      if x =? y then Ret (s, HVoid)
      else
        h <- free (o_ptr ox) m ;;
        let '(h, p) := alloc (o_max oy) h in
        c <- load (o_ptr oy) 0 (o_len oy) h ;;
        h <- store p 0 c h ;;
        Ret (with_obj s h x (mkObj p (o_max oy) (o_len oy) (o_dealloc ox)), HVoid)
  | HDestroy x =>                                                        (* bytes.h 59-64 *)
      o <- obj_of s x ;;
      h <- (if o_dealloc o then free (o_ptr o) m else Ret m) ;;
      Ret (mkHS h (put (hs_objs s) x None), HVoid)
  | HDealloc x b =>                                                      (* 117-120 *)
      o <- obj_of s x ;; Ret (with_obj s m x (mkObj (o_ptr o) (o_max o) (o_len o) b), HVoid)
  | HFill x l =>                                                         (* 122-126 *)
      o <- obj_of s x ;;
      if negb (lenN l =? sub64 (o_max o) (o_len o)) || (2147483648 <=? lenN l) then Crash Undefined
      else
        h <- store (o_ptr o) (o_len o) (map Some l) m ;;
        Ret (with_obj s h x (mkObj (o_ptr o) (o_max o) (o_max o) (o_dealloc o)), HVoid)
  | HAddRandom x l =>                                                    (* 128-136 *)
      o <- obj_of s x ;;
      if o_max o <? w64 (o_len o + lenN l) then Throw LengthError
      else if 2147483648 <=? lenN l then Crash Undefined else append s x o (map Some l)
  | HSet x l =>                                                          (* 138-150 *)
      o <- obj_of s x ;;
      if o_max o <? lenN l then Throw LengthError
      else
        h <- store (o_ptr o) 0 (map Some l) m ;;
        Ret (with_obj s h x (mkObj (o_ptr o) (o_max o) (lenN l) (o_dealloc o)), HVoid)
  | HAdd x l =>                                                          (* 152-164 *)
      o <- obj_of s x ;;
      if o_max o <? w64 (o_len o + lenN l) then Throw LengthError else append s x o (map Some l)
  | HAddByte x b =>                                                      (* 285-293 *)
      o <- obj_of s x ;;
      if o_max o <=? o_len o then Throw LengthError else append s x o [Some b]
  | HTake x l =>                                                         (* 166-179; max_len is kept *)
      o <- obj_of s x ;;
      if o_max o <? lenN l then Throw LengthError
      else
        let '(h, p) := alloc_with l m in
        h <- free (o_ptr o) h ;;
        Ret (with_obj s h x (mkObj p (o_max o) (lenN l) (o_dealloc o)), HVoid)
  | HConsume x y =>                                                      (* 181-191 *)
      ox <- obj_of s x ;; oy <- obj_of s y ;;
      if o_max ox <? o_len oy then Throw LengthError
      else
        h <- free (o_ptr ox) m ;;
        let s1 := with_obj s h x (mkObj (o_ptr oy) (o_max ox) (o_len oy) (o_dealloc ox)) in
        oy' <- obj_of s1 y ;;
        Ret (with_obj s1 h y (mkObj (o_ptr oy') (o_max oy') (o_len oy') false), HVoid)
  | HSetLen x n =>                                                       (* 198-205 *)
      o <- obj_of s x ;;
      if o_max o <? n then Throw LengthError
      else Ret (with_obj s m x (mkObj (o_ptr o) (o_max o) n (o_dealloc o)), HVoid)
  | HCopyTo y x =>                                                       (* 220-228 *)
      oy <- obj_of s y ;; ox <- obj_of s x ;;
      if o_max ox <? o_len oy then Throw LengthError
      else if o_ptr oy =? o_ptr ox then Crash Undefined                  (* memcpy to the same place *)
      else
        c <- load (o_ptr oy) 0 (o_len oy) m ;; h <- store (o_ptr ox) 0 c m ;;
        Ret (with_obj s h x (mkObj (o_ptr ox) (o_max ox) (o_len oy) (o_dealloc ox)), HVoid)
  | HAddCopyTo y x =>                                                    (* 230-248 *)
      oy <- obj_of s y ;; ox <- obj_of s x ;;
      if o_max ox <? w64 (o_len oy + o_len ox) then Throw LengthError
      else if (o_ptr oy =? o_ptr ox) && (o_len ox <? o_len oy) then Crash Undefined   (* overlap *)
      else c <- load (o_ptr oy) 0 (o_len oy) m ;; append s x ox c
  | HSub z x st e =>                                                     (* 250-264 *)
      _ <- unused s z ;; o <- obj_of s x ;;
      if e <? st then Throw InvalidArgument
      else if o_len o <? e then Throw LengthError
      else c <- load (o_ptr o) st (e - st) m ;; construct s z (e - st) c
  | HAddSize x n =>                                                      (* 276-283 *)
      o <- obj_of s x ;;
      let max := w64 (o_max o + n) in
      let '(h, p) := alloc max m in
      c <- load (o_ptr o) 0 (o_len o) h ;; h <- store p 0 c h ;; h <- free (o_ptr o) h ;;
      Ret (with_obj s h x (mkObj p max (o_len o) (o_dealloc o)), HVoid)
  | HPlus z x y | HMinus z x y =>                                        (* 312-338 *)
      _ <- unused s z ;; ox <- obj_of s x ;; oy <- obj_of s y ;;
      if negb (o_len ox =? o_len oy) then Throw LengthError
      else
        c1 <- load (o_ptr ox) 0 (o_len ox) m ;; c2 <- load (o_ptr oy) 0 (o_len oy) m ;;
        b1 <- determinate c1 ;; b2 <- determinate c2 ;;
        construct s z (o_max ox) (map Some (zipb (match op with HPlus _ _ _ => addb | _ => subb end) b1 b2))
  | HRaw x l =>        (* setLen throws after the array was written; the digest functions only do this to a new object *)
      o <- obj_of s x ;;
      h <- store (o_ptr o) 0 (map Some l) m ;;
      if o_max o <? lenN l then Throw LengthError
      else Ret (with_obj s h x (mkObj (o_ptr o) (o_max o) (lenN l) (o_dealloc o)), HVoid)
  | HRead x l =>
      o <- obj_of s x ;;
      if sub64 (o_max o) (o_len o) <? lenN l then Ret (s, HBool false)
      else '(s', _) <- append s x o (map Some l) ;; Ret (s', HBool true)
  | HGet x => o <- obj_of s x ;; c <- load (o_ptr o) 0 (o_len o) m ;; b <- determinate c ;; Ret (s, HBytes b)
  | HEq x y =>                                                           (* 300-304 *)
      ox <- obj_of s x ;; oy <- obj_of s y ;;
      if negb (o_len ox =? o_len oy) then Ret (s, HBool false)
      else
        c1 <- load (o_ptr ox) 0 (o_len ox) m ;; c2 <- load (o_ptr oy) 0 (o_len oy) m ;;
        b1 <- determinate c1 ;; b2 <- determinate c2 ;; Ret (s, HBool (eqb_bytes b1 b2))
  | HLong x =>                                                           (* 354-367 *)
      o <- obj_of s x ;;
      if 8 <? o_len o then Throw LengthError
      else c <- load (o_ptr o) 0 (o_len o) m ;; b <- determinate c ;; Ret (s, HNum (le_val (rev b)))
  end.
(** a program: the state and the replies; an exception is caught by the caller and leaves the objects as they were *)
Fixpoint hrun (s : hstate) (ops : list hop) : outcome (hstate * list (outcome hreply)) :=
  match ops with
  | [] => Ret (s, [])
  | op :: r =>
      match hstep s op with
      | Ret (s', v) => '(sf, vs) <- hrun s' r ;; Ret (sf, Ret v :: vs)
      | Throw e => '(sf, vs) <- hrun s r ;; Ret (sf, Throw e :: vs)
      | Crash c => Crash c
      | OutOfFuel => OutOfFuel
      end
  end.
