(** What programs with [Bytes] objects should do, and the rules they have to keep for that.

    The objects are values (BytesModel.v); besides its value an object has the size of its array
    ([v_room], smaller than the capacity after consumeBytes) and the mark that it was not moved from. *)
From Verif Require Import Base BytesModel HeapModel.

Record vobj := mkV { v_val : Bytes; v_room : N; v_own : bool }.
Definition vstore := N -> option vobj.
Definition v_init : vstore := fun _ => None.
Definition vresult := option (outcome (vstore * hreply)).        (* None: the rules are broken *)

(** arrays have less than 2^63 bytes *)
Definition small (n : N) : bool := n <? 2 ^ 63.
Definition args_small (op : hop) : bool :=
  match op with
  | HArray _ l | HFill _ l | HAddRandom _ l | HSet _ l | HAdd _ l | HTake _ l | HRaw _ l | HRead _ l => small (lenN l)
  | _ => true
  end.
(** an object that was not moved from *)
Definition owned (s : vstore) (x : N) (k : vobj -> vresult) : vresult :=
  match s x with Some v => if v_own v then k v else None | None => None end.
Definition moved (v : vobj) : vobj := mkV (v_val v) (v_room v) false.
(** a new object *)
Definition make (s : vstore) (x : N) (r : outcome Bytes) : vresult :=
  match s x, r with
  | None, Ret b => if small (bmax b) then Some (Ret (put s x (Some (mkV b (bmax b) true)), HVoid)) else None
  | None, Throw e => Some (Throw e)
  | _, _ => None
  end.
(** a new content in the same array *)
Definition change (s : vstore) (x : N) (v : vobj) (r : outcome Bytes) (a : hreply) : vresult :=
  match r with
  | Ret b => if getLen b <=? v_room v then Some (Ret (put s x (Some (mkV b (v_room v) true)), a)) else None
  | Throw e => Some (Throw e)
  | _ => None
  end.
(** a new array *)
Definition renew (s : vstore) (x : N) (r : outcome Bytes) (room : N) : vresult :=
  match r with
  | Ret b => if small (bmax b) && small room then Some (Ret (put s x (Some (mkV b room true)), HVoid)) else None
  | Throw e => Some (Throw e)
  | _ => None
  end.

Definition vstep (s : vstore) (op : hop) : vresult :=
  if negb (args_small op) then None
  else
  match op with
  | HNew x n => make s x (newBytes n)
  | HWith x n => make s x (Ret (withU64 n))
  | HArray x l => make s x (Ret (fromArray l))
  | HCopy x y => owned s y (fun v => make s x (Ret (copyBytes (v_val v))))
  | HCopyExtra x y n => owned s y (fun v => make s x (Ret (copyExtra (v_val v) n)))
  | HMove x y =>
      owned s y (fun v => match s x with None => Some (Ret (put (put s y (Some (moved v))) x (Some v), HVoid)) | Some _ => None end)
  | HAssign x y =>
      owned s x (fun vx => owned s y (fun vy =>
        if x =? y then Some (Ret (s, HVoid)) else renew s x (Ret (copyBytes (v_val vy))) (bmax (v_val vy))))
  | HDestroy x => match s x with Some _ => Some (Ret (put s x None, HVoid)) | None => None end
  | HDealloc _ _ => None
  | HFill x l =>
      owned s x (fun v => if getLen (v_val v) + lenN l =? bmax (v_val v) then change s x v (fillrandom (fun _ => l) (v_val v)) HVoid else None)
  | HAddRandom x l => owned s x (fun v => change s x v (addrandom (fun _ => l) (lenN l) (v_val v)) HVoid)
  | HSet x l => owned s x (fun v => change s x v (setBytes l (v_val v)) HVoid)
  | HAdd x l => owned s x (fun v => change s x v (addBytes l (v_val v)) HVoid)
  | HAddByte x b => owned s x (fun v => change s x v (addByte b (v_val v)) HVoid)
  | HTake x l => owned s x (fun v => renew s x (consumeBytes l (v_val v)) (lenN l))
  | HConsume x y =>
      owned s x (fun vx => owned s y (fun vy =>
        if x =? y then None else renew (put s y (Some (moved vy))) x (consumeBytes (bdata (v_val vy)) (v_val vx)) (v_room vy)))
  | HSetLen x n => owned s x (fun v => change s x v (setLen n (v_val v)) HVoid)
  | HCopyTo y x =>
      owned s y (fun vy => owned s x (fun vx => if x =? y then None else change s x vx (copyToBytes (v_val vy) (v_val vx)) HVoid))
  | HAddCopyTo y x => owned s y (fun vy => owned s x (fun vx => change s x vx (addcopyToBytes (v_val vy) (v_val vx)) HVoid))
  | HSub z x st e => owned s x (fun v => make s z (copySubBytes st e (v_val v)))
  | HAddSize x n => owned s x (fun v => renew s x (Ret (addSize n (v_val v))) (bmax (v_val v) + n))
  | HPlus z x y => owned s x (fun vx => owned s y (fun vy => make s z (plusBytes (v_val vx) (v_val vy))))
  | HMinus z x y => owned s x (fun vx => owned s y (fun vy => make s z (minusBytes (v_val vx) (v_val vy))))
  | HRaw x l => owned s x (fun v => if lenN l <=? bmax (v_val v) then change s x v (setBytes l (v_val v)) HVoid else None)
  | HRead x l =>
      owned s x (fun v =>
        if bmax (v_val v) <? getLen (v_val v) + lenN l then Some (Ret (s, HBool false))
        else change s x v (addBytes l (v_val v)) (HBool true))
  | HGet x => owned s x (fun v => Some (Ret (s, HBytes (bdata (v_val v)))))
  | HEq x y => owned s x (fun vx => owned s y (fun vy => Some (Ret (s, HBool (eqBytes (v_val vx) (v_val vy))))))
  | HLong x => owned s x (fun v => match toLong (v_val v) with Ret n => Some (Ret (s, HNum n)) | Throw e => Some (Throw e) | _ => None end)
  end.
(** a program that keeps the rules: the objects at the end, and the replies *)
Fixpoint vrun (s : vstore) (ops : list hop) : option (vstore * list (outcome hreply)) :=
  match ops with
  | [] => Some (s, [])
  | op :: r =>
      match vstep s op with
      | Some (Ret (s', a)) => match vrun s' r with Some (sf, l) => Some (sf, Ret a :: l) | None => None end
      | Some (Throw e) => match vrun s r with Some (sf, l) => Some (sf, Throw e :: l) | None => None end
      | _ => None
      end
  end.

(** the objects in memory are the values, each in an array of its own, and there is no other array *)
Definition holds_value (h : heap) (o : obj) (v : vobj) : Prop :=
  o_max o = bmax (v_val v) /\ o_len o = getLen (v_val v) /\
  if v_own v
  then o_dealloc o = true /\ exists c, h_mem h (o_ptr o) = Some c /\ lenN c = v_room v /\ takeN (o_len o) c = map Some (bdata (v_val v))
  else o_dealloc o = false.
Definition represents (s : hstate) (vs : vstore) : Prop :=
  (forall x, match hs_objs s x, vs x with Some o, Some v => holds_value (hs_heap s) o v | None, None => True | _, _ => False end) /\
  (forall x y o o', hs_objs s x = Some o -> hs_objs s y = Some o' -> o_dealloc o = true -> o_dealloc o' = true -> o_ptr o = o_ptr o' -> x = y) /\
  (forall p, h_mem (hs_heap s) p <> None -> exists x o, hs_objs s x = Some o /\ o_dealloc o = true /\ o_ptr o = p).

(** operations that neither take over the array of another object nor one of the caller *)
Definition plain (op : hop) : bool := match op with HMove _ _ | HConsume _ _ | HTake _ _ | HDealloc _ _ => false | _ => true end.
(** the rules for these: names are used during the lifetime of the object, sizes are below 2^63, no copy of an object to
    itself, and the length is not raised without content *)
Definition alive (s : vstore) (x : N) (P : Bytes -> Prop) : Prop := match s x with Some v => P (v_val v) | None => False end.
Definition any (_ : Bytes) : Prop := True.
Definition proper (s : vstore) (op : hop) : Prop :=
  args_small op = true /\
  match op with
  | HNew x n => s x = None /\ (n < 2 ^ 63)%Z
  | HWith x n => s x = None /\ n < 2 ^ 63
  | HArray x l => s x = None
  | HCopy x y => s x = None /\ alive s y any
  | HCopyExtra x y n => s x = None /\ alive s y (fun b => bmax b + n < 2 ^ 63)
  | HAssign x y | HAddCopyTo x y | HEq x y => alive s x any /\ alive s y any
  | HAddRandom x l => alive s x any /\ lenN l < 2 ^ 31
  | HDestroy x | HSet x _ | HAdd x _ | HAddByte x _ | HRead x _ | HGet x | HLong x => alive s x any
  | HFill x l => alive s x (fun b => getLen b + lenN l = bmax b /\ lenN l < 2 ^ 31)
  | HSetLen x n => alive s x (fun b => n <= getLen b \/ bmax b < n)
  | HCopyTo y x => alive s x any /\ alive s y any /\ x <> y
  | HSub z x _ _ => s z = None /\ alive s x any
  | HAddSize x n => alive s x (fun b => bmax b + n < 2 ^ 63)
  | HPlus z x y | HMinus z x y => s z = None /\ alive s x any /\ alive s y any
  | HRaw x l => alive s x (fun b => lenN l <= bmax b)
  | HMove _ _ | HConsume _ _ | HTake _ _ | HDealloc _ _ => False
  end.
