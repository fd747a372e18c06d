(** What [Bytes] objects leave in memory that is given back, and the rules for programs that can run out of memory. *)
From Verif Require Import Base BytesModel HeapModel HeapModel2 HeapSpec.

(** the object whose array a successful operation gives back *)
Definition gives_up (s : vstore) (op : hop) : option vobj :=
  match
    match op with
    | HDestroy x | HTake x _ | HAddSize x _ => s x
    | HAssign x y | HConsume x y => if x =? y then None else s x
    | _ => None
    end
  with Some v => if v_own v then Some v else None | None => None end.
(** these objects, the last one first *)
Fixpoint given_up (s : vstore) (ops : list hop) (l : list vobj) : list vobj :=
  match ops with
  | [] => l
  | op :: r =>
      match vstep s op with
      | Some (Ret (s', _)) => given_up s' r (match gives_up s op with Some v => v :: l | None => l end)
      | _ => given_up s r l
      end
  end.
(** the array still begins with the content of the object *)
Definition left_over (c : cells) (v : vobj) : Prop := lenN c = v_room v /\ takeN (getLen (v_val v)) c = map Some (bdata (v_val v)).

(** ** Running out of memory.  Each operation comes with the answer whether an array could be had; [None]: the rules are broken.
    The rules exclude the copy assignment, withU64 and addSize without memory. *)
Definition vstep_a (ok : bool) (s : vstore) (op : hop) : vresult :=
  if ok then vstep s op
  else
    match op with
    | HAssign x y => if x =? y then vstep s op else None
    | HWith _ _ | HAddSize _ _ => None
    | HNew _ _ | HCopy _ _ | HCopyExtra _ _ _ | HSub _ _ _ _ | HPlus _ _ _ | HMinus _ _ _ =>
        match vstep s op with Some (Ret _) => Some (Throw OtherExn) | r => r end
    | _ => vstep s op
    end.
Fixpoint vrun_a (s : vstore) (ops : list (hop * bool)) : option (vstore * list (outcome hreply)) :=
  match ops with
  | [] => Some (s, [])
  | (op, ok) :: r =>
      match vstep_a ok s op with
      | Some (Ret (s', a)) => match vrun_a s' r with Some (sf, l) => Some (sf, Ret a :: l) | None => None end
      | Some (Throw e) => match vrun_a s r with Some (sf, l) => Some (sf, Throw e :: l) | None => None end
      | _ => None
      end
  end.
(** operations that do not hand an array on to an object that does not own one *)
Definition no_hand_over (op : hop) : bool := match op with HDealloc _ _ | HConsume _ _ => false | _ => true end.
