(** Class [Bytes] when an array cannot be allocated: src/bytes.cpp.

    [new unsigned char[n]] throws std::bad_alloc ([OtherExn]).  Otherwise as in HeapModel; the arrays that the caller brings
    (HArray, HTake) exist already, and std::string does not run out of memory.  An exception can leave an object changed, so a step gives the
    state in any case. *)
From Verif Require Import Base BytesModel HeapModel.

Definition or_else (s : hstate) (r : outcome (hstate * hreply)) : hstate * outcome hreply :=
  match r with Ret (s', v) => (s', Ret v) | Throw e => (s, Throw e) | Crash c => (s, Crash c) | OutOfFuel => (s, OutOfFuel) end.

(** [ok]: whether the array can be had *)
Definition hstep_a (ok : bool) (s : hstate) (op : hop) : hstate * outcome hreply :=
  if ok then or_else s (hstep s op)
  else
    match op with
    | HNew x n => (s, _ <- unused s x ;; if (n <? 0)%Z then Throw InvalidArgument else Throw OtherExn)                (* 31-41 *)
    | HWith x _ => (s, noexcept (_ <- unused s x ;; Throw OtherExn))                                                 (* 23-29: noexcept *)
    | HCopy x y | HCopyExtra x y _ => (s, _ <- unused s x ;; _ <- obj_of s y ;; Throw OtherExn)                       (* 54-83 *)
    | HAssign x y =>                                                                                                 (* 96-115 *)
        match (ox <- obj_of s x ;; oy <- obj_of s y ;; Ret (ox, oy)) with
        | Ret (ox, oy) =>
            if x =? y then (s, Ret HVoid)
            else match free (o_ptr ox) (hs_heap s) with      (* max_len is set, the old array is deleted, then new throws *)
                 | Ret h => (with_obj s h x (mkObj (o_ptr ox) (o_max oy) (o_len ox) (o_dealloc ox)), Throw OtherExn)
                 | Throw e => (s, Throw e) | Crash c => (s, Crash c) | OutOfFuel => (s, OutOfFuel)
                 end
        | Throw e => (s, Throw e) | Crash c => (s, Crash c) | OutOfFuel => (s, OutOfFuel)
        end
    | HSub z x st e =>                                                                                               (* 250-264 *)
        (s, _ <- unused s z ;; o <- obj_of s x ;;
            if e <? st then Throw InvalidArgument else if o_len o <? e then Throw LengthError else Throw OtherExn)
    | HAddSize x _ => (s, noexcept (_ <- obj_of s x ;; Throw OtherExn))                                              (* 276-283: noexcept *)
    | HPlus z x y | HMinus z x y =>                                                                                  (* 312-338 *)
        (s, _ <- unused s z ;; ox <- obj_of s x ;; oy <- obj_of s y ;;
            if negb (o_len ox =? o_len oy) then Throw LengthError else Throw OtherExn)
    | _ => or_else s (hstep s op)                            (* no array is allocated *)
    end.
Fixpoint hrun_a (s : hstate) (ops : list (hop * bool)) : outcome (hstate * list (outcome hreply)) :=
  match ops with
  | [] => Ret (s, [])
  | (op, ok) :: r =>
      let '(s', v) := hstep_a ok s op in
      match v with
      | Crash c => Crash c
      | OutOfFuel => OutOfFuel
      | v => '(sf, vs) <- hrun_a s' r ;; Ret (sf, v :: vs)
      end
  end.
