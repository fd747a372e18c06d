(** Property C49: memory safety of programs with [Bytes] objects. *)
From Verif Require Import Base BytesModel HeapModel HeapSpec HeapFacts.

(** a program that keeps the rules has no undefined behaviour, computes with the objects as with values, and at each point
    exactly the arrays of the living objects are allocated *)
Theorem C49_safe : forall ops vs rs, vrun v_init ops = Some (vs, rs) ->
  exists s, hrun hs_init ops = Ret (s, rs) /\ represents s vs.
Proof. exact heap_safe. Qed.
Print Assumptions C49_safe.
Theorem C49_no_leak : forall ops vs rs s, vrun v_init ops = Some (vs, rs) -> (forall x, vs x = None) ->
  hrun hs_init ops = Ret (s, rs) -> forall p, h_mem (hs_heap s) p = None.
Proof. exact heap_no_leak. Qed.
Print Assumptions C49_no_leak.
(** without moves and consumeBytes the rules are the ordinary ones: lifetimes, sizes, no self copy, no content-free growth *)
Theorem C49_plain : forall ops vs rs op, vrun v_init ops = Some (vs, rs) -> forallb plain ops = true ->
  proper vs op -> vstep vs op <> None.
Proof. exact heap_proper. Qed.
Print Assumptions C49_plain.
(** each of the other rules is needed: appending behind the array that was consumed *)
Theorem C49_consume_overflow : forall ops vs rs x v l, vrun v_init ops = Some (vs, rs) ->
  vs x = Some v -> v_own v = true -> lenN l < 2 ^ 63 ->
  getLen (v_val v) + lenN l <= bmax (v_val v) -> v_room v < getLen (v_val v) + lenN l ->
  hrun hs_init (ops ++ [HAdd x l]) = Crash Undefined.
Proof. exact overflow_lemma. Qed.
Print Assumptions C49_consume_overflow.
(** assigning to an object that was moved from *)
Theorem C49_move_assign : forall ops vs rs x y z vy vz, vrun v_init ops = Some (vs, rs) ->
  vs x = None -> vs y = Some vy -> v_own vy = true -> vs z = Some vz -> v_own vz = true -> y <> z ->
  hrun hs_init (ops ++ [HMove x y; HAssign y z; HDestroy x]) = Crash Undefined.
Proof. exact double_free_lemma. Qed.
Print Assumptions C49_move_assign.
(** moving from an object twice *)
Theorem C49_move_twice : forall ops vs rs x y z vy, vrun v_init ops = Some (vs, rs) ->
  vs x = None -> vs z = None -> x <> z -> vs y = Some vy -> v_own vy = true ->
  hrun hs_init (ops ++ [HMove x y; HMove z y; HDestroy x; HDestroy z]) = Crash Undefined.
Proof. exact two_moves_lemma. Qed.
Print Assumptions C49_move_twice.

(** a program with every way to make, fill, move and end objects *)
Definition C49_ops : list hop :=
  [HNew 0 4; HAdd 0 [x41; x42]; HAdd 0 [x43; x44; x45]; HAddByte 0 x43; HCopy 1 0; HFill 1 [xff]; HPlus 2 0 0; HAddSize 0 2; HAddCopyTo 1 0; HAddCopyTo 0 0;
   HArray 3 [x01; x02]; HConsume 1 3; HGet 1; HMove 4 0; HSub 5 4 1 3; HAssign 5 4; HEq 5 4; HTake 2 [x07]; HLong 1; HSetLen 4 2; HGet 4;
   HNew 6 (-1); HRead 5 [x00]; HRaw 5 [x30; x31]; HGet 5].
Definition C49_end : list hop := map HDestroy [0; 1; 2; 3; 4; 5].
Definition C49_replies : list (outcome hreply) :=
  [Ret HVoid; Ret HVoid; Throw LengthError; Ret HVoid; Ret HVoid; Ret HVoid; Ret HVoid; Ret HVoid; Throw LengthError; Ret HVoid;
   Ret HVoid; Ret HVoid; Ret (HBytes [x01; x02]); Ret HVoid; Ret HVoid; Ret HVoid; Ret (HBool true); Ret HVoid; Ret (HNum 258); Ret HVoid; Ret (HBytes [x41; x42]);
   Throw InvalidArgument; Ret (HBool false); Ret HVoid; Ret (HBytes [x30; x31])].
Example C49_ex : match vrun v_init C49_ops with
  | Some (vs, rs) => rs = C49_replies /\ vs 1 = Some (mkV (mkBytes [x01; x02] 4) 2 true) /\
      vs 0 = Some (mkV (mkBytes [x41; x42; x43; x41; x42; x43] 6) 6 false)
  | None => False end.
Proof. vm_compute. auto. Qed.
Example C49_ex_end : match vrun v_init (C49_ops ++ C49_end) with
  | Some (vs, _) => forallb (fun x => match vs x with None => true | Some _ => false end) [0; 1; 2; 3; 4; 5; 6] = true
  | None => False end.
Proof. vm_compute. reflexivity. Qed.
Example C49_ex_plain : match vrun v_init [HNew 0 4; HCopy 1 0; HAddSize 1 3] with
  | Some (vs, _) => proper vs (HAdd 1 [x01; x02; x03; x04; x05]) /\ match vstep vs (HAdd 1 [x01; x02; x03; x04; x05]) with Some (Ret (vs', _)) => vs' 1 = Some (mkV (mkBytes [x01; x02; x03; x04; x05] 7) 7 true) | _ => False end
  | None => False end.
Proof. vm_compute. auto. Qed.
(** 4 bytes of capacity, 2 of them allocated after consumeBytes *)
Example C49_ex_overflow :
  match vrun v_init [HNew 0 4; HArray 1 [x01; x02]; HConsume 0 1] with Some (vs, _) => vs 0 = Some (mkV (mkBytes [x01; x02] 4) 2 true) | None => False end /\
  hrun hs_init [HNew 0 4; HArray 1 [x01; x02]; HConsume 0 1; HAdd 0 [x03]] = Crash Undefined.
Proof. vm_compute. auto. Qed.
Example C49_ex_moves :
  hrun hs_init [HArray 0 [x01]; HArray 1 [x02]; HMove 2 0; HAssign 0 1; HDestroy 2] = Crash Undefined /\
  hrun hs_init [HArray 0 [x01]; HMove 1 0; HMove 2 0; HDestroy 1; HDestroy 2] = Crash Undefined.
Proof. vm_compute. auto. Qed.
