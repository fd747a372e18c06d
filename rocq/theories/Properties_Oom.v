(** Property C104: [Bytes] objects when memory runs out. *)
From Verif Require Import Base BytesModel HeapModel HeapModel2 HeapSpec HeapSpec2 HeapFacts3.

(** every operation but the copy assignment, withU64 and addSize fails with std::bad_alloc and leaves all objects as they were; no array is lost *)
Theorem C104_safe : forall ops vs rs, vrun_a v_init ops = Some (vs, rs) -> exists s, hrun_a hs_init ops = Ret (s, rs) /\ represents s vs.
Proof. exact heap_out_of_memory. Qed.
Print Assumptions C104_safe.
(** after a failed copy assignment no program can end the life of all objects *)
Theorem C104_lost : forall ops vs rs x y vx vy rest s rs', vrun_a v_init ops = Some (vs, rs) -> vs x = Some vx -> v_own vx = true -> vs y = Some vy -> x <> y ->
  forallb (fun o => no_hand_over (fst o)) rest = true -> hrun_a hs_init (ops ++ (HAssign x y, false) :: rest) = Ret (s, rs') -> exists z, hs_objs s z <> None.
Proof. exact assign_lost. Qed.
Print Assumptions C104_lost.
(** destroying the object, reading it, and assigning to it once more are undefined *)
Theorem C104_then : forall ops vs rs x y vx vy op ok, vrun_a v_init ops = Some (vs, rs) -> vs x = Some vx -> v_own vx = true -> vs y = Some vy -> x <> y ->
  match op with HDestroy z | HGet z | HTake z [] => z = x | HAssign z z' => z = x /\ z' = y | HCopy z' z => z = x /\ vs z' = None /\ ok = true | _ => False end ->
  hrun_a hs_init (ops ++ [(HAssign x y, false); (op, ok)]) = Crash Undefined.
Proof. exact assign_then. Qed.
Print Assumptions C104_then.
(** withU64 and addSize end the program *)
Theorem C104_ends : forall ops vs rs op, vrun_a v_init ops = Some (vs, rs) ->
  match op with HWith x _ => vs x = None | HAddSize x _ => vs x <> None | _ => False end ->
  hrun_a hs_init (ops ++ [(op, false)]) = Crash Terminate.
Proof. exact no_memory_ends. Qed.
Print Assumptions C104_ends.

(** memory runs out four times, once where nothing is allocated and once where the arguments are refused first *)
Definition C104_ops : list (hop * bool) :=
  [(HNew 0 4, true); (HAdd 0 [x41; x42], false); (HNew 1 4, false); (HCopy 1 0, false); (HCopy 1 0, true); (HNew 2 (-1), false); (HPlus 2 0 1, false); (HSub 2 0 0 3, false);
   (HSub 2 0 0 1, false); (HAssign 0 0, false); (HPlus 2 0 1, true); (HGet 2, false)].
Example C104_safe_ex : match vrun_a v_init C104_ops with
  | Some (vs, rs) => rs = [Ret HVoid; Ret HVoid; Throw OtherExn; Throw OtherExn; Ret HVoid; Throw InvalidArgument; Throw OtherExn; Throw LengthError; Throw OtherExn; Ret HVoid; Ret HVoid; Ret (HBytes [x82; x84])] /\
      vs 0 = Some (mkV (mkBytes [x41; x42] 4) 4 true) /\ vs 1 = vs 0 /\ vs 3 = None
  | None => False end.
Proof. vm_compute. auto. Qed.
(** a program goes on after the failed assignment as long as it leaves the object alone *)
Example C104_lost_ex : match hrun_a hs_init (C104_ops ++ [(HAssign 0 1, false); (HDestroy 1, true); (HDestroy 2, true); (HNew 1 7, true); (HDestroy 1, true)]) with
  | Ret (s, rs) => hs_objs s 0 = Some (mkObj 0 4 2 true) /\ hs_objs s 1 = None /\ hs_objs s 2 = None /\ nth 12 rs (Ret HVoid) = Throw OtherExn /\ h_mem (hs_heap s) 0 = None
  | _ => False end.
Proof. vm_compute. repeat split. Qed.
Example C104_then_ex :
  hrun_a hs_init (C104_ops ++ [(HAssign 0 1, false); (HDestroy 0, true)]) = Crash Undefined /\ hrun_a hs_init (C104_ops ++ [(HAssign 0 1, false); (HAssign 0 1, true)]) = Crash Undefined /\
  hrun_a hs_init (C104_ops ++ [(HAssign 0 1, false); (HCopy 3 0, true)]) = Crash Undefined.
Proof. vm_compute. auto. Qed.
Example C104_ends_ex : hrun_a hs_init (C104_ops ++ [(HWith 3 1, false)]) = Crash Terminate /\ hrun_a hs_init (C104_ops ++ [(HAddSize 0 1, false)]) = Crash Terminate.
Proof. vm_compute. auto. Qed.
