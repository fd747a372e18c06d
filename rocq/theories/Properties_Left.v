(** Property C103: what stays in memory that is given back. *)
From Coq Require Import Strings.String.
From Verif Require Import Base BytesModel MiscModel HeaderModel Toy FileModel ApiModel ApiSpec HeapModel HeapSpec HeapSpec2 HeapFacts2 LifeModel LifeSpec LifeFacts9
  Properties_Header Properties_File Properties_Api.
Open Scope N_scope.
Open Scope list_scope.

(** every array that a program with [Bytes] objects gives back still has the content of the object in it, whichever way the object came to its end *)
Theorem C103_left : forall ops vs rs, vrun v_init ops = Some (vs, rs) ->
  exists s, hrun hs_init ops = Ret (s, rs) /\ Forall2 left_over (h_freed (hs_heap s)) (given_up v_init ops []).
Proof. exact heap_left. Qed.
Print Assumptions C103_left.
(** setBytes with fewer bytes before the end of the object overwrites only these *)
Theorem C103_tail : forall ops vs rs x v l, vrun v_init ops = Some (vs, rs) -> vs x = Some v -> v_own v = true -> lenN l <= getLen (v_val v) ->
  exists s c r, hrun hs_init (ops ++ [HSet x l; HDestroy x]) = Ret (s, rs ++ [Ret HVoid; Ret HVoid]) /\ h_freed (hs_heap s) = c :: r /\
    takeN (getLen (v_val v)) c = map Some (l ++ dropN (lenN l) (bdata (v_val v))).
Proof. exact heap_tail. Qed.
Print Assumptions C103_tail.
(** logout, the destructor, a password accepted and a password set: the password hash that the API object had is left in memory, whatever comes after it *)
Theorem C103_key : forall lg f ls f1 rs d x a l rest m f2 r e, no_moves ls -> alone no_objects f ls = (f1, rs, Some d) -> d x = Some a ->
  alone no_objects f (ls ++ [l]) = (f2, rs ++ [Ret r], e) -> (l = LDestroy x \/ exists w o, l = LCall x w o /\ stores_key l (Ret r)) ->
  lend lg mem0 f (ls ++ l :: rest) = Some m -> In (a_key a) (m_left m).
Proof. exact key_left. Qed.
Print Assumptions C103_key.
(** no program with API objects overwrites a password hash, not even one that moves objects *)
Theorem C103_never : forall lg f ls1 ls2 m1 m2 p b, lend lg mem0 f ls1 = Some m1 -> lend lg mem0 f (ls1 ++ ls2) = Some m2 ->
  m_keys m1 p = Some b \/ In b (m_left m1) -> m_keys m2 p = Some b \/ In b (m_left m2).
Proof. exact nothing_wiped. Qed.
Print Assumptions C103_never.

(** the end of an object, an assignment, consumeBytes and addSize give back an array each; the array behind the moved object is given back with the new one *)
Definition C103_ops : list hop :=
  [HNew 0 4; HAdd 0 [x41; x42; x43]; HArray 1 [x51; x52]; HCopy 2 0; HAssign 2 1; HAddSize 1 3; HMove 3 0; HDestroy 0; HTake 2 [x07]; HSetLen 3 1; HAddByte 3 x60; HDestroy 3].
Example C103_left_ex : match vrun v_init C103_ops, hrun hs_init C103_ops with
  | Some (vs, rs), Ret (s, rs') => rs = rs' /\ map (fun v => bdata (v_val v)) (given_up v_init C103_ops []) = [[x41; x60]; [x51; x52]; [x51; x52]; [x41; x42; x43]] /\
      h_freed (hs_heap s) = [[Some x41; Some x60; Some x43; None]; [Some x51; Some x52]; [Some x51; Some x52]; [Some x41; Some x42; Some x43; None]]
  | _, _ => False end.
Proof. vm_compute. auto. Qed.
Example C103_tail_ex :
  match vrun v_init [HArray 0 [x41; x42; x43]] with Some (vs, _) => vs 0 = Some (mkV (mkBytes [x41; x42; x43] 3) 3 true) | None => False end /\
  match hrun hs_init [HArray 0 [x41; x42; x43]; HSet 0 [x00]; HDestroy 0] with Ret (s, _) => h_freed (hs_heap s) = [[Some x00; Some x42; Some x43]] | _ => False end.
Proof. vm_compute. auto. Qed.

Definition C103_calls (os : list op) : list lop := map (LCall 0 ex_world) os.
Definition C103_program : list lop := LNew 0 1 :: C103_calls [OSelect a_enc_path; OVerify ex_pw 0; ODecrypt].
Definition C103_key_of : option (list byte) :=
  match alone no_objects ex_files C103_program with (_, _, Some d) => match d 0 with Some a => Some (bdata (a_key a)) | None => None end | _ => None end.
Definition C103_left_after (ls : list lop) : option (list (list byte)) := match lend true mem0 ex_files ls with Some m => Some (map bdata (m_left m)) | None => None end.
(** the hash of the password is left after logout, after the end of the object, and after a new password *)
Example C103_key_ex : no_moves C103_program /\ match C103_key_of with
  | Some k => k <> [] /\
      C103_left_after C103_program = Some [[]] /\
      C103_left_after (C103_program ++ C103_calls [OLogout]) = Some [k; []] /\
      C103_left_after (C103_program ++ [LDestroy 0]) = Some [k; []] /\
      C103_left_after (C103_program ++ C103_calls [OHeader ex_pw2 ex_ds 0; OLogout; OIsEmpty] ++ [LNew 1 1; LMove 2 0; LDestroy 2]) <> None /\
      match C103_left_after (C103_program ++ C103_calls [OHeader ex_pw2 ex_ds 0; OLogout; OIsEmpty] ++ [LNew 1 1; LMove 2 0; LDestroy 2]) with
      | Some l => nth 3 l [] = [] /\ nth 2 l [] = k /\ nth 0 l [] = [] /\ List.length l = 4%nat | None => False end
  | None => False end.
Proof.
  split; [intros l H; cbn in H; repeat (destruct H as [<-|H]; [reflexivity|]); contradiction|].
  vm_compute. repeat split; discriminate.
Qed.
