(** Property C99: API objects side by side, moved and destroyed. *)
From Coq Require Import Strings.String.
From Verif Require Import Base BytesModel MiscModel PwModel HeaderModel Toy FileModel ApiModel ApiSpec LifeModel LifeSpec LifeFacts3 LifeFacts4 LifeFacts6 LifeFacts7 LifeFacts8
  Properties_Header Properties_File Properties_Api.
Open Scope N_scope.
Open Scope list_scope.

(** a program that moves no object: every call answers as on an object of its own, and no memory is used wrongly except by using an object that does not exist *)
Theorem C99_alone : forall lg f ls, no_moves ls -> lrun lg mem0 f ls = fst (alone no_objects f ls).
Proof. exact alone_run. Qed.
Print Assumptions C99_alone.
(** the object that was moved from cannot be called *)
Theorem C99_moved_from : forall lg f ls f1 rs d x y a l w o, no_moves ls -> alone no_objects f ls = (f1, rs, Some d) -> d y = Some a -> transfer d x y l ->
  ~ lacks_settings o -> lrun lg mem0 f (ls ++ [l; LCall y w o]) = (f1, rs ++ [Ret RVoid; Crash Undefined]).
Proof. exact moved_from_dead. Qed.
Print Assumptions C99_moved_from.
(** without a call, a move goes unnoticed *)
Theorem C99_unnoticed : forall lg f ls f1 rs d x y a l, no_moves ls -> alone no_objects f ls = (f1, rs, Some d) -> d y = Some a -> transfer d x y l ->
  lrun lg mem0 f (ls ++ [l; LDestroy y; LDestroy x]) = (f1, rs ++ [Ret RVoid; Ret RVoid; Ret RVoid]) /\
  lrun lg mem0 f (ls ++ [l; LDestroy x; LDestroy y]) = (f1, rs ++ [Ret RVoid; Ret RVoid; Ret RVoid]).
Proof. exact unnoticed. Qed.
Print Assumptions C99_unnoticed.
(** the new object does not outlive the old one *)
Theorem C99_orphan : forall lg f ls f1 rs d x y a l w o, no_moves ls -> alone no_objects f ls = (f1, rs, Some d) -> d y = Some a -> transfer d x y l ->
  needs_members (a_state a) o = true -> ~ lacks_settings o ->
  lrun lg mem0 f (ls ++ [l; LDestroy y; LCall x w o]) = (f1, rs ++ [Ret RVoid; Ret RVoid; Crash Undefined]).
Proof. exact orphan. Qed.
Print Assumptions C99_orphan.
(** a list of names that is not empty needs the object, too *)
Theorem C99_orphan_list : forall lg f ls f1 rs d x y a l w dir n ns, no_moves ls -> alone no_objects f ls = (f1, rs, Some d) -> d y = Some a -> transfer d x y l ->
  a_state a = INIT -> getAllEncFileNames w dir = Ret (inr (n :: ns)) ->
  lrun lg mem0 f (ls ++ [l; LDestroy y; LCall x w (OList dir)]) = (f1, rs ++ [Ret RVoid; Ret RVoid; Crash Undefined]).
Proof. exact orphan_list. Qed.
Print Assumptions C99_orphan_list.
(** all other calls are answered as before the move, whether the old object is still there or not *)
Theorem C99_answers : forall lg f ls f1 rs d x y a l w o f2 r e, no_moves ls -> alone no_objects f ls = (f1, rs, Some d) -> d y = Some a -> transfer d x y l ->
  needs_members (a_state a) o = false -> (a_state a = INIT -> forall dir n ns, o = OList dir -> getAllEncFileNames w dir <> Ret (inr (n :: ns))) ->
  alone no_objects f (ls ++ [LCall y w o]) = (f2, rs ++ [r], e) ->
  lrun lg mem0 f (ls ++ [l; LCall x w o]) = (f2, rs ++ [Ret RVoid; r]).
Proof. exact moved_answers. Qed.
Print Assumptions C99_answers.
Theorem C99_orphan_answers : forall lg f ls f1 rs d x y a l w o f2 r e, no_moves ls -> alone no_objects f ls = (f1, rs, Some d) -> d y = Some a -> transfer d x y l ->
  needs_members (a_state a) o = false -> (a_state a = INIT -> forall dir n ns, o = OList dir -> getAllEncFileNames w dir <> Ret (inr (n :: ns))) ->
  alone no_objects f (ls ++ [LCall y w o]) = (f2, rs ++ [r], e) ->
  lrun lg mem0 f (ls ++ [l; LDestroy y; LCall x w o]) = (f2, rs ++ [Ret RVoid; Ret RVoid; r]).
Proof. exact orphan_answers. Qed.
Print Assumptions C99_orphan_answers.
(** the new object stays for ever in the state in which it was moved: whatever is called on the two objects, the functions of other states fail *)
Theorem C99_stuck : forall lg f ls f1 rs d x y a l cs f2 rs2 w o, no_moves ls -> alone no_objects f ls = (f1, rs, Some d) -> d y = Some a -> transfer d x y l ->
  calls_of [x; y] cs -> lrun lg mem0 f (ls ++ l :: cs) = (f2, rs ++ Ret RVoid :: rs2) -> no_crash rs2 ->
  offered (a_state a) o = false -> ~ lacks_settings o ->
  lrun lg mem0 f (ls ++ l :: cs ++ [LCall x w o]) = (f2, rs ++ Ret RVoid :: rs2 ++ [Ret (RErr FAIL ERR_API_STATE_INVALID)]).
Proof. exact stuck. Qed.
Print Assumptions C99_stuck.
(** a password accepted, a password set or a logout after the move constructor: the array of the password hash is deleted twice *)
Theorem C99_double_free : forall lg f ls f1 rs d x y a cs f2 rs2, no_moves ls -> alone no_objects f ls = (f1, rs, Some d) -> d y = Some a -> d x = None ->
  calls_of [x; y] cs -> lrun lg mem0 f (ls ++ LMove x y :: cs) = (f2, rs ++ Ret RVoid :: rs2) -> no_crash rs2 ->
  (exists l r, In (l, r) (combine cs rs2) /\ stores_key l r) ->
  lrun lg mem0 f (ls ++ LMove x y :: cs ++ [LDestroy x]) = (f2, rs ++ Ret RVoid :: rs2 ++ [Crash Undefined]).
Proof. exact double_free. Qed.
Print Assumptions C99_double_free.
(** selecting a file through the new object selects it in the old one, which then works as if nothing had been moved *)
Theorem C99_revived : forall lg f ls f1 rs d x y a l w p cs f2 rs2 e, no_moves ls -> alone no_objects f ls = (f1, rs, Some d) -> d y = Some a -> transfer d x y l ->
  a_state a = INIT -> calls_of [y] cs ->
  alone no_objects f (ls ++ LCall y w (OSelect p) :: cs) = (f2, rs ++ Ret ROk :: rs2, e) ->
  lrun lg mem0 f (ls ++ l :: LCall x w (OSelect p) :: cs) = (f2, rs ++ Ret RVoid :: Ret ROk :: rs2).
Proof. exact revived. Qed.
Print Assumptions C99_revived.
(** a call of the new object that reads a member which the object had when it was moved is undefined: the old object has lost it *)
Theorem C99_lost : forall lg f ls f1 rs d x y a l w o, no_moves ls -> alone no_objects f ls = (f1, rs, Some d) -> d y = Some a -> transfer d x y l ->
  lost_members (a_state a) o = true ->
  lrun lg mem0 f (ls ++ [l; LCall x w o]) = (f1, rs ++ [Ret RVoid; Crash Undefined]).
Proof. exact lost_first. Qed.
Print Assumptions C99_lost.
(** unselectFile reads such a member only to log it *)
Theorem C99_lost_path : forall f ls f1 rs d x y a l w, no_moves ls -> alone no_objects f ls = (f1, rs, Some d) -> d y = Some a -> transfer d x y l ->
  a_state a = FILE_SELECTED \/ a_state a = EMPTY_FILE_SELECTED ->
  lrun true mem0 f (ls ++ [l; LCall x w OUnselect]) = (f1, rs ++ [Ret RVoid; Crash Undefined]).
Proof. exact unselect_logged. Qed.
Print Assumptions C99_lost_path.
(** logout through the new object, and unselectFile if nothing is logged, log out the old one, which then works as if nothing had been moved *)
Theorem C99_back_to_start : forall lg f ls f1 rs d x y a l w o cs f2 rs2 e r, no_moves ls -> alone no_objects f ls = (f1, rs, Some d) -> d y = Some a -> transfer d x y l ->
  goes_back lg (a_state a) o = true -> calls_of [y] cs ->
  alone no_objects f (ls ++ LCall y w o :: cs) = (f2, rs ++ r :: rs2, e) ->
  lrun lg mem0 f (ls ++ l :: LCall x w o :: cs) = (f2, rs ++ Ret RVoid :: r :: rs2).
Proof. exact back_to_start. Qed.
Print Assumptions C99_back_to_start.

Definition calls (x : N) (os : list op) : list lop := map (LCall x ex_world) os.
(** the state of an object after a program, if there is one *)
Definition state_after (ls : list lop) (x : N) : option state :=
  match alone no_objects ex_files ls with (_, _, Some d) => match d x with Some a => Some (a_state a) | None => None end | _ => None end.
Definition replies (ls : list lop) : list (outcome reply) := snd (lrun true mem0 ex_files ls).
Definition decrypted : outcome reply := Ret (RData (mkFD (Some 1) (Some ex_data))).

(** two objects work on the same file and one is destroyed in between; the third command makes an object with a mode that does not exist *)
Definition two_objects : list lop :=
  [LNew 0 1; LNew 1 1; LNew 2 7] ++ calls 0 [OSelect a_enc_path] ++ calls 1 [OSelect a_enc_path; OVerify ex_pw2 0] ++ calls 0 [OVerify ex_pw 0] ++ calls 1 [OIsEmpty]
  ++ [LDestroy 1] ++ calls 0 [ODecrypt; OLogout; OIsEmpty] ++ calls 1 [OIsEmpty].
Example C99_alone_ex : no_moves two_objects /\
  replies two_objects = [Ret RVoid; Ret RVoid; Throw InvalidArgument; Ret ROk; Ret ROk; Ret (RErr FAIL ERR_PASSWORD_INVALID); Ret ROk; Ret (RBool false); Ret RVoid;
    decrypted; Ret RVoid; Ret (RErr FAIL ERR_API_STATE_INVALID); Crash Undefined].
Proof. split; [intros l H; cbn in H; repeat (destruct H as [<-|H]; [reflexivity|]); contradiction|vm_compute; reflexivity]. Qed.

Definition one_object : list lop := LNew 0 1 :: calls 0 [OSelect a_enc_path; OVerify ex_pw 0].
Definition other_object : list lop := one_object ++ [LNew 1 1].
Example C99_one_object : no_moves one_object /\ no_moves other_object /\ state_after one_object 0 = Some PASSWORD_VERIFIED /\ state_after one_object 1 = None /\
  state_after other_object 0 = Some PASSWORD_VERIFIED /\ state_after other_object 1 = Some INIT.
Proof.
  split; [intros l H; cbn in H; repeat (destruct H as [<-|H]; [reflexivity|]); contradiction|].
  split; [intros l H; cbn in H; repeat (destruct H as [<-|H]; [reflexivity|]); contradiction|]. vm_compute. auto.
Qed.
Example C99_moved_from_ex : ~ lacks_settings OIsEmpty /\
  replies (one_object ++ [LMove 1 0; LCall 0 ex_world OIsEmpty]) = [Ret RVoid; Ret ROk; Ret ROk; Ret RVoid; Crash Undefined] /\
  replies (other_object ++ [LAssign 1 0; LCall 0 ex_world OIsEmpty]) = [Ret RVoid; Ret ROk; Ret ROk; Ret RVoid; Ret RVoid; Crash Undefined].
Proof. split; [exact (fun H => H)|vm_compute; auto]. Qed.
Example C99_unnoticed_ex : replies (other_object ++ [LAssign 1 0; LDestroy 0; LDestroy 1]) = [Ret RVoid; Ret ROk; Ret ROk; Ret RVoid; Ret RVoid; Ret RVoid; Ret RVoid].
Proof. vm_compute. reflexivity. Qed.
(** decrypting needs the members, isFileEmpty would be refused *)
Example C99_orphan_ex : needs_members PASSWORD_VERIFIED ODecrypt = true /\
  replies (one_object ++ [LMove 1 0; LDestroy 0; LCall 1 ex_world ODecrypt]) = [Ret RVoid; Ret ROk; Ret ROk; Ret RVoid; Ret RVoid; Crash Undefined] /\
  replies (one_object ++ [LMove 1 0; LDestroy 0; LCall 1 ex_world OIsEmpty]) = [Ret RVoid; Ret ROk; Ret ROk; Ret RVoid; Ret RVoid; Ret (RErr FAIL ERR_API_STATE_INVALID)].
Proof. vm_compute. auto. Qed.
(** createFile and isFileEmpty, the first in a new object, the second after a selection; encrypting data without a mode fails before the object is used *)
Example C99_answers_ex : needs_members INIT (OCreate (str "b.enc")) = false /\ needs_members FILE_SELECTED OIsEmpty = false /\
  needs_members DECRYPTED (OEncrypt (Some (mkFD None None))) = false /\
  replies [LNew 0 1; LMove 1 0; LDestroy 0; LCall 1 ex_world (OCreate (str "b.enc"))] = [Ret RVoid; Ret RVoid; Ret RVoid; Ret ROk] /\
  replies [LNew 0 1; LCall 0 ex_world (OSelect a_enc_path); LMove 1 0; LDestroy 0; LCall 1 ex_world OIsEmpty] = [Ret RVoid; Ret ROk; Ret RVoid; Ret RVoid; Ret (RBool false)] /\
  replies (one_object ++ [LCall 0 ex_world ODecrypt; LMove 1 0; LDestroy 0; LCall 1 ex_world (OEncrypt (Some (mkFD None None)))]) =
    [Ret RVoid; Ret ROk; Ret ROk; decrypted; Ret RVoid; Ret RVoid; Ret (RErr FAIL ERR_FILEDATASTRUCT_INCOMPLETE)].
Proof. vm_compute. auto 10. Qed.
(** the file is selected in the old object, and goes on there; the new object is never past the first state *)
Example C99_stuck_ex : let cs := calls 1 [OSelect a_enc_path] ++ calls 0 [OVerify ex_pw 0; ODecrypt] in let n := (LNew 0 1 :: LMove 1 0 :: cs) in
  state_after [LNew 0 1] 0 = Some INIT /\ calls_of [1; 0] cs /\ offered INIT OIsEmpty = false /\
  replies n = [Ret RVoid; Ret RVoid; Ret ROk; Ret ROk; decrypted] /\
  replies (n ++ [LCall 1 ex_world OIsEmpty]) = [Ret RVoid; Ret RVoid; Ret ROk; Ret ROk; decrypted; Ret (RErr FAIL ERR_API_STATE_INVALID)] /\
  replies (n ++ [LCall 0 ex_world OSalt]) = [Ret RVoid; Ret RVoid; Ret ROk; Ret ROk; decrypted; Ret ROk].
Proof.
  intros cs n. split; [vm_compute; reflexivity|]. split; [intros l H; cbn in H; repeat (destruct H as [<-|H]; [cbn; auto|]); contradiction|].
  split; [reflexivity|]. split; [vm_compute; reflexivity|]. split; vm_compute; reflexivity.
Qed.
Example C99_double_free_ex : let cs := calls 1 [OSelect a_enc_path] ++ calls 0 [OVerify ex_pw 0] in
  stores_key (LCall 0 ex_world (OVerify ex_pw 0)) (Ret ROk) /\
  replies (LNew 0 1 :: LMove 1 0 :: cs) = [Ret RVoid; Ret RVoid; Ret ROk; Ret ROk] /\
  replies (LNew 0 1 :: LMove 1 0 :: cs ++ [LDestroy 1]) = [Ret RVoid; Ret RVoid; Ret ROk; Ret ROk; Crash Undefined] /\
  replies (LNew 0 1 :: LMove 1 0 :: calls 1 [OSelect a_enc_path] ++ [LDestroy 1]) = [Ret RVoid; Ret RVoid; Ret ROk; Ret RVoid].
Proof. intros cs. split; [exact Logic.I|]. split; [vm_compute; reflexivity|]. split; vm_compute; reflexivity. Qed.
Example C99_revived_ex : let cs := calls 0 [OVerify ex_pw 0; ODecrypt] in
  calls_of [0] cs /\
  snd (fst (alone no_objects ex_files (LNew 0 1 :: LCall 0 ex_world (OSelect a_enc_path) :: cs))) = [Ret RVoid; Ret ROk; Ret ROk; decrypted] /\
  replies (LNew 0 1 :: LMove 1 0 :: LCall 1 ex_world (OSelect a_enc_path) :: cs) = [Ret RVoid; Ret RVoid; Ret ROk; Ret ROk; decrypted].
Proof.
  intros cs. split; [intros l H; cbn in H; repeat (destruct H as [<-|H]; [cbn; auto|]); contradiction|]. split; vm_compute; reflexivity.
Qed.
Definition selected_object : list lop := LNew 0 1 :: calls 0 [OSelect a_enc_path].
Example C99_lost_ex : lost_members PASSWORD_VERIFIED ODecrypt = true /\ state_after selected_object 0 = Some FILE_SELECTED /\ lost_members FILE_SELECTED (OVerify ex_pw 0) = true /\
  replies (one_object ++ [LMove 1 0; LCall 1 ex_world ODecrypt]) = [Ret RVoid; Ret ROk; Ret ROk; Ret RVoid; Crash Undefined] /\
  replies (selected_object ++ [LMove 1 0; LCall 1 ex_world (OVerify ex_pw 0)]) = [Ret RVoid; Ret ROk; Ret RVoid; Crash Undefined] /\
  replies (selected_object ++ [LMove 1 0; LCall 1 ex_world OUnselect]) = [Ret RVoid; Ret ROk; Ret RVoid; Crash Undefined].
Proof. vm_compute. auto 9. Qed.
(** the file is selected again and opened after logout through the other object *)
Example C99_back_to_start_ex : let cs := calls 0 [OSelect a_enc_path; OVerify ex_pw 0; ODecrypt] in
  goes_back true PASSWORD_VERIFIED OLogout = true /\ goes_back false FILE_SELECTED OUnselect = true /\ calls_of [0] cs /\
  snd (fst (alone no_objects ex_files (one_object ++ LCall 0 ex_world OLogout :: cs))) = [Ret RVoid; Ret ROk; Ret ROk; Ret RVoid; Ret ROk; Ret ROk; decrypted] /\
  replies (one_object ++ LMove 1 0 :: LCall 1 ex_world OLogout :: cs) = [Ret RVoid; Ret ROk; Ret ROk; Ret RVoid; Ret RVoid; Ret ROk; Ret ROk; decrypted] /\
  snd (lrun false mem0 ex_files (selected_object ++ LMove 1 0 :: LCall 1 ex_world OUnselect :: cs)) = [Ret RVoid; Ret ROk; Ret RVoid; Ret ROk; Ret ROk; Ret ROk; decrypted].
Proof.
  intros cs. split; [reflexivity|]. split; [reflexivity|]. split; [intros l H; cbn in H; repeat (destruct H as [<-|H]; [cbn; auto|]); contradiction|].
  split; [vm_compute; reflexivity|]. split; vm_compute; reflexivity.
Qed.
