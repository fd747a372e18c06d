(** Property C117: WorkflowDecStruct and FileDataStruct. *)
From Verif Require Import Base BytesModel MiscModel HeaderModel ApiModel DecModel DecSpec DecFacts.

(** FileDataStruct: the mode is set exactly if the one valid mode was set, and the copy has that mode and the data assigned last *)
Theorem C117_file_data : forall ops x, fds_run fds_default ops = Some x -> (fd_mode x = Some 1 <-> In (FSet 1) ops) /\ (fd_mode x = None <-> ~ In (FSet 1) ops) /\ assigned ops (fd_data x).
Proof. exact fds_state. Qed.
Print Assumptions C117_file_data.
Theorem C117_copy : forall ops x, fds_run fds_default ops = Some x ->
  (forall b, assigned ops (Some b) -> In (FSet 1) ops -> fds_step x FCopy = Ret (x, FCopied (mkFD (Some 1) (Some (copyBytes b))))) /\
  (forall b, assigned ops (Some b) -> ~ In (FSet 1) ops -> fds_step x FCopy = Throw RuntimeError) /\
  (assigned ops None -> fds_step x FCopy = Crash Undefined).
Proof. exact fds_copy. Qed.
Print Assumptions C117_copy.
Example C117_ex_copy : let b := mkBytes [x61; x62] 3 in
  fds_run fds_default [FSet 2; FSet 1; FSet 7; FData None; FData (Some b)] = Some (mkFD (Some 1) (Some b)) /\
  assigned [FSet 2; FSet 1; FSet 7; FData None; FData (Some b)] (Some b) /\ fds_run fds_default [FSet 2; FData (Some b)] = Some (mkFD None (Some b)) /\
  fds_step (mkFD None (Some b)) FCopy = Throw RuntimeError /\ fds_run fds_default [FSet 1; FCopy] = None.
Proof.
  split; [reflexivity|]. split; [right; exists [FSet 2; FSet 1; FSet 7; FData None], []; split; [reflexivity|intros c []]|]. repeat split.
Qed.

(** WorkflowDecStruct: no pointer comes out twice, however the structs are moved, and only pointers that were put in come out *)
Theorem C117_given_once : forall ops s xs, dec_run dec_none ops = Some (s, xs) -> NoDup (handed ops) -> NoDup (taken xs) /\ incl (taken xs) (handed ops).
Proof. exact dec_given_once. Qed.
Print Assumptions C117_given_once.
(** a struct that gave its file data never gives any again, whatever is put into it *)
Theorem C117_dead : forall a b i p o s xs, final (a ++ [DGet i]) = Some (AFile p) -> ~ replaced i b -> (o = DGet i \/ exists g, o = DRef i g) ->
  dec_run dec_none (a ++ DGet i :: b) = Some (s, xs) -> final ((a ++ DGet i :: b) ++ [o]) = Some (AThrow LogicError).
Proof. exact dec_dead. Qed.
Print Assumptions C117_dead.
(** before that, getFileData gives what was put in last *)
Theorem C117_gives : forall z i a n x b s xs, dec_run dec_none (z ++ DNew i :: a ++ DSetFile i (Some (n, x)) :: b) = Some (s, xs) -> spared i a -> spared i b -> (forall p, ~ In (DSetFile i p) b) ->
  final ((z ++ DNew i :: a ++ DSetFile i (Some (n, x)) :: b) ++ [DGet i]) =
    Some (match success_of i FAIL (a ++ b) with SUCCESS => AFile (n, edited i (success_of i FAIL a) x b) | _ => AThrow LogicError end).
Proof. exact dec_gives. Qed.
Print Assumptions C117_gives.
Theorem C117_empty : forall z i a s xs, dec_run dec_none (z ++ DNew i :: a) = Some (s, xs) -> spared i a ->
  ((forall p, ~ In (DSetFile i p) a) -> final ((z ++ DNew i :: a) ++ [DGet i]) = Some (AThrow LogicError) /\ forall g, final ((z ++ DNew i :: a) ++ [DRef i g]) = Some (AThrow LogicError)) /\
  ((forall h, ~ In (DSetHeader i h) a) -> final ((z ++ DNew i :: a) ++ [DHeader i]) = Some (AThrow match success_of i FAIL a with SUCCESS => OtherExn | _ => LogicError end)).
Proof. exact dec_empty. Qed.
Print Assumptions C117_empty.
Theorem C117_header : forall z i a h b s xs, dec_run dec_none (z ++ DNew i :: a ++ DSetHeader i h :: b) = Some (s, xs) -> spared i a -> spared i b -> (forall p, ~ In (DSetHeader i p) b) ->
  final ((z ++ DNew i :: a ++ DSetHeader i h :: b) ++ [DHeader i]) = Some (match success_of i FAIL (a ++ b) with SUCCESS => AHeader h | _ => AThrow LogicError end).
Proof. exact dec_header. Qed.
Print Assumptions C117_header.
Theorem C117_moves : forall ops i j s xs, dec_run dec_none (ops ++ [DMove i j]) = Some (s, xs) ->
  final ((ops ++ [DMove i j]) ++ [DGet j]) = final (ops ++ [DGet i]) /\ final ((ops ++ [DMove i j]) ++ [DHeader j]) = final (ops ++ [DHeader i]) /\
  final ((ops ++ [DMove i j]) ++ [DGet i]) = Some (AThrow LogicError).
Proof. exact dec_moves. Qed.
Print Assumptions C117_moves.
(** two structs; the first gives its data, what is put into it afterwards is lost; the second is moved into its place and gives its own *)
Definition fd_of (l : bytes) : filedata := mkFD (Some 1) (Some (mkBytes l (lenN l))).
Definition dec_program : list dec_op :=
  [DNew 0; DGet 0; DSetFile 0 (Some (7, fd_of [x61])); DRef 0 (fun _ => fd_of []); DSucceed 0 SUCCESS; DRef 0 (fun _ => fd_of [x62]); DHeader 0; DGet 0;
   DSetFile 0 (Some (8, fd_of [x63])); DGet 0; DNew 1; DSetFile 1 (Some (9, fd_of [x64])); DSucceed 1 SUCCESS; DMove 1 0; DGet 1; DGet 0].
Example C117_ex : match dec_run dec_none dec_program with Some (_, xs) => xs =
    [ADone; AThrow LogicError; ADone; AThrow LogicError; ADone; ARef (fd_of [x61]); AThrow OtherExn; AFile (7, fd_of [x62]);
     ADone; AThrow LogicError; ADone; ADone; ADone; ADone; AThrow LogicError; AFile (9, fd_of [x64])] /\ handed dec_program = [7; 8; 9] /\ taken xs = [7; 9] | None => False end.
Proof. vm_compute. auto. Qed.
(** the hypotheses of C117_dead and C117_gives on this program *)
Example C117_ex_dead : final (firstn 7 dec_program ++ [DGet 0]) = Some (AFile (7, fd_of [x62])) /\ ~ replaced 0 [DSetFile 0 (Some (8, fd_of [x63]))] /\
  final ((firstn 7 dec_program ++ DGet 0 :: [DSetFile 0 (Some (8, fd_of [x63]))]) ++ [DGet 0]) = Some (AThrow LogicError).
Proof.
  split; [reflexivity|]. split; [|reflexivity]. intros (o & [<-|[]] & X). exact X.
Qed.
Example C117_ex_gives : let b := [DRef 0 (fun _ => fd_of []); DSucceed 0 SUCCESS; DRef 0 (fun _ => fd_of [x62]); DHeader 0] in
  spared 0 [DSucceed 1 SUCCESS] /\ spared 0 b /\ success_of 0 FAIL b = SUCCESS /\ edited 0 FAIL (fd_of [x61]) b = fd_of [x62] /\
  final (([DNew 1] ++ DNew 0 :: [DSucceed 1 SUCCESS] ++ DSetFile 0 (Some (7, fd_of [x61])) :: b) ++ [DGet 0]) = Some (AFile (7, fd_of [x62])).
Proof.
  split; [intros o [<-|[]]; exact I|]. split; [|repeat split; reflexivity]. intros o [<-|[<-|[<-|[<-|[]]]]]; exact I.
Qed.
