(** What WorkflowDecStruct and FileDataStruct promise. *)
From Verif Require Import Base BytesModel MiscModel HeaderModel ApiModel DecModel.

(** ** FileDataStruct *)
(** the data assigned last, none if none was *)
Definition assigned (ops : list fds_op) (d : option Bytes) : Prop :=
  (d = None /\ forall b, ~ In (FData b) ops) \/ (exists before after, ops = before ++ FData d :: after /\ forall b, ~ In (FData b) after).

(** ** WorkflowDecStruct *)
(** addresses handed over to the structs, and addresses they gave *)
Definition handed (ops : list dec_op) : list N := flat_map (fun o => match o with DSetFile _ (Some (n, _)) => [n] | _ => [] end) ops.
Definition taken (xs : list dec_answer) : list N := flat_map (fun x => match x with AFile (n, _) => [n] | _ => [] end) xs.
(** the operation puts another struct in the place of [i] *)
Definition replaces (i : nat) (o : dec_op) : Prop := match o with DNew j => j = i | DMove _ j => j = i | _ => False end.
Definition replaced (i : nat) (ops : list dec_op) : Prop := exists o, In o ops /\ replaces i o.
(** the operation is about something else than the file data and the header of [i] *)
Definition lets (i : nat) (o : dec_op) : Prop :=
  match o with
  | DNew j => j <> i
  | DMove j k => j <> i /\ k <> i
  | DSucceed _ _ => True
  | DRef _ _ | DHeader _ => True
  | DSetFile _ _ | DSetHeader _ _ => True
  | DGet j => j <> i
  end.
Definition spared (i : nat) (ops : list dec_op) : Prop := forall o, In o ops -> lets i o.
(** the success type assigned last *)
Fixpoint success_of (i : nat) (s : success_type) (ops : list dec_op) : success_type :=
  match ops with
  | [] => s
  | DSucceed j v :: r => success_of i (if Nat.eqb j i then v else s) r
  | _ :: r => success_of i s r
  end.
(** what the program made of the data behind references it got *)
Fixpoint edited (i : nat) (s : success_type) (x : filedata) (ops : list dec_op) : filedata :=
  match ops with
  | [] => x
  | DSucceed j v :: r => edited i (if Nat.eqb j i then v else s) x r
  | DRef j g :: r => edited i s (if Nat.eqb j i then match s with SUCCESS => g x | _ => x end else x) r
  | _ :: r => edited i s x r
  end.
(** what the last call of a program answered *)
Definition final (ops : list dec_op) : option dec_answer :=
  match dec_run dec_none ops with Some (_, xs) => last (map Some xs) None | None => None end.
