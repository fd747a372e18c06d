(** What a program can expect from the results it keeps, as a function of what it did and what it was told so far. *)
From Verif Require Import Base BytesModel MiscModel CipherModel PwModel ChModel HeaderModel FileModel ApiModel ApiSpec ResultModel.

(** one step of the program and the answer it got *)
Record event := mkEv { ev_op : cop; ev_ans : outcome answer }.
(** a kept result: a failure; a success without anything to read; a value, and whether returnMove was called on it;
    the data of getDecryptedData or getFileData, or what is left of it, and whether returnMove was called *)
Inductive slip := Refused | Silent | Plain (v : value) (moved : bool) | Parcel (x : option filedata) (moved : bool).
Definition slip_of (o : op) (r : reply) : list slip :=
  match r with
  | RVoid => []
  | RErr _ _ => [Refused]
  | ROk => match o with OSalt | OWrite | OWriteTo _ => [Silent] | _ => [Plain (VBool true) false] end
  | RBool b => [Plain (VBool b) false]
  | RNames l => [Plain (VNames l) false]
  | RBytes b => [Plain (VBytes b) false]
  | RData x => [Parcel (Some x) false]
  end.
Definition change (i : nat) (g : slip -> slip) (l : list slip) : list slip :=
  match nth_error l i with Some s => firstn i l ++ g s :: skipn (S i) l | None => l end.
Definition moved (s : slip) : slip := match s with Plain v _ => Plain v true | Parcel x _ => Parcel x true | s => s end.
Definition emptied (s : slip) : slip := match s with Parcel _ _ => Parcel None true | s => s end.
Definition edited (y : filedata) (s : slip) : slip := match s with Parcel _ m => Parcel (Some y) m | s => s end.
Definition after (l : list slip) (e : event) : list slip :=
  match ev_op e, ev_ans e with
  | CCall o, Ret (AReply r) => l ++ slip_of o r
  | CMove i, Ret _ => change i moved l
  | CTake i, Ret _ => change i emptied l
  | CEdit i y, Ret _ => change i (edited y) l
  | CEncrypt i, Ret (AReply ROk) => change i emptied l ++ [Plain (VBool true) false]     (* the API has the data now *)
  | CEncrypt i, Ret (AReply _) => change i moved l ++ [Refused]                           (* the program still has it *)
  | _, _ => l
  end.
(** the results the program has; newest event first *)
Fixpoint slips (evs : list event) : list slip := match evs with [] => [] | e :: r => after (slips r) e end.

(** the answer to a step that only looks at a result *)
Definition foretold (s : slip) (o : cop) : option (outcome answer) :=
  let refuse := Some (Throw LogicError) in
  match o, s with
  | CSuccess _, Refused => Some (Ret (AYes false))
  | CSuccess _, _ => Some (Ret (AYes true))
  | CValue _, Plain v false => Some (Ret (AValue v))
  | CValue _, _ => refuse
  | CRef _, Plain v false => Some (Ret (AValue v))
  | CRef _, Parcel x false => Some (Ret (AValue (VData x)))
  | CRef _, _ => refuse
  | CMove _, Plain v _ => Some (Ret (AValue v))
  | CMove _, Parcel x _ => Some (Ret (AValue (VData x)))
  | CMove _, _ => refuse
  | CEdit _ _, Parcel (Some _) false => Some (Ret ANothing)
  | CEdit _ _, _ => refuse
  | CTake _, Parcel x _ => Some (Ret (AValue (VData x)))
  | CTake _, _ => refuse
  | CEncrypt _, Parcel _ _ => None
  | CEncrypt _, _ => refuse
  | CCall _, _ => None
  end.
Definition index (o : cop) : option nat :=
  match o with CCall _ => None | CSuccess i | CValue i | CRef i | CMove i | CEdit i _ | CTake i | CEncrypt i => Some i end.
(** the step compiles, and no object has 2^63 bytes or more *)
Definition cop_ok (c : client) (o : cop) : Prop :=
  match o with
  | CCall o => op_ok o
  | CSuccess i | CValue i | CRef i | CMove i => (i < length (c_res c))%nat
  | CEdit i _ | CTake i => exists r, nth_error (c_res c) i = Some r /\ rs_type r = TData
  | CEncrypt i => exists r, nth_error (c_res c) i = Some r /\ rs_type r = TData /\
      forall x, e_value (rs_err r) = Some (VData x) -> op_ok (OEncrypt x)
  end.
(** the program goes on after an answer and after an exception it catches *)
Definition goes_on (x : outcome answer) : Prop := match x with Ret _ | Throw _ => True | _ => False end.
(** Programs with an API object made by the constructor.  Between two steps other programs may change any file. *)
Inductive program (bd : build) (H : hashes) (mode : N) : list event -> client -> Prop :=
| prog_new a : newAPI mode = Ret a -> program bd H mode [] (mkClient a [])
| prog_step evs c w f o f' c' ans : program bd H mode evs c -> world_ok bd H w -> fs_ok f -> cop_ok c o ->
    cstep w f c o = (f', (c', ans)) -> goes_on ans -> program bd H mode (mkEv o ans :: evs) c'.

(** the number of results so far *)
Definition makes (e : event) : nat :=
  match ev_op e, ev_ans e with
  | CCall _, Ret (AReply RVoid) => 0
  | (CCall _ | CEncrypt _), Ret (AReply _) => 1
  | _, _ => 0
  end.
Definition made (evs : list event) : nat := list_sum (map makes evs).
(** an event that gives away the data of result [i] *)
Definition gives (i : nat) (e : event) : nat :=
  match ev_op e, ev_ans e with
  | CEncrypt j, Ret (AReply ROk) => if Nat.eqb i j then 1 else 0
  | CTake j, Ret (AValue (VData (Some _))) => if Nat.eqb i j then 1 else 0
  | _, _ => 0
  end.
(** what the caller of a call is told *)
Definition told (r : outcome (api * reply)) : outcome answer :=
  match r with Ret (_, x) => Ret (AReply x) | Throw e => Throw e | Crash k => Crash k | OutOfFuel => OutOfFuel end.
(** reading a result *)
Definition reads (o : cop) (i : nat) : Prop := o = CValue i \/ o = CRef i \/ o = CMove i.
