(** What the theorems about lifetimes compare with: API objects as independent values under names. *)
From Verif Require Import Base BytesModel MiscModel HeaderModel FileModel ApiModel ApiSpec LifeModel.

Definition objects := N -> option api.
Definition no_objects : objects := fun _ => None.
Definition with_object (d : objects) (x : N) (a : option api) : objects := fun k => if k =? x then a else d k.

(** A program without moves: each object is only changed by its own calls. *)
Definition alone_step (d : objects) (f : fs) (l : lop) : fs * outcome (objects * reply) :=
  match l with
  | LFiles f' => (f', Ret (d, RVoid))
  | LNew x mode =>
      (f, match d x with Some _ => Crash Undefined | None => a <- newAPI mode ;; Ret (with_object d x (Some a), RVoid) end)
  | LCall x w o =>
      match d x with
      | None => (f, Crash Undefined)
      | Some a => let '(f', r) := step w a f o in (f', '(a', rep) <- r ;; Ret (with_object d x (Some a'), rep))
      end
  | LDestroy x => (f, match d x with None => Crash Undefined | Some _ => Ret (with_object d x None, RVoid) end)
  | LMove _ _ | LAssign _ _ => (f, Crash Undefined)
  end.
(** the files, the replies and, if the program did not crash, the objects at the end *)
Fixpoint alone (d : objects) (f : fs) (ls : list lop) : fs * list (outcome reply) * option objects :=
  match ls with
  | [] => (f, [], Some d)
  | l :: rest =>
      let '(f', r) := alone_step d f l in
      match r with
      | Ret (d', rep) => let '(f2, rs, e) := alone d' f' rest in (f2, Ret rep :: rs, e)
      | Throw x => let '(f2, rs, e) := alone d f' rest in (f2, Throw x :: rs, e)
      | Crash c => (f', [Crash c], None)
      | OutOfFuel => (f', [OutOfFuel], None)
      end
  end.
Definition moves (l : lop) : bool := match l with LMove _ _ | LAssign _ _ => true | _ => false end.
Definition no_moves (ls : list lop) : Prop := forall l, In l ls -> moves l = false.
(** [y] is moved to [x], a new object or another one *)
Definition transfer (d : objects) (x y : N) (l : lop) : Prop :=
  (l = LMove x y /\ d x = None) \/ (l = LAssign x y /\ d x <> None /\ x <> y).
(** the settings given to createDataHeader miss a value *)
Definition lacks_settings (o : op) : Prop :=
  match o with OHeader _ ds _ | OHeaderTime _ ds => set_isComplete ds = false | _ => False end.
(** calls of the given objects, and other processes *)
Definition calls_of (xs : list N) (ls : list lop) : Prop :=
  forall l, In l ls -> match l with LCall x _ _ => In x xs | LFiles _ => True | _ => False end.
(** the program did not crash *)
Definition no_crash (rs : list (outcome reply)) : Prop := forall r, In r rs -> match r with Ret _ | Throw _ => True | _ => False end.
(** a call that stores a password hash, or removes it *)
Definition stores_key (l : lop) (r : outcome reply) : Prop :=
  match l, r with
  | LCall _ _ (OLogout | OLogoutMode _), Ret _ => True
  | LCall _ _ (OVerify _ _ | OHeader _ _ _ | OHeaderTime _ _), Ret ROk => True
  | _, _ => False
  end.
(** calls that an object in state [s] cannot answer without its members *)
Definition needs_members (s : state) (o : op) : bool :=
  match s, o with
  | _, (OLogout | OLogoutMode _) => true
  | INIT, OSelect _ => true
  | FILE_SELECTED, (OUnselect | ODelete | OContent | OVerify _ _) => true
  | EMPTY_FILE_SELECTED, (OUnselect | ODelete | OHeader _ _ _ | OHeaderTime _ _) => true
  | PASSWORD_VERIFIED, ODecrypt => true
  | DECRYPTED, (OGetData | OSalt | OHeader _ _ _ | OHeaderTime _ _) => true
  | DECRYPTED, OEncrypt (Some d) => match fd_mode d with Some _ => true | None => false end
  | ENCRYPTED, (OWrite | OWriteTo _) => true
  | _, _ => false
  end.
(** calls that read a member which the object in state [s] had before it was moved *)
Definition lost_members (s : state) (o : op) : bool :=
  match s, o with
  | FILE_SELECTED, (ODelete | OContent | OVerify _ _) => true
  | EMPTY_FILE_SELECTED, ODelete => true
  | PASSWORD_VERIFIED, ODecrypt => true
  | DECRYPTED, OSalt => true
  | ENCRYPTED, OWrite => true
  | _, _ => false
  end.
(** calls that bring an object in state [s] back to the start; unselectFile reads the path of the file if [lg] *)
Definition goes_back (lg : bool) (s : state) (o : op) : bool :=
  match s, o with
  | _, (OLogout | OLogoutMode _) => true
  | (FILE_SELECTED | EMPTY_FILE_SELECTED), OUnselect => negb lg
  | _, _ => false
  end.
