(** Lifetimes of API objects: include/api.h 115-286, src/api.cpp.

    A program has any number of API objects under names.  An object owns its state object and holds the
    array of the password hash; the state object has a pointer to the API object it was made for
    (api.h 121, 231).  API declares neither copy nor move functions, so it cannot be copied, and it is moved member
    by member.  What the member functions do to the members is [step] of ApiModel, run on the members of the object
    that the state object points to.
    [Crash Undefined] is the use of an object, a state object or an array outside of its lifetime, a null pointer,
    and deleting an array twice.  The state objects are deleted through a pointer to WorkflowState, which has no virtual
    destructor; the state classes have no members of their own, and this is taken to work (see [DESIGN.md]).
    If the array of the password hash is gone, then a function that uses it is taken to read it, even if it would
    fail before that.  [lg] tells whether lines of severity Verbose are logged: their arguments are evaluated only then. *)
From Verif Require Import Base BytesModel MiscModel HeaderModel FileModel ApiModel.

Record sobj := mkState { s_kind : state; s_parent : N }.
(** the members: api.h 275-285; [l_own]: the member [deallocate] of the password hash, bytes.h 17 *)
Record lobj := mkL {
  l_state : option N; l_mode : N; l_fdata : option filedata; l_key : N; l_own : bool; l_enc : option Bytes;
  l_dh : option dheader; l_file : option handler }.
(** addresses are not given out twice; [m_left]: what the deleted arrays of password hashes contained, which no function looks at *)
Record mem := mkMem { m_next : N; m_states : N -> option sobj; m_keys : N -> option Bytes; m_objs : N -> option lobj; m_left : list Bytes }.
Definition mem0 : mem := mkMem 0 (fun _ => None) (fun _ => None) (fun _ => None) [].

Definition set_at {A} (g : N -> option A) (x : N) (v : option A) : N -> option A := fun k => if k =? x then v else g k.
Definition put_obj (x : N) (o : option lobj) (m : mem) : mem := mkMem (m_next m) (m_states m) (m_keys m) (set_at (m_objs m) x o) (m_left m).
Definition new_state (k : state) (p : N) (m : mem) : mem * N :=
  (mkMem (m_next m + 1) (set_at (m_states m) (m_next m) (Some (mkState k p))) (m_keys m) (m_objs m) (m_left m), m_next m).
Definition new_key (b : Bytes) (m : mem) : mem * N :=
  (mkMem (m_next m + 1) (m_states m) (set_at (m_keys m) (m_next m) (Some b)) (m_objs m) (m_left m), m_next m).
Definition del_state (s : option N) (m : mem) : outcome mem :=
  match s with
  | None => Ret m
  | Some s => match m_states m s with
              | Some _ => Ret (mkMem (m_next m) (set_at (m_states m) s None) (m_keys m) (m_objs m) (m_left m))
              | None => Crash Undefined
              end
  end.
Definition del_key (p : N) (m : mem) : outcome mem :=
  match m_keys m p with
  | Some b => Ret (mkMem (m_next m) (m_states m) (set_at (m_keys m) p None) (m_objs m) (b :: m_left m))
  | None => Crash Undefined
  end.

(** current_state = std::make_unique<...>(x): the new state object is made before the old one is deleted *)
Definition assign_state (x : N) (k : state) (m : mem) : outcome mem :=
  o <- ptr (m_objs m x) ;;
  let '(m, s) := new_state k x m in
  m <- del_state (l_state o) m ;;
  Ret (put_obj x (Some (mkL (Some s) (l_mode o) (l_fdata o) (l_key o) (l_own o) (l_enc o) (l_dh o) (l_file o))) m).
(** correct_password_hash = b: bytes.cpp 96-115; the flag is kept *)
Definition assign_key (x : N) (b : Bytes) (m : mem) : outcome mem :=
  o <- ptr (m_objs m x) ;;
  m <- del_key (l_key o) m ;;
  let '(m, p) := new_key b m in
  Ret (put_obj x (Some (mkL (l_state o) (l_mode o) (l_fdata o) p (l_own o) (l_enc o) (l_dh o) (l_file o))) m).

(** the object as the functions of state [k] see it, and the members after such a function *)
Definition view (k : state) (key : Bytes) (o : lobj) : api := mkApi k (l_mode o) (l_fdata o) key (l_enc o) (l_dh o) (l_file o).
Definition members (o : lobj) (a : api) : lobj := mkL (l_state o) (a_mode a) (a_fdata a) (l_key o) (l_own o) (a_enc a) (a_dh a) (a_file a).
(** for functions that use no member *)
Definition bare (k : state) : api := mkApi k 0 None (mkBytes [] 0) None None None.

(** the functions that the class of the state overrides: api.h 203-273; logout is the same for all: 125-141 *)
Definition implemented (k : state) (o : op) : bool :=
  match o with
  | OLogout | OLogoutMode _ => true
  | OList _ | OCreate _ | OSelect _ => match k with INIT => true | _ => false end
  | OIsEmpty | OUnselect | ODelete | OContent => match k with FILE_SELECTED | EMPTY_FILE_SELECTED => true | _ => false end
  | OVerify _ _ => match k with FILE_SELECTED => true | _ => false end
  | OHeader _ _ _ | OHeaderTime _ _ => match k with EMPTY_FILE_SELECTED | DECRYPTED => true | _ => false end
  | ODecrypt => match k with PASSWORD_VERIFIED => true | _ => false end
  | OSalt | OGetData | OEncrypt _ => match k with DECRYPTED => true | _ => false end
  | OWrite | OWriteTo _ => match k with ENCRYPTED => true | _ => false end
  end.
(** createDataHeader returns before it uses the state object: api.h 395-410 *)
Definition incomplete (o : op) : bool :=
  match o with OHeader _ ds _ | OHeaderTime _ ds => negb (set_isComplete ds) | _ => false end.
(** whether the function uses [this->parent]: api.cpp 337-696 *)
Definition uses_object (w : world) (k : state) (o : op) : bool :=
  match o with
  | OCreate _ | OIsEmpty => false                                                          (* 365-368, 385-393 *)
  | OList dir => match getAllEncFileNames w dir with Ret (inr (_ :: _)) => true | _ => false end   (* 337-363 *)
  | OContent => match k with EMPTY_FILE_SELECTED => false | _ => true end                  (* 416-419 *)
  | OEncrypt x => match x with Some d => fd_isComplete d | None => false end               (* 577-581 *)
  | _ => true
  end.
(** getDecryptedData, encryptData: api.cpp 557, 595 *)
Definition uses_key (o : op) : bool := match o with ODecrypt | OEncrypt _ => true | _ => false end.
(** the path of the file is logged: api.cpp 395-403, 421-429 *)
Definition logs_path (o : op) : bool := match o with OUnselect | ODelete => true | _ => false end.
(** correct_password_hash is assigned: 476, 516, 543, 666, 693; api.h 126, 135 *)
Definition assigns_key (o : op) (r : reply) : bool :=
  match o, r with
  | (OLogout | OLogoutMode _), _ => true
  | (OVerify _ _ | OHeader _ _ _ | OHeaderTime _ _), ROk => true
  | _, _ => false
  end.
Definition same_state (x y : state) : bool :=
  match x, y with
  | INIT, INIT | FILE_SELECTED, FILE_SELECTED | EMPTY_FILE_SELECTED, EMPTY_FILE_SELECTED | PASSWORD_VERIFIED, PASSWORD_VERIFIED
  | DECRYPTED, DECRYPTED | ENCRYPTED, ENCRYPTED | FINISHED, FINISHED => true
  | _, _ => false
  end.
(** current_state is assigned: every change of the state and logout, api.h 131, 140 *)
Definition assigns_state (o : op) (k : state) (a : api) : bool :=
  match o with OLogout | OLogoutMode _ => true | _ => negb (same_state (a_state a) k) end.

(** this->current_state->unselectFile() for the object [p]: api.cpp 257, 421-429, 260-266 *)
Definition unselect_at (lg : bool) (p : N) (m : mem) : outcome (mem * reply) :=
  y <- ptr (m_objs m p) ;; s <- ptr (l_state y) ;; c <- ptr (m_states m s) ;;
  match s_kind c with
  | FILE_SELECTED | EMPTY_FILE_SELECTED =>
      z <- ptr (m_objs m (s_parent c)) ;;
      if lg && negb (isSome (l_file z)) then Crash Undefined
      else
        m <- assign_state (s_parent c) INIT
               (put_obj (s_parent c) (Some (mkL (l_state z) (l_mode z) (l_fdata z) (l_key z) (l_own z) (l_enc z) None None)) m) ;;
        Ret (m, ROk)
  | _ => Ret (m, failed ERR_API_STATE_INVALID)
  end.
(** what is stored after the function computed [a] from the members of the object [p] *)
Definition store_back (p : N) (k : state) (o : op) (y : lobj) (a : api) (r : reply) (m : mem) : outcome mem :=
  let m := put_obj p (Some (members y a)) m in
  m <- (if assigns_key o r then assign_key p (a_key a) m else Ret m) ;;
  if assigns_state o k a then assign_state p (a_state a) m else Ret m.

(** One call of a public member function of the object [x]: api.h 341-462 *)
Definition call (lg : bool) (w : world) (m : mem) (f : fs) (x : N) (o : op) : fs * outcome (mem * reply) :=
  match m_objs m x with
  | None => (f, Crash Undefined)
  | Some me =>
      if incomplete o then (f, Ret (m, failed ERR_DATAHEADERSETTINGS_INCOMPLETE))
      else
        match (s <- ptr (l_state me) ;; ptr (m_states m s)) with
        | Ret (mkState k p) =>
            if negb (implemented k o) then (f, Ret (m, failed ERR_API_STATE_INVALID))
            else if negb (uses_object w k o) then
              let '(f', r) := step w (bare k) f o in (f', '(_, rep) <- r ;; Ret (m, rep))
            else
              match m_objs m p with
              | None => (f, Crash Undefined)
              | Some y =>
                  if lg && logs_path o && negb (isSome (l_file y)) then (f, Crash Undefined)
                  else if uses_key o && negb (isSome (m_keys m (l_key y))) then (f, Crash Undefined)
                  else
                    let key := match m_keys m (l_key y) with Some b => b | None => mkBytes [] 0 end in
                    let '(f', r) := step w (view k key y) f o in
                    (f', '(a, rep) <- r ;;
                         match o, rep with
                         | ODelete, ROk => unselect_at lg p m      (* the file is removed, no member has changed: 249-258 *)
                         | _, _ => m <- store_back p k o y a rep m ;; Ret (m, rep)
                         end)
              end
        | _ => (f, Crash Undefined)
        end
  end.

Inductive lop :=
| LNew (x mode : N)                (* API x(mode) *)
| LMove (x y : N)                  (* API x(std::move(y)) *)
| LAssign (x y : N)                (* x = std::move(y) *)
| LDestroy (x : N)
| LCall (x : N) (w : world) (o : op)
| LFiles (f : fs).                 (* other processes leave the files as [f] *)

(** a name that is free for a new object *)
Definition unused (m : mem) (x : N) : outcome unit := match m_objs m x with Some _ => Crash Undefined | None => Ret tt end.
(** the object after it was moved from; [own]: of the password hash *)
Definition moved_from (y : lobj) (own : bool) : lobj := mkL None (l_mode y) None (l_key y) own None None None.

Definition lstep (lg : bool) (m : mem) (f : fs) (l : lop) : fs * outcome (mem * reply) :=
  match l with
  | LFiles f' => (f', Ret (m, RVoid))
  | LCall x w o => call lg w m f x o
  | LNew x mode =>                                              (* api.cpp 268-279 *)
      (f, _ <- unused m x ;;
          let '(m1, s) := new_state INIT x m in
          let '(m1, k) := new_key (mkBytes [] 0) m1 in
          if file_mode_valid mode then Ret (put_obj x (Some (mkL (Some s) mode None k true None None None)) m1, RVoid)
          else Throw InvalidArgument)                           (* the members are destroyed again *)
  | LMove x y =>                                                (* member by member; bytes.cpp 85-94 *)
      (f, _ <- unused m x ;; o <- ptr (m_objs m y) ;;
          Ret (put_obj x (Some (mkL (l_state o) (l_mode o) (l_fdata o) (l_key o) true (l_enc o) (l_dh o) (l_file o)))
                 (put_obj y (Some (moved_from o false)) m), RVoid))
  | LAssign x y =>                                              (* member by member; the password hash is copied: bytes.cpp 96-115 *)
      (f, ox <- ptr (m_objs m x) ;; oy <- ptr (m_objs m y) ;;
          if x =? y then Ret (m, RVoid)
          else
            m <- del_state (l_state ox) m ;;
            m <- del_key (l_key ox) m ;;
            b <- ptr (m_keys m (l_key oy)) ;;
            let '(m, k) := new_key b m in
            Ret (put_obj x (Some (mkL (l_state oy) (l_mode oy) (l_fdata oy) k (l_own ox) (l_enc oy) (l_dh oy) (l_file oy)))
                   (put_obj y (Some (moved_from oy (l_own oy))) m), RVoid))
  | LDestroy x =>                                               (* the members in reverse order; bytes.h 59-64 *)
      (f, o <- ptr (m_objs m x) ;;
          m <- (if l_own o then del_key (l_key o) m else Ret m) ;;
          m <- del_state (l_state o) m ;;
          Ret (put_obj x None m, RVoid))
  end.
(** a program: it goes on after an exception and ends with a crash *)
Fixpoint lrun (lg : bool) (m : mem) (f : fs) (ls : list lop) : fs * list (outcome reply) :=
  match ls with
  | [] => (f, [])
  | l :: rest =>
      let '(f', r) := lstep lg m f l in
      match r with
      | Ret (m', rep) => let '(f2, rs) := lrun lg m' f' rest in (f2, Ret rep :: rs)
      | Throw e => let '(f2, rs) := lrun lg m f' rest in (f2, Throw e :: rs)
      | Crash c => (f', [Crash c])
      | OutOfFuel => (f', [OutOfFuel])
      end
  end.
(** the memory at the end, if the program did not crash *)
Fixpoint lend (lg : bool) (m : mem) (f : fs) (ls : list lop) : option mem :=
  match ls with
  | [] => Some m
  | l :: rest =>
      let '(f', r) := lstep lg m f l in
      match r with Ret (m', _) => lend lg m' f' rest | Throw _ => lend lg m f' rest | _ => None end
  end.
