(** Model of a program that uses the API and keeps the ErrorStructs it gets: src/api.cpp (what each call returns),
    include/error.h 58-156 (through MiscModel), include/file_data.h.  The program can look at the value of a kept
    result again and again, change the data it owns through one, take the data out, and hand it to encryptData with
    [api.encryptData(result.returnMove())].  Logging is not modelled. *)
From Verif Require Import Base BytesModel MiscModel CipherModel PwModel ChModel HeaderModel FileModel ApiModel.

(** the value in an ErrorStruct<bool>, <vector<string>>, <Bytes>, <unique_ptr<FileDataStruct>>; a null pointer is [None] *)
Inductive value := VBool (b : bool) | VNames (l : list bytes) | VBytes (b : Bytes) | VData (x : option filedata).
(** the type T of a result *)
Inductive vtype := TBool | TNames | TBytes | TData.
(** api.h 286-440: the types of the member functions *)
Definition type_of (o : op) : vtype :=
  match o with OList _ => TNames | OContent => TBytes | ODecrypt | OGetData => TData | _ => TBool end.
Record result := mkRes { rs_type : vtype; rs_err : errstruct value }.
(** What the caller gets.  A failed call: always one of the constructors without a value (error.h 94-95) or a default
    ErrorStruct whose fields were set (error.h 83-91), for example api.cpp 18, 239, 254, 377, 458-462, 482-485, 502.
    A call that succeeds: the constructor with a value [ErrorStruct<bool>{true}] (api.cpp 230, 246, 265, 478, 520, 547, 605,
    668, 695; filehandler.cpp 80), [ErrorStruct<bool>{false}] (387), [{true}] (392), the list (346, 362), the bytes (408, 418);
    createMove (565, 620).  changeSalt (640) and both writeToFile (718, 736) use the constructor without a value
    also for success.  logout (api.h 125-141) returns nothing. *)
Definition result_of (o : op) (r : reply) : list result :=
  match r with
  | RVoid => []
  | RErr s _ => [mkRes (type_of o) (err_fail s)]
  | ROk => [mkRes (type_of o) (match o with OSalt | OWrite | OWriteTo _ => err_fail SUCCESS | _ => err_ok (VBool true) end)]
  | RBool b => [mkRes (type_of o) (err_ok (VBool b))]
  | RNames l => [mkRes (type_of o) (err_ok (VNames l))]
  | RBytes b => [mkRes (type_of o) (err_ok (VBytes b))]
  | RData x => [mkRes (type_of o) (createMove (VData (Some x)))]
  end.

(** What encryptData leaves in the pointer it was given (by rvalue reference, so nothing happens to it unless the function
    moves from it): api.cpp 573-613.  addData (596) only reads the data (blockchain.cpp 55-73); line 597 throws the data away;
    line 600 moves the pointer into the API object.  In the other states the call of WorkflowState does not touch it. *)
Definition encryptLeaves (w : world) (a : api) (x : option filedata) : option filedata :=
  match a_state a, x with
  | DECRYPTED, Some d =>
      match fd_mode d, fd_data d, a_dh a with
      | Some m, Some data, Some h =>
          if negb (m =? a_mode a) then x
          else
            let before := (* 590-594 *)
              h1 <- setDataSize (getLen data) h ;;
              let '(h2, r) := calcHeaderBytes (w_hashes w) (w_clk1 w) (mkBytes [] 0) h1 in
              _ <- r ;;
              p <- getDataHeaderParts h2 ;; hm <- p_getHashMode p ;; hf <- getHash (w_hashes w) hm ;;
              s <- p_getSalt p ;;
              c <- new_chain Enc hf (a_key a) s ;;
              addData (w_fuel w) data c in
            match before with
            | Ret c => match getResult c with Ret _ => None | _ => Some (mkFD (Some m) None) end
            | _ => x
            end
      | _, _, _ => x
      end
  | _, _ => x
  end.

(** the program: an API object and the results it got, oldest first *)
Record client := mkClient { c_api : api; c_res : list result }.
Inductive cop :=
| CCall (o : op)                    (* a call; its result is kept; encryptData gets a temporary *)
| CSuccess (i : nat)                (* results[i].isSuccess() *)
| CValue (i : nat)                  (* results[i].returnValue() *)
| CRef (i : nat)                    (* results[i].returnRef(), read *)
| CMove (i : nat)                   (* results[i].returnMove(), read but not moved from *)
| CEdit (i : nat) (x : filedata)    (* *results[i].returnRef() gets another mode and other data *)
| CTake (i : nat)                   (* auto p = results[i].returnMove(), a pointer *)
| CEncrypt (i : nat).               (* encryptData(results[i].returnMove()) *)
Inductive answer := AReply (r : reply) | AYes (b : bool) | AValue (v : value) | ANothing.

Definition set_nth (i : nat) (x : result) (l : list result) : list result := firstn i l ++ x :: skipn (S i) l.
Definition put (x : value) (e : errstruct value) : errstruct value := mkErr (e_moved e) (e_input_moved e) (e_success e) (Some x).
(** One step.  An index without a result or a result of another type does not compile in C++; here it is [Undefined]. *)
Definition cstep (w : world) (f : fs) (c : client) (o : cop) : fs * (client * outcome answer) :=
  let a := c_api c in
  let call (c : client) (o : op) : fs * (client * outcome answer) :=
    match step w a f o with
    | (f', Ret (a', r)) => (f', (mkClient a' (c_res c ++ result_of o r), Ret (AReply r)))
    | (f', Throw e) => (f', (c, Throw e))
    | (f', Crash k) => (f', (c, Crash k))
    | (f', OutOfFuel) => (f', (c, OutOfFuel))
    end in
  let with_ (i : nat) (k : result -> fs * (client * outcome answer)) :=
    match nth_error (c_res c) i with Some r => k r | None => (f, (c, Crash Undefined)) end in
  let read (i : nat) (g : err_op value) :=
    with_ i (fun r =>
      match err_step (rs_err r) g with
      | Ret (e', Some v) => (f, (mkClient a (set_nth i (mkRes (rs_type r) e') (c_res c)), Ret (AValue v)))
      | Ret (e', None) => (f, (c, Crash Undefined))
      | Throw x => (f, (c, Throw x))
      | Crash k => (f, (c, Crash k))
      | OutOfFuel => (f, (c, OutOfFuel))
      end) in
  (* [k] gets the result after the access and the pointer in it *)
  let data (i : nat) (g : err_op value) (k : result -> option filedata -> fs * (client * outcome answer)) :=
    with_ i (fun r =>
      match rs_type r, err_step (rs_err r) g with
      | TData, Ret (e', Some (VData x)) => k (mkRes (rs_type r) e') x
      | TData, Throw e => (f, (c, Throw e))
      | _, _ => (f, (c, Crash Undefined))
      end) in
  match o with
  | CCall o => call c o
  | CSuccess i => with_ i (fun r => (f, (c, Ret (AYes (isSuccess (rs_err r))))))
  | CValue i => read i OpValue
  | CRef i => read i OpRef
  | CMove i => read i OpMove
  | CEdit i y =>
      data i OpRef (fun r x =>
        match x with
        | None => (f, (c, Crash Undefined))
        | Some _ => (f, (mkClient a (set_nth i (mkRes (rs_type r) (put (VData (Some y)) (rs_err r))) (c_res c)), Ret ANothing))
        end)
  | CTake i =>
      data i OpMove (fun r x =>
        (f, (mkClient a (set_nth i (mkRes (rs_type r) (put (VData None) (rs_err r))) (c_res c)), Ret (AValue (VData x)))))
  | CEncrypt i =>
      data i OpMove (fun r x =>
        call (mkClient a (set_nth i (mkRes (rs_type r) (put (VData (encryptLeaves w a x)) (rs_err r))) (c_res c))) (OEncrypt x))
  end.
