(** Model of WorkflowDecStruct (include/api.h 18-76), which the library declares and uses nowhere, and of the member
    functions of FileDataStruct (include/file_data.h 10-63) that the API itself does not call. *)
From Verif Require Import Base BytesModel MiscModel HeaderModel FileModel ApiModel.

(** ** FileDataStruct *)
(** setFileMode: file_data.h 46-53 *)
Definition fds_setFileMode (m : N) (x : filedata) : outcome filedata :=
  if file_mode_valid m then Ret (mkFD (Some m) (fd_data x)) else Throw InvalidArgument.
(** FileDataStruct(): 22; FileDataStruct(file_mode, dec_data): 25-29, the pointer may be null *)
Definition fds_default : filedata := mkFD None None.
Definition fds_new (m : N) (data : option Bytes) : outcome filedata :=
  x <- fds_setFileMode m fds_default ;; Ret (mkFD (fd_mode x) data).
(** isFileModeSet: 34-37 *)
Definition fds_isFileModeSet (x : filedata) : bool := match fd_mode x with Some _ => true | None => false end.
(** getFileMode: 38-45 *)
Definition fds_getFileMode (x : filedata) : outcome N := match fd_mode x with Some m => Ret m | None => Throw RuntimeError end.
(** getCopy: 30-33.  The two arguments of make_unique are evaluated in an order that C++ leaves open: with neither a mode nor
    data the null pointer may be followed before getFileMode() throws, which counts as undefined here. *)
Definition fds_getCopy (x : filedata) : outcome filedata :=
  match fd_data x with
  | None => Crash Undefined
  | Some b => m <- fds_getFileMode x ;; fds_new m (Some (copyBytes b))
  end.
(** what a program does with one FileDataStruct; [dec_data] is a public field *)
Inductive fds_op := FSet (m : N) | FData (b : option Bytes) | FMode | FIsSet | FComplete | FCopy.
Inductive fds_answer := FDone | FModeIs (m : N) | FYes (b : bool) | FCopied (x : filedata).
Definition fds_step (x : filedata) (o : fds_op) : outcome (filedata * fds_answer) :=
  match o with
  | FSet m => y <- fds_setFileMode m x ;; Ret (y, FDone)
  | FData b => Ret (mkFD (fd_mode x) b, FDone)
  | FMode => m <- fds_getFileMode x ;; Ret (x, FModeIs m)
  | FIsSet => Ret (x, FYes (fds_isFileModeSet x))
  | FComplete => Ret (x, FYes (fd_isComplete x))
  | FCopy => y <- fds_getCopy x ;; Ret (x, FCopied y)
  end.
(** the struct after several calls; a call that throws changes nothing *)
Fixpoint fds_run (x : filedata) (ops : list fds_op) : option filedata :=
  match ops with
  | [] => Some x
  | o :: r => match fds_step x o with Ret (y, _) => fds_run y r | Throw _ => fds_run x r | _ => None end
  end.

(** ** WorkflowDecStruct: api.h 18-76 *)
(** fields: the success type of the public [errorStruct], [file_data] (a pointer, known by its address, and what it points to),
    [dh] ([Some None] if the header was moved away with the struct), [moved] *)
Record decst := mkDec { wd_success : success_type; wd_file : option (N * filedata); wd_header : option (option dheader); wd_moved : bool }.
(** the implicit default constructor: 20-25, error.h 83-91 *)
Definition dec_new : decst := mkDec FAIL None None false.
(** setFileData: 27-30 *)
Definition dec_setFileData (p : option (N * filedata)) (d : decst) : decst := mkDec (wd_success d) p (wd_header d) (wd_moved d).
(** setDataHeader: 31-34 *)
Definition dec_setDataHeader (h : dheader) (d : decst) : decst := mkDec (wd_success d) (wd_file d) (Some (Some h)) (wd_moved d).
(** the checks at the start of getFileDataRef and getFileData: 37-48, 54-65 *)
Definition dec_file (d : decst) : outcome (N * filedata) :=
  match wd_success d with
  | SUCCESS => if wd_moved d then Throw LogicError else match wd_file d with Some p => Ret p | None => Throw LogicError end
  | _ => Throw LogicError
  end.
(** getFileDataRef: 35-50; [g] is what the program does to the struct behind the reference *)
Definition dec_getFileDataRef (g : filedata -> filedata) (d : decst) : outcome (decst * filedata) :=
  p <- dec_file d ;; Ret (mkDec (wd_success d) (Some (fst p, g (snd p))) (wd_header d) (wd_moved d), snd p).
(** getFileData: 52-68; the pointer is moved out and is null afterwards *)
Definition dec_getFileData (d : decst) : outcome (decst * (N * filedata)) :=
  p <- dec_file d ;; Ret (mkDec (wd_success d) None (wd_header d) true, p).
(** getDataHeader: 70-76; [value()] of an empty optional throws bad_optional_access, which is no logic_error.  The copy of a
    header that was moved away is not modelled. *)
Definition dec_getDataHeader (d : decst) : outcome dheader :=
  match wd_success d with
  | SUCCESS => match wd_header d with Some (Some h) => Ret h | Some None => Crash Undefined | None => Throw OtherExn end
  | _ => Throw LogicError
  end.
(** the implicit move constructor and move assignment: every member is moved; [moved] and the success type are copied *)
Definition dec_left (d : decst) : decst :=
  mkDec (wd_success d) None (match wd_header d with Some _ => Some None | None => None end) (wd_moved d).

(** a program with any number of such structs *)
Inductive dec_op :=
| DNew (i : nat) | DMove (i j : nat)          (* [j] is made from [i], or assigned *)
| DSucceed (i : nat) (s : success_type) | DSetFile (i : nat) (p : option (N * filedata)) | DSetHeader (i : nat) (h : dheader)
| DRef (i : nat) (g : filedata -> filedata) | DGet (i : nat) | DHeader (i : nat).
Inductive dec_answer := ADone | ARef (x : filedata) | AFile (p : N * filedata) | AHeader (h : dheader) | AThrow (e : exn).
Definition decs := nat -> option decst.
Definition put (i : nat) (d : decst) (s : decs) : decs := fun k => if Nat.eqb k i then Some d else s k.
Definition on {A} (s : decs) (i : nat) (f : decst -> outcome (decst * A)) (k : A -> dec_answer) : option (decs * dec_answer) :=
  match s i with
  | Some d => match f d with Ret (d', x) => Some (put i d' s, k x) | Throw e => Some (s, AThrow e) | _ => None end
  | None => None
  end.
(** [None]: undefined, or not modelled *)
Definition dec_step (s : decs) (o : dec_op) : option (decs * dec_answer) :=
  match o with
  | DNew i => Some (put i dec_new s, ADone)
  | DMove i j => if Nat.eqb i j then None else match s i with Some d => Some (put i (dec_left d) (put j d s), ADone) | None => None end
  | DSucceed i v => on s i (fun d => Ret (mkDec v (wd_file d) (wd_header d) (wd_moved d), tt)) (fun _ => ADone)
  | DSetFile i p => on s i (fun d => Ret (dec_setFileData p d, tt)) (fun _ => ADone)
  | DSetHeader i h => on s i (fun d => Ret (dec_setDataHeader h d, tt)) (fun _ => ADone)
  | DRef i g => on s i (dec_getFileDataRef g) ARef
  | DGet i => on s i dec_getFileData AFile
  | DHeader i => on s i (fun d => h <- dec_getDataHeader d ;; Ret (d, h)) AHeader
  end.
Fixpoint dec_run (s : decs) (ops : list dec_op) : option (decs * list dec_answer) :=
  match ops with
  | [] => Some (s, [])
  | o :: r => match dec_step s o with
              | Some (s', x) => match dec_run s' r with Some (s'', xs) => Some (s'', x :: xs) | None => None end
              | None => None
              end
  end.
Definition dec_none : decs := fun _ => None.
