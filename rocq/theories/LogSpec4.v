(** Specification for C98: the log of a path that is refused. *)
From Coq Require Import Strings.String.
From Verif Require Import Base BytesModel BytesSpec MiscModel CipherModel PwModel ChModel HeaderModel HeaderSpec FileModel ApiModel ApiSpec LogModel LogSpec.
Open Scope N_scope.
Open Scope list_scope.

(** the extension of a path: from the last dot of the file name on, unless the name begins there; the file name is what follows the last slash *)
Definition ext_of (p x : bytes) : Prop := exists d n, p = d ++ n ++ x /\ (d = [] \/ exists d', d = d' ++ str "/") /\ ~ In x2f (n ++ x) /\
  ((x = [] /\ (n = str "." \/ n = str ".." \/ ~ In x2e n \/ exists t, n = x2e :: t /\ ~ In x2e t)) \/
   (exists t, x = x2e :: t /\ ~ In x2e t /\ n <> [] /\ n ++ x <> str "..")).
(** the path [p] is refused with the error [c] and the line [l] when a file is to be found there ([old]) or not *)
Definition refused (w : world) (f : fs) (p : bytes) (old : bool) (c : errcode) (l : line) : Prop :=
  let line n fs := l = mkLine SError Filehandler_cpp n (Txt p :: fs) in
  match c with
  | ERR_EMPTY_FILEPATH => p = [] /\ line 22 []
  | ERR_EXTENSION_INVALID => p <> [] /\ ~ enc_path p /\ exists x, ext_of p x /\ line 28 [Txt x]
  | ERR_FILE_NOT_FOUND => old = true /\ enc_path p /\ f (w_loc w p) = None /\ line 35 []
  | ERR_FILE_NOT_OPEN => old = true /\ enc_path p /\ f (w_loc w p) <> None /\ w_read w p = false /\ line 42 []
  | ERR_FILE_EXISTS => old = false /\ enc_path p /\ f (w_loc w p) <> None /\ line 49 []
  | _ => False
  end.
(** the whole log of selectFile and of createFile in that case *)
Definition select_refused (p : bytes) (c : errcode) (l : line) : list line :=
  [api_h 353 [Txt p]; api_cpp SVerbose 372 [Txt p]; l; api_cpp SError 17 [Txt p; Code c; Txt p]; api_cpp SError 376 [Code c; Txt p]].
Definition create_refused (p : bytes) (c : errcode) (l : line) : list line :=
  [api_h 346 [Txt p]; mkLine SVerbose Filehandler_cpp 60 [Txt p]; l; mkLine SError Filehandler_cpp 67 [Code c; Txt p]].
(** a file with wrong sizes: the lines about it and the exception; an empty file is none *)
Definition size_trouble (c : bytes) : option (list line * exn) :=
  let n := lenN c in
  let hsz := be_val (takeN 8 (dropN 8 c)) in
  let fh k := mkLine SError Filehandler_cpp k [] in
  let short := mkLine SWarning Utility_cpp 91 [] in
  if n =? 0 then None
  else if n <? 8 then Some ([short; fh 105], LengthError)
  else if negb (be_val (takeN 8 c) =? n) then Some ([fh 110], LogicError)
  else if n <? 16 then Some ([short; fh 115], LengthError)
  else if n <? hsz then Some ([fh 122], LogicError)
  else if hsz <? 104 then Some ([fh 126], LengthError)
  else None.
Definition select_sizes (p : bytes) (ls : list line) (e : exn) : list line :=
  [api_h 353 [Txt p]; api_cpp SVerbose 372 [Txt p]] ++ ls ++ [api_cpp SError 24 [What e]; api_cpp SError 376 [Code ERR_FILEHANDLER_CREATION; What e]].
