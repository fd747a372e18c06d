(** Specification for C98: the log of selecting a file with a mode that does not exist. *)
From Coq Require Import Strings.String.
From Verif Require Import Base BytesModel PwModel ChModel HeaderModel HeaderSpec FileModel ApiModel ApiSpec LogModel LogSpec.
Open Scope N_scope.
Open Scope list_scope.

(** an error of dataheader.cpp about the mode [m], after an exception *)
Definition mode_error (n m : N) : line := mkLine SError Dataheader_cpp n [Num m; What InvalidArgument].
(** the whole log of selecting the file [p] with hash mode [hm] and file mode [fm], and the answer: the hash mode is looked at first *)
Definition bad_mode (p : bytes) (fm hm : N) : list line * errcode :=
  let start := [api_h 353 [Txt p]; api_cpp SVerbose 372 [Txt p]; dh 11 [Num hm]] in
  let stop c m := api_cpp SError 238 [Code c; Txt [n2b m]; What InvalidArgument] in
  if (1 <=? hm) && (hm <=? 3)
  then (start ++ [lookup hm; lookup hm; dh 67 [Num fm]; mkLine SError Dataheader_h 201 [Num fm]; mode_error 710 fm; stop ERR_FILEMODE_INVALID fm], ERR_FILEMODE_INVALID)
  else (start ++ [mkLine SError Dataheader_h 211 [Num hm]; mode_error 698 hm; stop ERR_HASHMODE_INVALID hm], ERR_HASHMODE_INVALID).
(** the same if the mode [m] of the first chain hash does not exist: the three parts of the format complain *)
Definition bad_chain_mode (p : bytes) (hm m : N) : list line :=
  [api_h 353 [Txt p]; api_cpp SVerbose 372 [Txt p]; dh 11 [Num hm]; lookup hm; lookup hm; dh 67 [Num 1];
   mkLine SFatal Format_cpp 24 [Num m]; mkLine SFatal Format_cpp 43 [Num m]; mkLine SFatal Format_cpp 52 [Num m]; mode_error 776 m;
   api_cpp SError 238 [Code ERR_CHAINHASHMODE_FORMAT_INVALID; Txt [n2b m]; What InvalidArgument]].
