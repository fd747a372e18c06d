(** Property C98, continued: the whole log of a file with a mode that does not exist, and of a path that is refused. *)
From Coq Require Import Strings.String.
From Verif Require Import Base BytesModel BytesSpec MiscModel CipherModel PwModel ChModel HeaderModel HeaderSpec Toy FileModel ApiModel ApiSpec LogModel LogSpec LogSpec3 LogFacts13 LogSpec4 LogFacts14 LogFacts15 Properties_Header Properties_File Properties_Api.
Open Scope N_scope.
Open Scope list_scope.

Theorem C98_bad_mode : forall w a f p c hsz fm hm r, (forall i k, lenN (w_rnd w i k) = k) -> fs_ok f -> a_state a = INIT -> enc_path p -> w_stat w p = true -> w_read w p = true -> f (w_loc w p) = Some c ->
  c = u64 (lenN c) ++ u64 hsz ++ u8 fm ++ u8 hm ++ r -> 104 <= hsz <= lenN c -> fm < 256 -> hm < 256 -> ~ (fm = 1 /\ 1 <= hm <= 3) ->
  lines_of w a f (OSelect p) = fst (bad_mode p fm hm) /\ step w a f (OSelect p) = (f, Ret (a, RErr FAIL (snd (bad_mode p fm hm)))).
Proof. exact select_bad_mode. Qed.
Print Assumptions C98_bad_mode.
Definition odd_file (fm hm : N) : bytes := u64 120 ++ u64 110 ++ u8 fm ++ u8 hm ++ repeat x41 102.
Definition odd_log (fm hm : N) : list line := lines_of ex_world (fresh 1) (one_file (odd_file fm hm)) (OSelect a_enc_path).
Example C98_bad_mode_ex :
  odd_log 2 3 = [api_h 353 [Txt a_enc_path]; api_cpp SVerbose 372 [Txt a_enc_path]; dh 11 [Num 3]; lookup 3; lookup 3; dh 67 [Num 2]; mkLine SError Dataheader_h 201 [Num 2];
                 mkLine SError Dataheader_cpp 710 [Num 2; What InvalidArgument]; api_cpp SError 238 [Code ERR_FILEMODE_INVALID; Txt [x02]; What InvalidArgument]] /\
  odd_log 2 4 = [api_h 353 [Txt a_enc_path]; api_cpp SVerbose 372 [Txt a_enc_path]; dh 11 [Num 4]; mkLine SError Dataheader_h 211 [Num 4];
                 mkLine SError Dataheader_cpp 698 [Num 4; What InvalidArgument]; api_cpp SError 238 [Code ERR_HASHMODE_INVALID; Txt [x04]; What InvalidArgument]] /\
  lenN (odd_file 2 3) = 120 /\ odd_file 2 3 = u64 (lenN (odd_file 2 3)) ++ u64 110 ++ u8 2 ++ u8 3 ++ repeat x41 102 /\
  a_state (fresh 1) = INIT /\ w_stat ex_world a_enc_path = true /\ w_read ex_world a_enc_path = true /\ one_file (odd_file 2 3) (w_loc ex_world a_enc_path) = Some (odd_file 2 3).
Proof. vm_compute. repeat split. Qed.
(** selectFile takes the path of a file that can be read, createFile the path of none; every other path is in the log with the reason *)
Theorem C98_path_select : forall w a f p, a_state a = INIT -> w_stat w p = true -> ~ (enc_path p /\ f (w_loc w p) <> None /\ w_read w p = true) ->
  exists c l, refused w f p true c l /\ lines_of w a f (OSelect p) = select_refused p c l /\ step w a f (OSelect p) = (f, Ret (a, RErr FAIL c)).
Proof. exact select_path. Qed.
Print Assumptions C98_path_select.
Theorem C98_path_create : forall w a f p, a_state a = INIT -> w_stat w p = true -> ~ (enc_path p /\ f (w_loc w p) = None) ->
  exists c l, refused w f p false c l /\ lines_of w a f (OCreate p) = create_refused p c l /\ step w a f (OCreate p) = (f, Ret (a, RErr FAIL c)).
Proof. exact create_path. Qed.
Print Assumptions C98_path_create.
Definition odd_path : bytes := str "dir.d/a.b.txt".
Definition no_files : fs := fun _ => None.
Definition fh (n : N) (fs : list field) : line := mkLine SError Filehandler_cpp n fs.
Example C98_path_ex :
  lines_of ex_world (fresh 1) no_files (OSelect odd_path) =
    [api_h 353 [Txt odd_path]; api_cpp SVerbose 372 [Txt odd_path]; fh 28 [Txt odd_path; Txt (str ".txt")];
     api_cpp SError 17 [Txt odd_path; Code ERR_EXTENSION_INVALID; Txt odd_path]; api_cpp SError 376 [Code ERR_EXTENSION_INVALID; Txt odd_path]] /\
  map (fun p => nth 2 (lines_of ex_world (fresh 1) no_files (OSelect p)) (fh 0 [])) [[]; str "dir.d/.enc"; str ".."; a_enc_path] =
    [fh 22 [Txt []]; fh 28 [Txt (str "dir.d/.enc"); Txt []]; fh 28 [Txt (str ".."); Txt []]; fh 35 [Txt a_enc_path]] /\
  lines_of ex_world (fresh 1) (one_file []) (OCreate a_enc_path) =
    [api_h 346 [Txt a_enc_path]; mkLine SVerbose Filehandler_cpp 60 [Txt a_enc_path]; fh 49 [Txt a_enc_path]; fh 67 [Code ERR_FILE_EXISTS; Txt a_enc_path]] /\
  w_stat ex_world odd_path = true /\ w_stat ex_world a_enc_path = true /\ a_state (fresh 1) = INIT /\ one_file [] (w_loc ex_world a_enc_path) = Some [].
Proof. vm_compute. repeat split. Qed.
(** a file whose sizes are wrong *)
Theorem C98_sizes : forall w a f p c ls e, a_state a = INIT -> enc_path p -> w_stat w p = true -> w_read w p = true -> f (w_loc w p) = Some c -> size_trouble c = Some (ls, e) ->
  lines_of w a f (OSelect p) = select_sizes p ls e /\ step w a f (OSelect p) = (f, Ret (a, RErr FAIL ERR_FILEHANDLER_CREATION)).
Proof. exact select_wrong_size. Qed.
Print Assumptions C98_sizes.
Definition sized_file (n hsz : N) : bytes := u64 n ++ u64 hsz ++ repeat x41 104.
Example C98_sizes_ex :
  lines_of ex_world (fresh 1) (one_file (sized_file 120 121)) (OSelect a_enc_path) =
    [api_h 353 [Txt a_enc_path]; api_cpp SVerbose 372 [Txt a_enc_path]; fh 122 []; api_cpp SError 24 [What LogicError]; api_cpp SError 376 [Code ERR_FILEHANDLER_CREATION; What LogicError]] /\
  map size_trouble [sized_file 120 103; sized_file 121 110; u64 8; repeat x00 7; u64 12 ++ repeat x00 4] =
    [Some ([fh 126 []], LengthError); Some ([fh 110 []], LogicError); Some ([mkLine SWarning Utility_cpp 91 []; fh 115 []], LengthError);
     Some ([mkLine SWarning Utility_cpp 91 []; fh 105 []], LengthError); Some ([mkLine SWarning Utility_cpp 91 []; fh 115 []], LengthError)] /\
  map size_trouble [[]; sized_file 120 104; sized_file 120 120] = [None; None; None].
Proof. vm_compute. repeat split. Qed.
(** a file whose first chain hash has a mode that does not exist *)
Theorem C98_bad_chain_mode : forall w a f p c hsz hm bs m r, (forall i k, lenN (w_rnd w i k) = k) -> fs_ok f -> a_state a = INIT -> enc_path p -> w_stat w p = true -> w_read w p = true -> f (w_loc w p) = Some c ->
  c = pre (lenN c) hsz hm (lenN bs) bs ++ u8 m ++ r -> 104 <= hsz <= lenN c -> 1 <= hm <= 3 -> Forall good bs -> lenN bs <= 255 -> m < 256 -> ~ (1 <= m <= 5) ->
  lines_of w a f (OSelect p) = bad_chain_mode p hm m /\ step w a f (OSelect p) = (f, Ret (a, RErr FAIL ERR_CHAINHASHMODE_FORMAT_INVALID)).
Proof. exact select_bad_chain. Qed.
Print Assumptions C98_bad_chain_mode.
Definition odd_chain (m : N) : bytes := pre 127 110 2 2 [(7, [x41]); (8, [x42; x43])] ++ u8 m ++ repeat x41 100.
Example C98_bad_chain_mode_ex :
  map (fun m => lines_of ex_world (fresh 1) (one_file (odd_chain m)) (OSelect a_enc_path)) [0; 6] = map (bad_chain_mode a_enc_path 2) [0; 6] /\
  lenN (odd_chain 6) = 127 /\ lenN [(7, [x41]); (8, [x42; x43])] = 2 /\ one_file (odd_chain 6) (w_loc ex_world a_enc_path) = Some (odd_chain 6) /\
  nth 9 (lines_of ex_world (fresh 1) (one_file (odd_chain 6)) (OSelect a_enc_path)) (fh 0 []) = mkLine SError Dataheader_cpp 776 [Num 6; What InvalidArgument].
Proof. vm_compute. repeat split. Qed.
