(** What the log may show: two calls that differ in secrets only. *)
From Coq Require Import Strings.String.
From Verif Require Import Base BytesModel MiscModel CipherModel PwModel PwSpec ChModel HeaderModel HeaderSpec FileModel ApiModel ApiSpec LogModel.
Open Scope N_scope.
Open Scope list_scope.

(** ** Objects that differ in secrets only *)
(** the same size *)
Definition sized (x y : Bytes) : Prop := lenN (bdata x) = lenN (bdata y) /\ bmax x = bmax y.
Definition opt_rel {A} (R : A -> A -> Prop) (x y : option A) : Prop :=
  match x, y with Some u, Some v => R u v | None, None => True | _, _ => False end.
(** headers that are equal up to the check value of the password *)
Definition parts_like (p q : dhparts) : Prop :=
  p_hmode p = p_hmode q /\ p_fmode p = p_fmode q /\ opt_rel sized (p_valid p) (p_valid q) /\ p_salt p = p_salt q /\
  p_dec p = p_dec q /\ p_enc p = p_enc q /\ p_ch1 p = p_ch1 q /\ p_ch2 p = p_ch2 q.
Definition header_like (d e : dheader) : Prop :=
  parts_like (d_parts d) (d_parts e) /\ d_hsize d = d_hsize e /\ sized (d_bytes d) (d_bytes e) /\ d_fsize d = d_fsize e /\ d_blen d = d_blen e.
Definition data_like (x y : filedata) : Prop := fd_mode x = fd_mode y /\ opt_rel sized (fd_data x) (fd_data y).
(** API objects that are equal up to the contents of the key, of the data, of the encrypted data and of the check value *)
Definition api_like (a b : api) : Prop :=
  a_state a = a_state b /\ a_mode a = a_mode b /\ opt_rel data_like (a_fdata a) (a_fdata b) /\ sized (a_key a) (a_key b) /\
  opt_rel sized (a_enc a) (a_enc b) /\ opt_rel header_like (a_dh a) (a_dh b) /\ a_file a = a_file b.
(** calls that are equal up to the password and the contents of the data *)
Definition op_like (o o' : op) : Prop :=
  match o, o' with
  | OVerify _ t, OVerify _ t' => t = t'
  | OHeader _ ds t, OHeader _ ds' t' => ds = ds' /\ t = t'
  | OHeaderTime _ ds, OHeaderTime _ ds' => ds = ds'
  | OEncrypt x, OEncrypt x' => opt_rel data_like x x'
  | _, _ => o = o'
  end.
Definition reply_like (r r' : reply) : Prop :=
  match r, r' with RData x, RData y => data_like x y | _, _ => r = r' end.
(** two calls end in the same way *)
Definition ends_like (x y : outcome (api * reply)) : Prop :=
  match x, y with
  | Ret (a, r), Ret (b, r') => api_like a b /\ reply_like r r'
  | Throw e, Throw e' => e = e'
  | Crash c, Crash c' => c = c'
  | OutOfFuel, OutOfFuel => True
  | _, _ => False
  end.
(** files with the same names and sizes *)
Definition files_like (f g : fs) : Prop := forall l, option_map lenN (f l) = option_map lenN (g l).
Definition is_verify (o : op) : bool := match o with OVerify _ _ => true | _ => false end.
Definition is_write (o : op) : bool := match o with OWrite | OWriteTo _ => true | _ => false end.

(** ** The lines that show the check value *)
(** setValidPasswordHashBytes (dataheader.cpp 74), and the dump of an incomplete header (dataheader.h 244) *)
Definition shows_check (l : line) : bool :=
  match l_src l, l_no l with Dataheader_cpp, 74 => true | Dataheader_h, 244 => true | _, _ => false end.
(** the third value of the dump, the only one of the other line *)
Definition hide (l : line) : line :=
  mkLine (l_sev l) (l_src l) (l_no l)
    (match l_src l, l_no l with
     | Dataheader_cpp, 74 => []
     | Dataheader_h, 244 => match l_fields l with x :: y :: _ :: r => x :: y :: Unset :: r | fs => fs end
     | _, _ => l_fields l
     end).

(** ** A whole session *)
(** calls with their surroundings, in order; between two calls other programs may change the files *)
Fixpoint session (calls : list (world * fs * op)) (a : api) : option (list line * list reply * api) :=
  match calls with
  | [] => Some ([], [], a)
  | (w, f, o) :: r =>
      match snd (step w a f o) with
      | Ret (a', x) =>
          match session r a' with
          | Some (ls, xs, b) => Some (lines_of w a f o ++ ls, x :: xs, b)
          | None => None
          end
      | _ => None
      end
  end.
(** the same surroundings, and calls that differ in secrets only *)
Definition calls_like (x y : world * fs * op) : Prop := fst x = fst y /\ op_like (snd x) (snd y).

(** ** Severities *)
Definition at_least (s : severity) (l : line) : bool := rank s <=? rank (l_sev l).

(** ** What a call that succeeds shows of a header *)
Definition chain_shown (c : N * N * bytes) : list field := [Num (fst (fst c)); Num (snd (fst c)); Hex (snd c); Flag true].
Definition dh (n : N) (fs : list field) : line := mkLine SVerbose Dataheader_cpp n fs.
Definition lookup (hmode : N) : line := mkLine SVerbose Hash_modes_cpp 19 [Num hmode].
(** a header object is built from its parts *)
Definition built_log (h : header) : list line :=
  [ dh 11 [Num (h_hmode h)]; lookup (h_hmode h); lookup (h_hmode h); dh 67 [Num (h_fmode h)];
    dh 43 (chain_shown (h_ch1 h)); dh 55 (chain_shown (h_ch2 h)); dh 74 [Hex (h_valid h)]; dh 145 [Hex (h_salt h)] ].
(** a header is read from a file of [n] bytes *)
Definition read_log (n : N) (h : header) : list line := built_log h ++ [dh 114 [Num n]; dh 168 [Flag false]].

(** ** What a reader of the log learns *)
(** the hash mode, the two chain hashes and the check value, from the last lines that show them *)
Record findings := mkFindings { g_hmode : option N; g_ch1 : option (N * N * bytes); g_ch2 : option (N * N * bytes); g_valid : option bytes }.
Definition note (g : findings) (l : line) : findings :=
  match l_src l, l_no l, l_fields l with
  | Dataheader_cpp, 11, [Num m] => mkFindings (Some m) (g_ch1 g) (g_ch2 g) (g_valid g)
  | Dataheader_cpp, 43, [Num m; Num n; Hex b; Flag true] => mkFindings (g_hmode g) (Some (m, n, b)) (g_ch2 g) (g_valid g)
  | Dataheader_cpp, 55, [Num m; Num n; Hex b; Flag true] => mkFindings (g_hmode g) (g_ch1 g) (Some (m, n, b)) (g_valid g)
  | Dataheader_cpp, 74, [Hex b] => mkFindings (g_hmode g) (g_ch1 g) (g_ch2 g) (Some b)
  | _, _, _ => g
  end.
Definition study (ls : list line) : findings := fold_left note ls (mkFindings None None None None).
(** a guessed password fits what the log shows *)
Definition fits_log (H : hashes) (ls : list line) (pw : bytes) : Prop :=
  match study ls with
  | mkFindings (Some m) (Some c1) (Some c2) (Some v) => v = chain_value (hash_of H m) c2 (chain_value (hash_of H m) c1 pw)
  | _ => False
  end.

(** ** The log of a call that succeeds *)
Definition api_h (n : N) (fs : list field) : line := mkLine SDebug Api_h n fs.
Definition api_cpp (s : severity) (n : N) (fs : list field) : line := mkLine s Api_cpp n fs.
Definition settings_shown (ds : dhsettings) : list field :=
  map (fun o => match o with Some n => Num n | None => Unset end) [s_fmode ds; s_hmode ds; s_ch1 ds; s_n1 ds; s_ch2 ds; s_n2 ds].
(** a chain hash is computed *)
Definition hashing (n : N) (c : N * N * bytes) (limit : N) : line :=
  mkLine SVerbose Chainhash_modes_cpp n [Num (fst (fst c)); Num (iterations c); Num limit].
(** the height and the size that a block chain reports after it was fed with [n] bytes in blocks of [b] bytes:
    height 0, and the room in the last block below zero, modulo 2^64 *)
Definition chain_sizes (b n : N) (fs : list field) : Prop :=
  exists room, room <= b /\ (n + room) mod b = 0 /\ fs = [Num 0; Num ((2 ^ 64 - room) mod 2 ^ 64)].
Definition nothing (c : bytes) : bool := match c with [] => true | _ => false end.
(** [s]: the state before the call; [h]: the header in use after it, if the call deals with a header *)
Definition logged (tr : list entry) (e : entry) (s : state) (h : header) (ls : list line) : Prop :=
  let sel k := match selected tr with Some (p, c) => k p c | None => False end in
  match e_op e with
  | OLogout => ls = [api_h 461 []; api_h 221 []]
  | OLogoutMode m => ls = [api_h 456 [Num m]; api_h 221 []]
  | OList _ => True
  | OCreate p => ls = [api_h 346 [Txt p]; mkLine SVerbose Filehandler_cpp 60 [Txt p]]
  | OSelect p =>
      let c := content (e_before e) (w_loc (e_world e) p) in
      ls = [api_h 353 [Txt p]; api_cpp SVerbose 372 [Txt p]] ++
           (if nothing c then [mkLine SWarning Utility_cpp 91 []; api_cpp SInfo 226 [Txt p]; api_h 239 []]
            else read_log (lenN c) h ++ [api_cpp SInfo 242 [Txt p]; api_h 229 []])
  | OIsEmpty => ls = [api_h 359 []]
  | OUnselect => sel (fun p c => ls = [api_h 365 []; api_cpp SVerbose (if nothing c then 427 else 422) [Txt p]; api_h 221 []])
  | ODelete =>
      sel (fun p c => ls = [api_h 371 []; api_cpp SVerbose (if nothing c then 401 else 396) [Txt p];
                            api_cpp SVerbose (if nothing c then 427 else 422) [Txt p]; api_h 221 []])
  | OContent => sel (fun p c => ls = api_h 377 [] :: (if nothing c then [] else [mkLine SVerbose Filehandler_cpp 248 [Txt p]]))
  | OVerify _ t =>
      ls = [api_h 387 [Num t]; api_cpp SVerbose 437 [Num t]; lookup (h_hmode h); hashing 97 (h_ch1 h) t;
            hashing 63 (h_ch2 h) ((t + 2 ^ 64 - w_elapsed (e_world e)) mod 2 ^ 64); api_cpp SInfo 475 []; api_h 250 []]
  | OHeader _ ds t =>
      let first := match s with DECRYPTED => [api_cpp SVerbose 654 (settings_shown ds ++ [Num t])] | _ => [] end in
      let last := match s with DECRYPTED => [api_cpp SInfo 664 []] | _ => [api_cpp SInfo 514 []; api_h 256 []] end in
      ls = [api_h 400 [Num t; Num (iterations (h_ch1 h)); Num (iterations (h_ch2 h))]] ++ first ++
           [api_cpp SVerbose 36 (settings_shown ds ++ [Num t]); lookup (h_hmode h); lookup (h_hmode h);
            hashing 97 (h_ch1 h) t; hashing 63 (h_ch2 h) (t - w_elapsed (e_world e))] ++ built_log h ++ last
  | OHeaderTime _ _ => False
  | OSalt => ls = [api_h 415 []; api_cpp SVerbose 626 []] ++ built_log h
  | ODecrypt =>
      match e_reply e with
      | RData (mkFD _ (Some b)) =>
          exists fs, chain_sizes (digest_len (h_hmode h)) (lenN (bdata b)) fs /\
            ls = [api_h 423 []; api_cpp SVerbose 554 []; lookup (h_hmode h); mkLine SVerbose Blockchain_decrypt_h 13 [];
                  mkLine SVerbose Blockchain_cpp 53 fs; mkLine SDebug Blockchain_cpp 77 fs; api_h 256 []]
      | _ => False
      end
  | OGetData => ls = [api_h 430 []]
  | OEncrypt x =>
      match x with
      | Some (mkFD _ (Some b)) =>
          exists fs, chain_sizes (digest_len (h_hmode h)) (lenN (bdata b)) fs /\
            ls = [api_h 437 []; api_cpp SVerbose 576 []; dh 131 [Num (lenN (bdata b))]; dh 168 [Flag false]; lookup (h_hmode h);
                  mkLine SVerbose Blockchain_encrypt_h 13 []; mkLine SVerbose Blockchain_cpp 72 fs; mkLine SDebug Blockchain_cpp 77 fs; api_h 266 []]
      | _ => False
      end
  | OWrite => sel (fun p _ => ls = [api_h 444 []; api_cpp SVerbose 723 [Txt p]; mkLine SVerbose Filehandler_cpp 199 [Txt p]; api_h 273 []])
  | OWriteTo q => ls = [api_h 449 [Txt q]; api_cpp SVerbose 700 [Txt q]; mkLine SWarning Utility_cpp 91 []; mkLine SVerbose Filehandler_cpp 199 [Txt q]; api_h 273 []]
  end.
(** calls whose log depends on the header *)
Definition of_header (e : entry) : bool :=
  match e_op e with
  | OSelect p => negb (nothing (content (e_before e) (w_loc (e_world e) p)))
  | OVerify _ _ | OHeader _ _ _ | OSalt | ODecrypt | OEncrypt _ => true
  | _ => false
  end.
(** calls that show a whole header *)
Definition shows_header (o : op) : bool := match o with OSelect _ | OHeader _ _ _ | OSalt => true | _ => false end.

(** ** The check of a new password: its first bad character, or its length if there is none *)
Definition char_code (c : byte) (x : field) : Prop := (b2n c < 128 /\ x = Num (b2n c)) \/ (128 <= b2n c /\ x = Minus (256 - b2n c)).
Definition password_log (pw : bytes) (ls : list line) : Prop :=
  (Forall allowed pw /\ 8 <= lenN pw < 2 ^ 31 /\ ls = []) \/
  (Forall allowed pw /\ lenN pw < 8 /\ ls = [mkLine SWarning Pwfunc_cpp 29 [Num (lenN pw); Num 8]]) \/
  (exists p c r x, pw = p ++ c :: r /\ Forall allowed p /\ ~ allowed c /\ char_code c x /\ lenN p < 2 ^ 31 /\ ls = [mkLine SWarning Pwfunc_cpp 21 [Txt [c]; x]]) \/
  (exists p r, pw = p ++ r /\ Forall allowed p /\ lenN p = 2 ^ 31 /\ ls = []).

(** ** Failures in the log *)
(** the severity that a failure deserves: a wrong password and a time limit are warnings *)
Definition due (r : reply) : severity := match r with RErr _ ERR_PASSWORD_INVALID | RErr _ ERR_TIMEOUT => SWarning | _ => SError end.
Definition told (s : severity) (ls : list line) : Prop := exists l, In l ls /\ at_least s l = true.
(** a warning that means nothing: a read from an empty file got nothing *)
Definition empty_read (l : line) : Prop := l = mkLine SWarning Utility_cpp 91 [].
Definition opens_empty (w : world) (f : fs) (o : op) : bool := match o with OSelect p | OWriteTo p => nothing (content f (w_loc w p)) | _ => false end.
