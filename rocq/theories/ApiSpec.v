(** What the file handler and the API are supposed to do, and the histories of calls on an API object. *)
From Coq Require Import Strings.String.
From Verif Require Import Base BytesModel MiscModel CipherModel CipherSpec PwModel PwSpec ChModel ChSpec HeaderModel HeaderSpec FileModel ApiModel.

(** ** Paths and file contents *)
(** a path of an .enc file: something, not ending in a slash, and then ".enc" *)
Definition enc_path (p : bytes) : Prop := exists a c, p = a ++ [c] ++ str ".enc" /\ c <> x2f.
(** a file that can be selected as far as its size fields are concerned *)
Definition sizes_fit (c : bytes) (hsz : N) : Prop := exists rest, c = u64 (lenN c) ++ u64 hsz ++ rest /\ 104 <= hsz <= lenN c.
(** sizes that a file system has *)
Definition fs_ok (f : fs) : Prop := forall l c, f l = Some c -> lenN c < 2 ^ 63.

(** ** Which calls a state offers, and where a successful call leads *)
Definition offered (s : state) (o : op) : bool :=
  match s, o with
  | _, (OLogout | OLogoutMode _) => true
  | INIT, (OList _ | OCreate _ | OSelect _) => true
  | FILE_SELECTED, (OIsEmpty | OUnselect | ODelete | OContent | OVerify _ _) => true
  | EMPTY_FILE_SELECTED, (OIsEmpty | OUnselect | ODelete | OContent | OHeader _ _ _ | OHeaderTime _ _) => true
  | PASSWORD_VERIFIED, ODecrypt => true
  | DECRYPTED, (OEncrypt _ | OGetData | OSalt | OHeader _ _ _ | OHeaderTime _ _) => true
  | ENCRYPTED, (OWrite | OWriteTo _) => true
  | _, _ => false
  end.
Definition succeeded (r : reply) : bool := match r with RErr _ _ => false | _ => true end.
(** [empty]: whether the file that is selected is empty *)
Definition next_state (s : state) (o : op) (empty : bool) : state :=
  match o with
  | OSelect _ => if empty then EMPTY_FILE_SELECTED else FILE_SELECTED
  | OUnselect | ODelete | OLogout | OLogoutMode _ => INIT
  | OVerify _ _ => PASSWORD_VERIFIED
  | OHeader _ _ _ | ODecrypt => DECRYPTED
  | OEncrypt _ => ENCRYPTED
  | OWrite | OWriteTo _ => FINISHED
  | _ => s
  end.

(** ** Histories *)
Definition world_ok (bd : build) (H : hashes) (w : world) : Prop :=
  w_build w = bd /\ w_hashes w = H /\ (forall i k, lenN (w_rnd w i k) = k) /\ w_elapsed w < 2 ^ 64.
(** arguments that a program can pass *)
Definition settings_made (ds : dhsettings) : Prop :=
  (exists ops, slots ds = slots (set_run 1000000000 ops)) /\ Forall block_made (s_dec ds) /\ Forall enc_made (s_enc ds).
Definition op_ok (o : op) : Prop :=
  match o with
  | OVerify _ t => t < 2 ^ 64
  | OHeader _ ds t => settings_made ds /\ t < 2 ^ 64
  | OEncrypt (Some x) => forall b, fd_data x = Some b -> getLen b < 2 ^ 63
  | _ => True
  end.
(** a call that has returned *)
Record entry := mkEntry { e_world : world; e_before : fs; e_op : op; e_reply : reply; e_after : fs }.
(** Calls on an object made by the constructor; the newest is first.  Between two calls other programs may
    change any file, so the file systems of different entries are not related. *)
Inductive history (bd : build) (H : hashes) (mode : N) : list entry -> api -> Prop :=
| hist_new a : newAPI mode = Ret a -> history bd H mode [] a
| hist_call tr a w f o f' a' r : history bd H mode tr a -> world_ok bd H w -> fs_ok f -> op_ok o ->
    step w a f o = (f', Ret (a', r)) -> history bd H mode (mkEntry w f o r f' :: tr) a'.

(** the content of a file that exists *)
Definition content (f : fs) (l : N) : bytes := match f l with Some c => c | None => [] end.
(** a call that closes the file *)
Definition closes (e : entry) : bool :=
  match e_op e, e_reply e with
  | (OLogout | OLogoutMode _), _ => true
  | (OUnselect | ODelete), ROk => true
  | _, _ => false
  end.
(** the selected file: its path, and what it contained when it was selected *)
Fixpoint selected (tr : list entry) : option (bytes * bytes) :=
  match tr with
  | [] => None
  | e :: r =>
      if closes e then None
      else match e_op e, e_reply e with
           | OSelect p, ROk => Some (p, content (e_before e) (w_loc (e_world e) p))
           | _, _ => selected r
           end
  end.
(** the password last verified or chosen for the selected file *)
Fixpoint password (tr : list entry) : option bytes :=
  match tr with
  | [] => None
  | e :: r =>
      if closes e then None
      else match e_op e, e_reply e with
           | OSelect _, ROk => None
           | OVerify pw _, ROk => Some pw
           | OHeader pw _ _, ROk => Some pw
           | _, _ => password r
           end
  end.
(** the data last encrypted since the file was selected *)
Fixpoint encrypted (tr : list entry) : option bytes :=
  match tr with
  | [] => None
  | e :: r =>
      if closes e then None
      else match e_op e, e_reply e with
           | OSelect _, ROk => None
           | OEncrypt (Some (mkFD _ (Some b))), ROk => Some (bdata b)
           | _, _ => encrypted r
           end
  end.

(** ** Keys and files *)
(** the key that a password gives for a header, and the validator of a key *)
Definition key_of (H : hashes) (h : header) (pw : bytes) : bytes := chain_value (hash_of H (h_hmode h)) (h_ch1 h) pw.
Definition validator (H : hashes) (h : header) (key : bytes) : bytes := chain_value (hash_of H (h_hmode h)) (h_ch2 h) key.
Definition opens (H : hashes) (h : header) (pw : bytes) : Prop := h_valid h = validator H h (key_of H h pw).
Definition cipher_of (H : hashes) (h : header) (pw data : bytes) : bytes :=
  spec_enc (hash_of H (h_hmode h)) (digest_len (h_hmode h)) (key_of H h pw) (h_salt h) data.
Definition plain_of (H : hashes) (h : header) (pw body : bytes) : bytes :=
  spec_dec (hash_of H (h_hmode h)) (digest_len (h_hmode h)) (key_of H h pw) (h_salt h) body.
(** a file that holds [data], protected by [pw] under the header [h] *)
Definition sealed (H : hashes) (h : header) (pw data c : bytes) : Prop :=
  header_ok h /\ opens H h pw /\ c = ser (hdr_len h + lenN data) h ++ cipher_of H h pw data.
(** a header with another salt *)
Definition with_salt (s : bytes) (h : header) : header :=
  mkHeader (h_fmode h) (h_hmode h) (h_blocks h) (h_ch1 h) (h_ch2 h) (h_valid h) s (h_encs h).

(** the password last verified for the selected file *)
Fixpoint verified (tr : list entry) : option bytes :=
  match tr with
  | [] => None
  | e :: r =>
      if closes e then None
      else match e_op e, e_reply e with
           | OSelect _, ROk => None
           | OVerify pw _, ROk => Some pw
           | _, _ => verified r
           end
  end.

(** ** Circumstances under which calls go through *)
(** a file that may be read and written *)
Definition usable_file (w : world) (p : bytes) : Prop := w_stat w p = true /\ w_read w p = true /\ w_write w p = true.
(** no timeout strikes in verifyPassword: neither limit is reached when the clock is read, and the limit is not
    met exactly between the chain hashes (the second limit is computed by the call, modulo 2^64) *)
Definition verify_in_time (w : world) (t : N) (it1 it2 : N) : Prop :=
  ~ reached (w_clk1 w) t (readings_string it1) /\ (t <> 0 -> w_elapsed w <> t) /\
  ~ reached (w_clk2 w) ((t + 2 ^ 64 - w_elapsed w) mod 2 ^ 64) (readings_bytes it2).
(** the same for createDataHeader, where the rest of the time is the limit of the second chain hash *)
Definition create_in_time (w : world) (t : N) (it1 it2 : N) : Prop :=
  ~ reached (w_clk1 w) t (readings_string it1) /\ (t <> 0 -> w_elapsed w < t) /\
  ~ reached (w_clk2 w) (t - w_elapsed w) (readings_bytes it2).

(** ** The header that createDataHeader makes *)
Definition created (H : hashes) (w : world) (ds : dhsettings) (pw : bytes) (h : header) : Prop :=
  h_fmode h = 1 /\ s_hmode ds = Some (h_hmode h) /\
  (exists m n, s_ch1 ds = Some m /\ s_n1 ds = Some n /\ h_ch1 h = (m, n, w_rnd w 0 (mode_size m))) /\
  (exists m n, s_ch2 ds = Some m /\ s_n2 ds = Some n /\ h_ch2 h = (m, n, w_rnd w 1 (mode_size m))) /\
  h_salt h = w_rnd w 2 (digest_len (h_hmode h)) /\
  h_blocks h = map (fun b => (db_type b, bdata (db_data b))) (s_dec ds) /\
  h_encs h = map (fun e => (db_type (eb_block e), eb_len e, bdata (db_data (eb_block e)))) (s_enc ds) /\
  opens H h pw.

(** the header in use: that of the selected file, or the last one created, with the last new salt *)
Fixpoint current (H : hashes) (tr : list entry) (h : header) : Prop :=
  match tr with
  | [] => False
  | e :: r =>
      if closes e then False
      else match e_op e, e_reply e with
           | OSelect p, ROk => exists hsz l1 l2 rest, written_as (content (e_before e) (w_loc (e_world e) p)) hsz l1 l2 h rest
           | OHeader pw ds _, ROk => created H (e_world e) ds pw h
           | OSalt, ROk => exists h0, current H r h0 /\ h = with_salt (w_rnd (e_world e) 0 (digest_len (h_hmode h0))) h0
           | _, _ => current H r h
           end
  end.

(** ** Sequences of calls, without interference from other programs *)
Fixpoint calls (l : list (world * op)) (a : api) (f : fs) : option (list reply * api * fs) :=
  match l with
  | [] => Some ([], a, f)
  | (w, o) :: r =>
      match step w a f o with
      | (f', Ret (a', x)) =>
          match calls r a' f' with Some (xs, a2, f2) => Some (x :: xs, a2, f2) | None => None end
      | _ => None
      end
  end.

(** ** Files that a call may change *)
(** the path whose file a call may change, after the calls [tr] *)
Definition target (tr : list entry) (o : op) : option bytes :=
  match o with
  | OCreate p | OWriteTo p => Some p
  | OWrite | ODelete => match selected tr with Some (p, _) => Some p | None => None end
  | _ => None
  end.
(** all settings that createDataHeader needs *)
Definition settings_complete (ds : dhsettings) : Prop :=
  s_fmode ds <> None /\ s_hmode ds <> None /\ s_ch1 ds <> None /\ s_ch2 ds <> None /\ s_n1 ds <> None /\ s_n2 ds <> None.
(** an empty file is selected *)
Definition selects_empty (w : world) (f : fs) (o : op) : bool :=
  match o with OSelect p => match content f (w_loc w p) with [] => true | _ => false end | _ => false end.

(** ** Good circumstances for a file *)
Definition iterations (c : N * N * bytes) : N := snd (fst c).
(** the path names the file [l], which may be read and written *)
Definition at_hand (bd : build) (H : hashes) (w : world) (p : bytes) (l : N) : Prop :=
  world_ok bd H w /\ usable_file w p /\ w_loc w p = l.
(** enough rounds for [n] bytes *)
Definition patient (w : world) (n : N) : Prop := (N.to_nat n + 2 <= w_fuel w)%nat.
(** settings that give a header that can be read back: at most 255 blocks of each kind, none empty *)
Definition settings_readable (ds : dhsettings) : Prop :=
  settings_made ds /\ settings_complete ds /\ lenN (s_dec ds) <= 255 /\ lenN (s_enc ds) <= 255 /\
  Forall (fun b => bdata (db_data b) <> []) (s_dec ds).
(** file data as a user of the API passes it *)
Definition text (data : Bytes) : option filedata := Some (mkFD (Some 1) (Some data)).
