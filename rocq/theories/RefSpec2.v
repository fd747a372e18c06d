(** A reference machine for the API.  Its states hold plain values; a call is answered from them, from the file
    system and from the circumstances [w] alone.  No object of the code occurs in it. *)
From Coq Require Import Strings.Byte.
From Verif Require Import Base BytesModel BytesSpec MiscModel CipherModel CipherSpec PwModel PwSpec ChModel ChSpec HeaderModel HeaderSpec FileModel ApiModel ApiSpec RefSpec.

(** what is known about the selected file: its path, its content when it was selected, the header in use, the
    password, whether data made for a new file is still to be fetched, the data to be written *)
Inductive session :=
| Idle
| Empty (p : bytes)
| Selected (p c : bytes) (h : header)
| Verified (p c : bytes) (h : header) (pw : bytes)
| Open (p : bytes) (h : header) (pw : bytes) (fetch : bool)
| Sealed (p : bytes) (h : header) (pw data : bytes)
| Finished.
Inductive answer :=
| Ok | Truth (b : bool) | Names (l : list bytes) | Content (x : bytes) | Data (mode : N) (x : bytes) | Void | Err (e : errcode).
(** a reply without its objects; an error has the type TIMEOUT if and only if its code is ERR_TIMEOUT *)
Definition seen (r : reply) : option answer :=
  match r with
  | ROk => Some Ok
  | RBool b => Some (Truth b)
  | RNames l => Some (Names l)
  | RBytes b => Some (Content (bdata b))
  | RData (mkFD (Some m) (Some b)) => Some (Data m (bdata b))
  | RData _ => None
  | RVoid => Some Void
  | RErr TIMEOUT ERR_TIMEOUT => Some (Err ERR_TIMEOUT)
  | RErr _ ERR_TIMEOUT => None
  | RErr FAIL e => Some (Err e)
  | RErr _ _ => None
  end.
(** the call returns, or the process ends, or the call never returns *)
Inductive result := Done (s : session) (r : answer) | Ends (c : crash) | Hangs.
Definition settle {A} (s : session) (f : fs) (v : verdict A) (k : A -> fs * result) : fs * result :=
  match v with Gives x => k x | Rejects e => (f, Done s (Err e)) | Dies c => (f, Ends c) end.

(** ** Files *)
(** ".enc" after at least one character of the file name *)
Definition enc_name (p : bytes) : bool :=
  match rev p with x63 :: x6e :: x65 :: x2e :: x :: _ => negb (Byte.eqb x x2f) | _ => false end.
Definition named (w : world) (p : bytes) : verdict unit :=
  match p with
  | [] => Rejects ERR_EMPTY_FILEPATH
  | _ => if enc_name p then if w_stat w p then Gives tt else Dies Terminate else Rejects ERR_EXTENSION_INVALID
  end.
Definition opened (w : world) (f : fs) (p : bytes) : verdict bytes :=
  also (named w p) (fun _ =>
  match f (w_loc w p) with
  | None => Rejects ERR_FILE_NOT_FOUND
  | Some c => if w_read w p then Gives c else Rejects ERR_FILE_NOT_OPEN
  end).
(** the second size field; both size fields *)
Definition header_size (c : bytes) : N := be_val (takeN 8 (dropN 8 c)).
Definition sized (c : bytes) : bool :=
  (lenN c =? 0) ||
  ((16 <=? lenN c) && (be_val (takeN 8 c) =? lenN c) && (104 <=? header_size c) && (header_size c <=? lenN c)).
Definition opened_sized (w : world) (f : fs) (p : bytes) : verdict bytes :=
  also (opened w f p) (fun c => if sized c then Gives c else Rejects ERR_FILEHANDLER_CREATION).
(** an empty file, or a file with its header *)
Definition looked_at (w : world) (f : fs) (p : bytes) : verdict (option (bytes * header)) :=
  also (opened_sized w f p) (fun c =>
  if lenN c =? 0 then Gives None else also (read_file (w_build w) c) (fun '(h, _) => Gives (Some (c, h)))).
(** all entries of a directory that are .enc files are looked at in turn, and nothing is made of it *)
Fixpoint look_all (w : world) (f : fs) (dir : bytes) (i : N) (l : list (bytes * bool)) : verdict (list bytes) :=
  match l with
  | [] => Gives []
  | (n, regular) :: r =>
      if regular && enc_name n then
        match looked_at w f (join dir n) with Dies c => Dies c | _ => if i + 1 <? 2 ^ 31 then look_all w f dir (i + 1) r else Dies Undefined end
      else look_all w f dir i r
  end.
Definition listed (w : world) (f : fs) (dir : bytes) : verdict (list bytes) :=
  match dir with
  | [] => Rejects ERR_EMPTY_FILEPATH
  | _ =>
      match w_dir w dir with
      | Missing => Rejects ERR_FILEPATH_INVALID
      | Unlistable => Dies Terminate
      | Entries l => look_all w f dir 0 l
      end
  end.
(** the file that is written; not all of it if there is no room *)
Definition saved (w : world) (f : fs) (p : bytes) (h : header) (pw data : bytes) : fs :=
  upd f (w_loc w p) (Some (takeN (w_room w) (ser (hdr_len h + lenN data) h ++ cipher_of (w_hashes w) h pw data))).

(** ** Time limits *)
Definition hits (clk : nat -> N) (t readings : N) : bool :=
  negb (t =? 0) && existsb (fun k => t <=? clk k) (seq 0 (N.to_nat readings)).
Definition verify_timely (w : world) (t it1 it2 : N) : bool :=
  negb (hits (w_clk1 w) t (readings_string it1)) && ((t =? 0) || negb (w_elapsed w =? t)) &&
  negb (hits (w_clk2 w) ((t + 2 ^ 64 - w_elapsed w) mod 2 ^ 64) (readings_bytes it2)).
Definition create_timely (w : world) (t it1 it2 : N) : bool :=
  negb (hits (w_clk1 w) t (readings_string it1)) && ((t =? 0) || (w_elapsed w <? t)) &&
  negb (hits (w_clk2 w) (t - w_elapsed w) (readings_bytes it2)).

(** ** New headers *)
Definition have {A} (o : option A) : bool := match o with Some _ => true | None => false end.
Definition all_set (ds : dhsettings) : bool :=
  have (s_fmode ds) && have (s_hmode ds) && have (s_ch1 ds) && have (s_ch2 ds) && have (s_n1 ds) && have (s_n2 ds).
Definition value (o : option N) : N := match o with Some x => x | None => 0 end.
Definition made (w : world) (ds : dhsettings) (pw : bytes) : header :=
  let hm := value (s_hmode ds) in
  let c1 := (value (s_ch1 ds), value (s_n1 ds), w_rnd w 0 (mode_size (value (s_ch1 ds)))) in
  let c2 := (value (s_ch2 ds), value (s_n2 ds), w_rnd w 1 (mode_size (value (s_ch2 ds)))) in
  let H := hash_of (w_hashes w) hm in
  mkHeader 1 hm (map (fun b => (db_type b, bdata (db_data b))) (s_dec ds)) c1 c2
    (chain_value H c2 (chain_value H c1 pw)) (w_rnd w 2 (digest_len hm))
    (map (fun e => (db_type (eb_block e), eb_len e, bdata (db_data (eb_block e)))) (s_enc ds)).
Definition new_header (w : world) (ds : dhsettings) (pw : bytes) (t : N) : verdict header :=
  if negb (create_timely w t (value (s_n1 ds)) (value (s_n2 ds))) then Rejects ERR_TIMEOUT
  else if (lenN (s_dec ds) <=? 255) && (lenN (s_enc ds) <=? 255) then Gives (made w ds pw)
  else Rejects ERR.

(** ** Calls *)
Definition unlocked (H : hashes) (h : header) (pw : bytes) : bool := eqb_bytes (h_valid h) (validator H h (key_of H h pw)).
(** the lengths that the cipher takes, those on which it runs forever and, in the rounds of its loop that a call
    takes, what is enough to return *)
Definition limit : N := 2147483648.
Definition forever (n : N) : bool := (4294967296 <=? n) && (n mod 4294967296 <? limit).
Definition rounds (s : session) (o : op) : nat :=
  match s, o with
  | Verified _ c _ _, ODecrypt => N.to_nat (lenN c - header_size c) + 2
  | Open _ _ _ _, OEncrypt (Some (mkFD _ (Some b))) => N.to_nat (lenN (bdata b)) + 2
  | _, _ => 0
  end.
Definition act (w : world) (s : session) (f : fs) (o : op) : fs * result :=
  let no := (f, Done s (Err ERR_API_STATE_INVALID)) in
  let H := w_hashes w in
  match o with
  | OLogout | OLogoutMode _ => (f, Done Idle Void)
  | OList dir => match s with Idle => settle s f (listed w f dir) (fun l => (f, Done s (Names l))) | _ => no end
  | OCreate p =>
      match s with
      | Idle =>
          settle s f (named w p) (fun _ =>
          match f (w_loc w p) with
          | Some _ => (f, Done s (Err ERR_FILE_EXISTS))
          | None => if w_create w p then (upd f (w_loc w p) (Some []), Done s Ok) else (f, Done s (Err ERR_FILE_NOT_CREATED))
          end)
      | _ => no
      end
  | OSelect p =>
      match s with
      | Idle => settle s f (looked_at w f p) (fun x =>
          (f, Done (match x with None => Empty p | Some (c, h) => Selected p c h end) Ok))
      | _ => no
      end
  | OIsEmpty => match s with Empty _ => (f, Done s (Truth true)) | Selected _ _ _ => (f, Done s (Truth false)) | _ => no end
  | OUnselect => match s with Empty _ | Selected _ _ _ => (f, Done Idle Ok) | _ => no end
  | ODelete =>
      match s with
      | Empty p | Selected p _ _ =>
          if w_remove w p then
            match f (w_loc w p) with
            | None => (f, Done s (Err ERR_FILE_NOT_DELETED))
            | Some _ => (upd f (w_loc w p) None, Done Idle Ok)
            end
          else (f, Ends Terminate)
      | _ => no
      end
  | OContent =>
      match s with
      | Empty _ => (f, Done s (Content []))
      | Selected p _ _ =>
          match f (w_loc w p) with
          | Some x => if w_read w p then (f, Done s (Content (takeN (lenN x mod 2 ^ 32) x))) else (f, Done s (Err ERR_FILE_READ))
          | None => (f, Done s (Err ERR_FILE_READ))
          end
      | _ => no
      end
  | OVerify pw t =>
      match s with
      | Selected p c h =>
          if negb (verify_timely w t (iterations (h_ch1 h)) (iterations (h_ch2 h))) then (f, Done s (Err ERR_TIMEOUT))
          else if unlocked H h pw then (f, Done (Verified p c h pw) Ok)
          else (f, Done s (Err ERR_PASSWORD_INVALID))
      | _ => no
      end
  | OHeader pw ds t =>
      if negb (all_set ds) then (f, Done s (Err ERR_DATAHEADERSETTINGS_INCOMPLETE))
      else match s with
           | Empty p => settle s f (new_header w ds pw t) (fun h => (f, Done (Open p h pw true) Ok))
           | Open p _ _ b => settle s f (new_header w ds pw t) (fun h => (f, Done (Open p h pw b) Ok))
           | _ => no
           end
  | OHeaderTime _ ds =>
      if negb (all_set ds) then (f, Done s (Err ERR_DATAHEADERSETTINGS_INCOMPLETE))
      else match s with Empty _ | Open _ _ _ _ => (f, Ends Terminate) | _ => no end
  | OSalt =>
      match s with
      | Open p h pw b => (f, Done (Open p (with_salt (w_rnd w 0 (digest_len (h_hmode h))) h) pw b) Ok)
      | _ => no
      end
  | ODecrypt =>
      match s with
      | Verified p c h pw =>
          let n := lenN c - header_size c in
          let body := match f (w_loc w p) with Some x => if w_read w p then dropN (header_size c) x else [] | None => [] end in
          if (n <=? lenN body) && (n <? limit) then (f, Done (Open p h pw false) (Data 1 (plain_of H h pw (takeN n body))))
          else if forever n && (n mod 4294967296 <=? lenN body) then (f, Hangs)
          else (f, Done s (Err ERR))
      | _ => no
      end
  | OGetData =>
      match s with
      | Open p h pw true => (f, Done (Open p h pw false) (Data 1 []))
      | Open _ _ _ false => (f, Done s (Err ERR_FILEDATASTRUCT_NULL))
      | _ => no
      end
  | OEncrypt x =>
      match s with
      | Open p h pw _ =>
          match x with
          | None => (f, Ends Undefined)
          | Some (mkFD None _) => (f, Done s (Err ERR_FILEDATASTRUCT_INCOMPLETE))
          | Some (mkFD (Some m) data) =>
              if negb (m =? 1) then (f, Done s (Err ERR_FILEMODE_INVALID))
              else match data with
                   | None => (f, Ends Undefined)
                   | Some b =>
                       if lenN (bdata b) <? limit then (f, Done (Sealed p h pw (bdata b)) Ok)
                       else if forever (lenN (bdata b)) then (f, Hangs)
                       else (f, Done s (Err ERR))
                   end
          end
      | _ => no
      end
  | OWrite =>
      match s with
      | Sealed p h pw data =>
          settle s f (opened w f p) (fun _ =>
          if w_write w p then (saved w f p h pw data, Done Finished Ok) else (f, Done s (Err ERR_FILE_NOT_OPEN)))
      | _ => no
      end
  | OWriteTo q =>
      match s with
      | Sealed p h pw data =>
          settle s f (opened_sized w f q) (fun c =>
          if negb (lenN c =? 0) then (f, Done s (Err ERR_FILE_NOT_EMPTY))
          else if w_write w q then (saved w f q h pw data, Done Finished Ok) else (f, Done s (Err ERR_FILE_NOT_OPEN)))
      | _ => no
      end
  end.

(** ** The machine along a history *)
(** the same files *)
Definition same (f g : fs) : Prop := forall l, f l = g l.
(** the outcome of one call is that of the machine *)
Definition matches (w : world) (s : session) (f : fs) (o : op) (r : fs * outcome (api * reply)) : Prop :=
  match act w s f o, r with
  | (g, Done _ x), (f', Ret (_, y)) => same f' g /\ seen y = Some x
  | (g, Ends c), (f', Crash c') => same f' g /\ c' = c
  | (g, Hangs), (f', OutOfFuel) => same f' g
  | _, _ => False
  end.
(** the session after a history; None if the machine had not returned *)
Fixpoint follow (tr : list entry) : option session :=
  match tr with
  | [] => Some Idle
  | e :: r =>
      match follow r with
      | Some s => match act (e_world e) s (e_before e) (e_op e) with (_, Done s' _) => Some s' | _ => None end
      | None => None
      end
  end.
(** every call of a history was answered as by the machine *)
Fixpoint answered (tr : list entry) : Prop :=
  match tr with
  | [] => True
  | e :: r =>
      answered r /\ exists s g s' x, follow r = Some s /\ act (e_world e) s (e_before e) (e_op e) = (g, Done s' x) /\
        same (e_after e) g /\ seen (e_reply e) = Some x
  end.
