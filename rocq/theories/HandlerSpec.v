(** What a FileHandler answers, from the calls so far: independent of [HandlerModel]'s members. *)
From Verif Require Import Base BytesModel BytesSpec MiscModel CipherModel PwModel ChModel HeaderModel HeaderSpec FileModel ApiModel ApiSpec RefSpec HandlerModel.
Open Scope N_scope.

(** calls on one object, the newest first; between two calls others may change any file *)
Record fh_entry := mkFE { fe_world : world; fe_before : fs; fe_op : fh_op; fe_reply : fh_reply; fe_after : fs }.
Inductive fh_history (bd : build) (H : hashes) (p : bytes) : list fh_entry -> bytes -> handler -> Prop :=
| fh_new w f c h : world_ok bd H w -> fs_ok f -> f (w_loc w p) = Some c -> newFileHandler w f p = Ret h -> fh_history bd H p [] c h
| fh_next tr c h w f o f' h' r : fh_history bd H p tr c h -> world_ok bd H w -> fs_ok f ->
    fh_call w h f o = (f', Ret (h', r)) -> fh_history bd H p (mkFE w f o r f' :: tr) c h'.

(** what a reader finds at the path; nothing if the file cannot be opened *)
Definition found (w : world) (f : fs) (p : bytes) : option bytes := if w_read w p then f (w_loc w p) else None.
Definition reading (w : world) (f : fs) (p : bytes) : bytes := match found w f p with Some c => c | None => [] end.
(** the file when it was last looked at, by the constructor (content [c0]) or by update *)
Fixpoint seen (p c0 : bytes) (tr : list fh_entry) : bytes :=
  match tr with
  | [] => c0
  | e :: r => match fe_op e with FUpdate => reading (fe_world e) (fe_before e) p | _ => seen p c0 r end
  end.
Definition was_empty (p c0 : bytes) (tr : list fh_entry) : bool := lenN (seen p c0 tr) =? 0.
(** whether somebody asked for a stream to write since then, and the size was forgotten *)
Definition asks (p c0 : bytes) (tr : list fh_entry) (o : fh_op) : bool :=
  match o with FSave _ => true | FSaveIfEmpty _ => was_empty p c0 tr | _ => false end.
Fixpoint forgot (p c0 : bytes) (tr : list fh_entry) : bool :=
  match tr with
  | [] => false
  | e :: r => match fe_op e with FUpdate => false | o => asks p c0 r o || forgot p c0 r end
  end.
Definition file_size (p c0 : bytes) (tr : list fh_entry) : N := if forgot p c0 tr then 0 else lenN (seen p c0 tr).
(** the first two fields of a file *)
Definition size_field (c : bytes) : N := be_val (takeN 8 c).
Definition head_field (c : bytes) : N := be_val (takeN 8 (dropN 8 c)).
(** whether update gets as far as the size of the header *)
Definition head_read (c : bytes) : bool := (16 <=? lenN c) && (size_field c =? lenN c).
Fixpoint head_size (p c0 : bytes) (tr : list fh_entry) : N :=
  match tr with
  | [] => if lenN c0 =? 0 then 0 else head_field c0
  | e :: r =>
      match fe_op e with
      | FUpdate =>
          let c := reading (fe_world e) (fe_before e) p in
          if lenN c =? 0 then 0 else if head_read c then head_field c else head_size p c0 r
      | o => if asks p c0 r o then 0 else head_size p c0 r
      end
  end.
(** what update says about a file *)
Definition judged (c : bytes) : fh_reply :=
  if lenN c =? 0 then FDone
  else if lenN c <? 8 then FThrown LengthError
  else if negb (size_field c =? lenN c) then FThrown LogicError
  else if lenN c <? 16 then FThrown LengthError
  else if lenN c <? head_field c then FThrown LogicError
  else if head_field c <? 104 then FThrown LengthError
  else FDone.
(** taking a stream to write *)
Definition opening_says (w : world) (f : fs) (p : bytes) : verdict unit :=
  if negb (w_stat w p) then Dies Terminate
  else match f (w_loc w p) with
       | None => Rejects ERR_FILE_NOT_FOUND
       | Some _ => if w_read w p && w_write w p then Gives tt else Rejects ERR_FILE_NOT_OPEN
       end.

(** an answer, a header, or the end of the process *)
Inductive expected := Says (r : fh_reply) | Shows (size : N) (h : header) | Ends (c : crash).
Definition outcome_of (v : verdict unit) : expected := match v with Gives _ => Says FDone | Rejects e => Says (FErr e) | Dies c => Ends c end.
Definition should (bd : build) (p c0 : bytes) (tr : list fh_entry) (w : world) (f : fs) (o : fh_op) : expected :=
  match o with
  | FUpdate => Says (judged (reading w f p))
  | FIsEmpty => Says (FBool (was_empty p c0 tr))
  | FHeaderSize => Says (FNum (head_size p c0 tr))
  | FFileSize => Says (FNum (file_size p c0 tr))
  | FDataSize => Says (FNum ((file_size p c0 tr + 2 ^ 64 - head_size p c0 tr) mod 2 ^ 64))
  | FPath => Says (FText p)
  | FStream => Says (FBytes (reading w f p))
  | FDataStream => Says (FBytes (dropN (head_size p c0 tr) (reading w f p)))
  | FAllBytes => Says match found w f p with None => FThrown RuntimeError | Some c => FBytes (takeN (lenN c mod 2 ^ 32) c) end
  | FFirstBytes n =>
      Says match found w f p with
           | None => FThrown RuntimeError
           | Some c => if n mod 2 ^ 32 <=? lenN c then FBytes (takeN (n mod 2 ^ 32) c) else FThrown LengthError
           end
  | FHeader => match read_file bd (reading w f p) with Gives (h, _) => Shows (lenN (reading w f p)) h | Rejects e => Says (FErr e) | Dies c => Ends c end
  | FIsHeader m =>
      match read_file bd (reading w f p) with
      | Gives _ => Says (if m =? 1 then FDone else FErr ERR_FILEMODE_INVALID)
      | Rejects e => Says (FErr e)
      | Dies c => Ends c
      end
  | FSave _ => outcome_of (opening_says w f p)
  | FSaveIfEmpty _ => if was_empty p c0 tr then outcome_of (opening_says w f p) else Says (FErr ERR_FILE_NOT_EMPTY)
  end.
(** the files afterwards *)
Definition leaves (p c0 : bytes) (tr : list fh_entry) (w : world) (f : fs) (o : fh_op) : fs :=
  match o with
  | FSave data | FSaveIfEmpty data =>
      if asks p c0 tr o then match opening_says w f p with Gives _ => upd f (w_loc w p) (Some (takeN (w_room w) data)) | _ => f end else f
  | _ => f
  end.
Definition meets {A} (m : outcome (A * fh_reply)) (e : expected) : Prop :=
  match e with
  | Says r => exists a, m = Ret (a, r)
  | Shows n h => exists a d, m = Ret (a, FHead d) /\ shows d n h
  | Ends c => m = Crash c
  end.
(** several calls with nobody else about; the replies *)
Fixpoint fh_calls (w : world) (h : handler) (f : fs) (os : list fh_op) : option (handler * fs * list fh_reply) :=
  match os with
  | [] => Some (h, f, [])
  | o :: r =>
      match fh_call w h f o with
      | (f1, Ret (h1, v)) => match fh_calls w h1 f1 r with Some (h2, f2, vs) => Some (h2, f2, v :: vs) | None => None end
      | _ => None
      end
  end.
(** the last look at the file went well *)
Fixpoint looked_well (tr : list fh_entry) : bool :=
  match tr with
  | [] => true
  | e :: r => match fe_op e with FUpdate => match fe_reply e with FDone => true | _ => false end | _ => looked_well r end
  end.
(** who asks for a stream to write can do as they like *)
Definition can_write (w : world) (p : bytes) : Prop := w_stat w p = true /\ w_read w p = true /\ w_write w p = true.
