(** Which calls of the API end the process, and what can be said about calls in unusual circumstances. *)
From Coq Require Import Strings.String.
From Verif Require Import Base BytesModel MiscModel CipherModel PwModel ChModel ChSpec HeaderModel HeaderSpec FileModel ApiModel ApiSpec.

(** Opening the file at [p] and reading its header ends the process: its status cannot be asked for, or it is a
    readable file with fitting sizes whose header is broken in one of four ways. *)
Definition fatal_file (w : world) (f : fs) (p : bytes) (c : crash) : Prop :=
  enc_path p /\
  ((c = Terminate /\ w_stat w p = false) \/
   (w_stat w p = true /\ w_read w p = true /\ exists x hsz, f (w_loc w p) = Some x /\ sizes_fit x hsz /\
     ((c = Terminate /\ zero_block x) \/
      (w_build w = Debug /\ c = AssertFail /\ (bad_length1 x \/ bad_length2 x \/ bad_size x))))).
(** the entries of a directory that are looked at *)
Definition enc_entry (e : bytes * bool) : Prop := snd e = true /\ enc_path (fst e).
(** how many there are *)
Inductive looked_at_in : list (bytes * bool) -> N -> Prop :=
| look_none : looked_at_in [] 0
| look_one : forall e l n, enc_entry e -> looked_at_in l n -> looked_at_in (e :: l) (n + 1)
| look_past : forall e l n, ~ enc_entry e -> looked_at_in l n -> looked_at_in (e :: l) n.
(** no file among them ends the process *)
Definition harmless (w : world) (f : fs) (dir : bytes) (l : list (bytes * bool)) : Prop :=
  Forall (fun e => enc_entry e -> forall c, ~ fatal_file w f (join dir (fst e)) c) l.
(** A call that the state offers ends the process in this way. *)
Definition fatal (w : world) (f : fs) (tr : list entry) (o : op) (c : crash) : Prop :=
  match o with
  | OList dir => dir <> [] /\
      match w_dir w dir with
      | Missing => False
      | Unlistable => c = Terminate
      | Entries l => exists l1 l2 k, l = l1 ++ l2 /\ looked_at_in l1 k /\ harmless w f dir l1 /\
          ((k < 2 ^ 31 /\ exists n l3, l2 = (n, true) :: l3 /\ enc_path n /\ fatal_file w f (join dir n) c) \/
           (k = 2 ^ 31 /\ c = Undefined))
      end
  | OCreate p | OWriteTo p => c = Terminate /\ enc_path p /\ w_stat w p = false
  | OSelect p => fatal_file w f p c
  | ODelete => c = Terminate /\ exists p x, selected tr = Some (p, x) /\ w_remove w p = false
  | OWrite => c = Terminate /\ exists p x, selected tr = Some (p, x) /\ w_stat w p = false
  | OHeaderTime _ ds => c = Terminate /\ settings_complete ds
  | OEncrypt x => c = Undefined /\ (x = None \/ x = Some (mkFD (Some 1) None))
  | _ => False
  end.
(** a call that is given enough rounds for the data it handles *)
Definition enough (w : world) (tr : list entry) (o : op) : Prop :=
  match o with
  | OEncrypt (Some (mkFD _ (Some b))) => getLen b < 2 ^ 31 /\ patient w (getLen b)
  | ODecrypt => forall p c hsz, selected tr = Some (p, c) -> sizes_fit c hsz -> lenN c - hsz < 2 ^ 31 /\ patient w (lenN c - hsz)
  | _ => True
  end.

(** Data made for a new file has not been fetched yet: createDataHeader succeeded on an empty file, and getFileData
    has not been asked since. *)
Fixpoint unread (tr : list entry) : bool :=
  match tr with
  | [] => false
  | e :: r =>
      if closes e then false
      else match e_op e, e_reply e with
           | OSelect _, ROk => false
           | OHeader _ _ _, ROk => match password r with None => true | Some _ => unread r end
           | (OGetData | ODecrypt), RData _ => false
           | _, _ => unread r
           end
  end.
