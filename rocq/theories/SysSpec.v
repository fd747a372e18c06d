(** Several API objects, in one or more processes, working on the same files. *)
From Verif Require Import Base BytesModel MiscModel ChModel HeaderModel HeaderSpec FileModel ApiModel ApiSpec.

(** One call: on which object, in which circumstances, with which answer.  No answer: the process died in the
    call, for whatever reason; a new object takes the place of the old one. *)
Record event := mkEvent { v_obj : nat; v_world : world; v_before : fs; v_op : op; v_reply : option reply; v_after : fs }.

(** what the object [k] has seen since it was made; the newest call is first *)
Fixpoint own (k : nat) (tr : list event) : list entry :=
  match tr with
  | [] => []
  | v :: r =>
      if Nat.eqb (v_obj v) k then
        match v_reply v with
        | Some x => mkEntry (v_world v) (v_before v) (v_op v) x (v_after v) :: own k r
        | None => []
        end
      else own k r
  end.

Definition put_obj (os : nat -> api) (k : nat) (a : api) : nat -> api := fun j => if Nat.eqb j k then a else os j.
(** Calls of any objects in any order.  Only they change the files; [loc] is the file that a path names.
    A process can be ended at any time: before the call has changed a file, or after it has.  How much of a file
    was written until then is the room in the circumstances of the call. *)
Inductive system (bd : build) (H : hashes) (loc : bytes -> N) (f0 : fs) : list event -> (nat -> api) -> fs -> Prop :=
| sys_new os : fs_ok f0 -> (forall k, newAPI 1 = Ret (os k)) -> system bd H loc f0 [] os f0
| sys_call tr os f k w o f' a' r : system bd H loc f0 tr os f -> world_ok bd H w -> (forall p, w_loc w p = loc p) -> op_ok o ->
    step w (os k) f o = (f', Ret (a', r)) ->
    system bd H loc f0 (mkEvent k w f o (Some r) f' :: tr) (put_obj os k a') f'
| sys_end tr os f k w o f' x f'' a : system bd H loc f0 tr os f -> world_ok bd H w -> (forall p, w_loc w p = loc p) -> op_ok o ->
    step w (os k) f o = (f', x) -> f'' = f \/ f'' = f' -> newAPI 1 = Ret a ->
    system bd H loc f0 (mkEvent k w f o None f'' :: tr) (put_obj os k a) f''.

(** a call that may have changed the file [l]: a createFile, deleteFile or writeToFile that was successful or interrupted *)
Definition touches (loc : bytes -> N) (v : event) (older : list event) (l : N) : bool :=
  match v_reply v, target (own (v_obj v) older) (v_op v) with
  | Some ROk, Some p | None, Some p => loc p =? l
  | _, _ => false
  end.
(** what such a call leaves: an empty file; no file; or the data, header and password of the object, as far as
    they were written *)
Definition written (H : hashes) (v : event) (older : list event) (x : option bytes) : Prop :=
  match v_op v with
  | OCreate _ => x = Some []
  | ODelete => x = None
  | OWrite | OWriteTo _ =>
      exists h pw data c, password (own (v_obj v) older) = Some pw /\ encrypted (own (v_obj v) older) = Some data /\
        current H (own (v_obj v) older) h /\ lenN data < 2 ^ 31 /\ sealed H h pw data c /\ x = Some (takeN (w_room (v_world v)) c)
  | _ => False
  end.
(** what a file is like: as the last call left it that changed it *)
Fixpoint as_left (H : hashes) (loc : bytes -> N) (f0 : fs) (tr : list event) (l : N) (x : option bytes) : Prop :=
  match tr with
  | [] => x = f0 l
  | v :: older =>
      if touches loc v older l then
        match v_reply v with
        | Some _ => written H v older x
        | None => written H v older x \/ as_left H loc f0 older l x
        end
      else as_left H loc f0 older l x
  end.
(** the newest of the calls that may have changed a file, and what happened before it *)
Fixpoint newest (loc : bytes -> N) (tr : list event) (l : N) : option (event * list event) :=
  match tr with
  | [] => None
  | v :: r => if touches loc v r l then Some (v, r) else newest loc r l
  end.
(** no header is made with an empty block *)
Definition full_blocks (o : op) : Prop :=
  match o with OHeader _ ds _ => Forall (fun b => bdata (db_data b) <> []) (s_dec ds) | _ => True end.
(** a write of the file [l] that was completed: there was room for more *)
Definition saves (v : event) (l : N) : Prop :=
  (v_op v = OWrite \/ exists q, v_op v = OWriteTo q) /\ v_reply v = Some ROk /\ lenN (content (v_after v) l) < w_room (v_world v).
(** since the object [k] selected its file, no call of any object may have changed the file that [p] names *)
Fixpoint undisturbed (loc : bytes -> N) (k : nat) (p : bytes) (tr : list event) : bool :=
  match tr with
  | [] => false
  | v :: r =>
      match Nat.eqb (v_obj v) k, v_op v, v_reply v with
      | true, OSelect _, Some ROk => true
      | _, _, _ => negb (touches loc v r (loc p)) && undisturbed loc k p r
      end
  end.
