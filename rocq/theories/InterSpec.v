(** Vocabulary for calls with other processes acting during the call. *)
From Verif Require Import Base BytesModel MiscModel CipherModel PwModel ChModel HeaderModel HeaderSpec FileModel ApiModel ApiSpec.
Open Scope N_scope.

(** the others leave this file as it is *)
Definition left_alone (env : nat -> fs -> fs) (l : N) : Prop := forall k f, env k f l = f l.
(** nobody else is there *)
Definition nobody : nat -> fs -> fs := fun _ f => f.
(** the others store this content, all at once, before the k-th access *)
Definition storing (k : nat) (l : N) (c : bytes) : nat -> fs -> fs := fun n f => if Nat.eqb n k then upd f l (Some c) else f.
(** the others remove this file before the k-th access *)
Definition removing (k : nat) (l : N) : nat -> fs -> fs := fun n f => if Nat.eqb n k then upd f l None else f.

(** the file or files a call is about *)
Definition about (w : world) (a : api) (o : op) (l : N) : Prop :=
  match o, a_state a with
  | (OCreate p | OSelect p), INIT => l = w_loc w p
  | OList dir, INIT => exists names n, getAllEncFileNames w dir = Ret (inr names) /\ In n names /\ l = w_loc w (join dir n)
  | OWriteTo p, ENCRYPTED => l = w_loc w p
  | (ODelete | OContent), FILE_SELECTED | ODelete, EMPTY_FILE_SELECTED | ODecrypt, PASSWORD_VERIFIED | OWrite, ENCRYPTED =>
      exists h, a_file a = Some h /\ l = w_loc w (fh_path h)
  | _, _ => False
  end.
(** the file a call may change *)
Definition changed_by (w : world) (a : api) (o : op) (l : N) : Prop :=
  match o, a_state a with
  | OCreate p, INIT => l = w_loc w p
  | OWriteTo p, ENCRYPTED => l = w_loc w p
  | ODelete, (FILE_SELECTED | EMPTY_FILE_SELECTED) | OWrite, ENCRYPTED => exists h, a_file a = Some h /\ l = w_loc w (fh_path h)
  | _, _ => False
  end.

(** the file system at the k-th access of a call that does not change it itself *)
Fixpoint moment (env : nat -> fs -> fs) (f : fs) (k : nat) : fs := match k with O => env O f | S j => env k (moment env f j) end.
Definition content_at (w : world) (env : nat -> fs -> fs) (f : fs) (k : nat) (p : bytes) : option bytes := moment env f k (w_loc w p).

(** the content that a save after these calls has to store, and the file a save goes to *)
Definition to_save (H : hashes) (tr : list entry) (c : bytes) : Prop :=
  exists h pw data, password tr = Some pw /\ encrypted tr = Some data /\ current H tr h /\ lenN data < 2 ^ 31 /\ sealed H h pw data c.
Definition saves_to (tr : list entry) (o : op) (q : bytes) : Prop := o = OWriteTo q \/ (o = OWrite /\ exists x, selected tr = Some (q, x)).
