(** Sittings: a file is opened, its data are replaced, perhaps its salt or password too, and it is saved and closed. *)
From Verif Require Import Base BytesModel ChModel HeaderModel HeaderSpec FileModel ApiModel ApiSpec.

(** what a sitting changes besides the data *)
Inductive change := Keep | Resalt | Rekey (pw : bytes) (ds : dhsettings) (t : N).
Record sitting := mkSit { si_ws : nat -> world; si_t : N; si_change : change; si_new : Bytes }.
(** the password after the sitting *)
Definition later (s : sitting) (pw : bytes) : bytes := match si_change s with Rekey pw' _ _ => pw' | _ => pw end.
Definition sit (p pw : bytes) (s : sitting) : list (world * op) :=
  [(si_ws s 0%nat, OSelect p); (si_ws s 1%nat, OVerify pw (si_t s)); (si_ws s 2%nat, ODecrypt)] ++
  match si_change s with
  | Keep => []
  | Resalt => [(si_ws s 3%nat, OSalt)]
  | Rekey pw' ds t => [(si_ws s 3%nat, OHeader pw' ds t)]
  end ++
  [(si_ws s 4%nat, OEncrypt (text (si_new s))); (si_ws s 5%nat, OWrite); (si_ws s 6%nat, OLogout)].
Fixpoint sits (p pw : bytes) (l : list sitting) : list (world * op) :=
  match l with [] => [] | s :: r => sit p pw s ++ sits p (later s pw) r end.
(** the header after the sitting *)
Definition renewed (H : hashes) (s : sitting) (h h' : header) : Prop :=
  match si_change s with
  | Keep => h' = h
  | Resalt => h' = with_salt (w_rnd (si_ws s 3%nat) 0 (digest_len (h_hmode h))) h
  | Rekey pw ds _ => created H (si_ws s 3%nat) ds pw h'
  end.
(** nothing outside hinders the sitting: the file can be read and written, no time limit is exceeded, the data are small
    enough and the disk has room *)
Definition unhindered (bd : build) (H : hashes) (p : bytes) (l : N) (h : header) (data : bytes) (s : sitting) : Prop :=
  (forall i, at_hand bd H (si_ws s i) p l) /\ si_t s < 2 ^ 64 /\
  verify_in_time (si_ws s 1%nat) (si_t s) (iterations (h_ch1 h)) (iterations (h_ch2 h)) /\ patient (si_ws s 2%nat) (lenN data) /\
  getLen (si_new s) < 2 ^ 31 /\ patient (si_ws s 4%nat) (getLen (si_new s)) /\
  (forall h', renewed H s h h' -> hdr_len h' + getLen (si_new s) <= w_room (si_ws s 5%nat)) /\
  match si_change s with
  | Rekey _ ds t => settings_readable ds /\ t < 2 ^ 64 /\
      exists it1 it2, s_n1 ds = Some it1 /\ s_n2 ds = Some it2 /\ create_in_time (si_ws s 3%nat) t it1 it2
  | _ => True
  end.
(** the header, password and data of a file change like this in a list of sittings that nothing hinders *)
Inductive edits (bd : build) (H : hashes) (p : bytes) (l : N) : header -> bytes -> bytes -> list sitting -> header -> bytes -> bytes -> Prop :=
| ed_none h pw d : edits bd H p l h pw d [] h pw d
| ed_sit h pw d s r h1 h2 pw2 d2 : unhindered bd H p l h d s -> renewed H s h h1 ->
    edits bd H p l h1 (later s pw) (bdata (si_new s)) r h2 pw2 d2 -> edits bd H p l h pw d (s :: r) h2 pw2 d2.
(** the data that the replies show *)
Definition shows (rs : list reply) : list bytes :=
  flat_map (fun r => match r with RData (mkFD _ (Some b)) => [bdata b] | _ => [] end) rs.
