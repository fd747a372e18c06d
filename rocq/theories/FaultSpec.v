(** Vocabulary for streams that fail. *)
From Verif Require Import Base BytesModel MiscModel CipherModel PwModel ChModel HeaderModel FileModel ApiModel FaultModel.
Open Scope N_scope.

(** every stream delivers its file *)
Definition sound (src : nat -> bytes -> source) : Prop := forall n c, src n c = mkSrc (Some 0) (Some (lenN c)) c.
(** a stream knows how long its file is, but reading can fail anywhere *)
Definition read_errors (src : nat -> bytes -> source) : Prop := forall n c, exists k, src n c = mkSrc (Some 0) (Some (lenN c)) (takeN k c).
(** a pipe or a terminal: there are no positions *)
Definition unseekable (s : source) : Prop := s_begin s = None /\ s_end s = None.
(** a directory: opens, has no bytes, and its end is anywhere or unknown *)
Definition like_directory (s : source) : Prop := s_begin s = Some 0 /\ (s_gives s = []) /\ match s_end s with Some n => n < 2 ^ 63 | None => True end.
(** what a call says when it could not read what it needs *)
Definition read_failure (o : op) (c : errcode) : Prop :=
  match o with
  | OSelect _ => c = ERR_FILEHANDLER_CREATION \/ c = ERR_NOT_ENOUGH_DATA
  | OContent => c = ERR_FILE_READ
  | ODecrypt => c = ERR
  | OWriteTo _ => c = ERR_FILEHANDLER_CREATION
  | _ => False
  end.
