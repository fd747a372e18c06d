(** What somebody can read who once got hold of the password hash of a file. *)
From Verif Require Import Base BytesModel MiscModel CipherModel CipherSpec PwModel PwSpec ChModel ChSpec HeaderModel HeaderSpec FileModel ApiModel ApiSpec RefSpec WorkModel WorkSpec QuerySpec SysSpec.
Open Scope N_scope.
Open Scope list_scope.

(** A program that decrypts with the password hash in place of the password: three digests for the pad of a block, and the
    digest of the block if another one follows.  [st] is the running key, the running salt and the digest of the block before. *)
Fixpoint undo (st : kstate) (cs : list bytes) (got : bytes) : program (option bytes) :=
  match cs with
  | [] => Answer (Some got)
  | c :: r =>
      let '(k, s, l) := st in
      Ask (bsum (bsum k s) l) (fun k' => Ask (bsum (bsum k' s) l) (fun s' => Ask (bsum k' s') (fun pad =>
        let p := bdiff c pad in
        match r with [] => Answer (Some (got ++ p)) | _ => Ask p (fun d => undo (k', s', d) r (got ++ p)) end)))
  end.
(** all it needs is the file and the password hash *)
Definition thief (key file : bytes) : program (option bytes) :=
  match read_file Release file with
  | Gives (h, body) => undo (key, h_salt h, repeat x00 (N.to_nat (digest_len (h_hmode h)))) (blocks (digest_len (h_hmode h)) body) []
  | _ => Answer None
  end.

(** a header that stood in one of the files at the beginning, or was made by a createDataHeader since *)
Definition first_header (H : hashes) (f0 : fs) (tr : list event) (h : header) : Prop :=
  (exists l c hsz l1 l2 rest, f0 l = Some c /\ written_as c hsz l1 l2 h rest) \/
  (exists v pw ds t, In v tr /\ v_op v = OHeader pw ds t /\ v_reply v = Some ROk /\ created H (v_world v) ds pw h).
(** no createDataHeader succeeded *)
Definition same_headers (v : event) : Prop := match v_op v, v_reply v with OHeader _ _ _, Some ROk => False | _, _ => True end.
