(** One whole use of the API with the real digest functions (the digests of the other Examples are toys):
    a file is made, filled, closed, opened again with a wrong and then with the right password. *)
From Coq Require Import Strings.String.
From Verif Require Import Base BytesModel CipherModel MiscModel PwModel ChModel ChSpec HeaderModel FileModel ApiModel Sha2 TestLib Tests_Header.
Open Scope N_scope.

(** the replies of a list of calls, and the files afterwards *)
Fixpoint replies (w : world) (a : api) (f : fs) (l : list op) : outcome (list reply * fs) :=
  match l with
  | [] => Ret ([], f)
  | o :: l' => match step w a f o with
               | (f', Ret (a', r)) => '(rs, g) <- replies w a' f' l' ;; Ret (r :: rs, g)
               | (_, Throw e) => Throw e | (_, Crash c) => Crash c | (_, OutOfFuel) => OutOfFuel
               end
  end.
Definition settings (hm m1 m2 : N) : dhsettings := mkSet (Some 1) (Some hm) (Some m1) (Some m2) (Some 3) (Some 2) [] [].
Definition secret : Bytes := fromArray (str "a site, a user name, a password; and enough of it to fill more than two blocks of the cipher, whatever the digest: 0123456789 0123456789 0123456789").
Definition story (hm m1 m2 : N) : outcome (list reply * fs) :=
  replies disk (fresh 1) no_files
    [OCreate a_path; OSelect a_path; OHeader (str "correct horse") (settings hm m1 m2) 0; OEncrypt (Some (mkFD (Some 1) (Some secret))); OWrite; OLogout;
     OSelect a_path; OVerify (str "battery staple") 0; OVerify (str "correct horse") 0; ODecrypt; OGetData].
(** what the story must say: everything succeeds except the wrong password, the data come back, and the file
    holds the header, as long as the modes make it, and as many bytes as the data *)
Definition story_fits (hm m1 m2 : N) : bool :=
  match story hm m1 m2 with
  | Ret ([ROk; ROk; ROk; ROk; ROk; RVoid; ROk; RErr FAIL ERR_PASSWORD_INVALID; ROk; RData x; RErr FAIL ERR_FILEDATASTRUCT_NULL], f) =>
      match fd_data x, f (w_loc disk a_path) with
      | Some b, Some c => eqBytes b secret && (lenN c =? 40 + 2 * hash_size_of hm + mode_size m1 + mode_size m2 + getLen secret)
      | _, _ => false
      end
  | _ => false
  end.
(** Evaluated whenever this file is compiled, which fails if the value is another one.  The Example is about the value
    and so no theorem about the model; a proof takes [coqchk] too long.  (C36 proves such stories for all digests.) *)
Definition story_evaluated := Eval vm_compute in forallb (fun c => story_fits (fst c) (fst (snd c)) (snd (snd c))) [(1, (4, 5)); (2, (2, 3)); (3, (1, 4)); (3, (5, 2))].
Example story_value : story_evaluated = true.
Proof. reflexivity. Qed.
