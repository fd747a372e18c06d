(** Which of the calls made so far still matter, and what a caller sees of the calls that follow (C92). *)
From Verif Require Import Base FileModel ApiModel ApiSpec.

(** a call that failed, or that only asked a question or created a file *)
Definition idle (e : entry) : bool :=
  match e_reply e, e_op e with
  | (RErr _ _ | RBool _ | RNames _ | RBytes _), _ => true
  | _, OCreate _ => true
  | _, _ => false
  end.
(** the calls since the last file was closed, without the idle ones *)
Fixpoint essential (tr : list entry) : list entry :=
  match tr with
  | [] => []
  | e :: r => if closes e then [] else if idle e then essential r else e :: essential r
  end.

(** a call to come: the circumstances, the files before it (other programs may have changed them), the call *)
Record call := mkCall { c_world : world; c_files : fs; c_op : op }.
(** what is seen of a sequence of calls: the files after each call and its reply; it ends early if the process dies *)
Fixpoint watch (l : list call) (a : api) : list (fs * outcome reply) :=
  match l with
  | [] => []
  | c :: r =>
      match step (c_world c) a (c_files c) (c_op c) with
      | (f', Ret (a', x)) => (f', Ret x) :: watch r a'
      | (f', Throw e) => [(f', Throw e)]
      | (f', Crash e) => [(f', Crash e)]
      | (f', OutOfFuel) => [(f', OutOfFuel)]
      end
  end.

(** an attempt to log in *)
Record attempt := mkTry { t_world : world; t_files : fs; t_pw : bytes; t_limit : N }.
Definition trying (t : attempt) : call := mkCall (t_world t) (t_files t) (OVerify (t_pw t) (t_limit t)).
(** the same attempt with another password *)
Definition with_pw (pw : bytes) (t : attempt) : attempt := mkTry (t_world t) (t_files t) pw (t_limit t).
