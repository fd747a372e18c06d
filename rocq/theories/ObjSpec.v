(** What the objects of the header code answer to any sequence of calls: a sheet of plain values
    stands for the object.  Nothing here refers to how the objects store their values. *)
From Verif Require Import Base BytesModel BytesSpec CipherModel PwModel PwSpec ChModel ChSpec HeaderModel HeaderSpec.

(** ** DataHeaderParts: dataheader.h 121-258 *)
Inductive part_op :=
| PFile (m : N) | PHash (m : N) | PValid (b : Bytes) | PSalt (b : Bytes)    (* setters *)
| PCh1 (c : chainhash) | PCh2 (c : chainhash)                               (* assignments to the public members *)
| GFile | GHash | GSize | GValid | GSalt | GComplete (n : N).               (* getters, isComplete *)
Inductive part_ans := ADone | ANum (n : N) | ABytes (x : bytes) | ABool (b : bool).
(** the object after a call, and its answer; a call that throws changes nothing *)
Definition part_set (p : dhparts) (r : outcome dhparts) : dhparts * outcome part_ans :=
  match r with Ret p' => (p', Ret ADone) | Throw e => (p, Throw e) | Crash c => (p, Crash c) | OutOfFuel => (p, OutOfFuel) end.
Definition part_get {A} (p : dhparts) (f : A -> part_ans) (r : outcome A) : dhparts * outcome part_ans :=
  (p, x <- r ;; Ret (f x)).
Definition part_step (p : dhparts) (o : part_op) : dhparts * outcome part_ans :=
  match o with
  | PFile m => part_set p (p_setFileDataMode m p)
  | PHash m => part_set p (p_setHashMode m p)
  | PValid b => part_set p (p_setValid b p)
  | PSalt b => part_set p (p_setSalt b p)
  | PCh1 c => part_set p (x <- ch_assign (p_ch1 p) c ;; Ret (p_setCh1 x p))
  | PCh2 c => part_set p (x <- ch_assign (p_ch2 p) c ;; Ret (p_setCh2 x p))
  | GFile => part_get p ANum (p_getFileDataMode p)
  | GHash => part_get p ANum (p_getHashMode p)
  | GSize => part_get p ANum (p_getHashSize p)
  | GValid => part_get p (fun b => ABytes (bdata b)) (p_getValid p)
  | GSalt => part_get p (fun b => ABytes (bdata b)) (p_getSalt p)
  | GComplete n => (p, Ret (ABool (p_isComplete n p)))
  end.
Fixpoint part_answers (p : dhparts) (ops : list part_op) : list (outcome part_ans) :=
  match ops with [] => [] | o :: r => snd (part_step p o) :: part_answers (fst (part_step p o)) r end.
(** chain hashes that a program can have *)
Definition part_op_ok (bd : build) (o : part_op) : Prop := match o with PCh1 c | PCh2 c => built bd c | _ => True end.

(** *** the reference: what the calls made so far, newest first, have set *)
Fixpoint file_mode (past : list part_op) : option N :=
  match past with [] => None | PFile m :: r => if m =? 1 then Some m else file_mode r | _ :: r => file_mode r end.
Fixpoint hash_mode (past : list part_op) : option N :=
  match past with [] => None | PHash m :: r => if (1 <=? m) && (m <=? 3) then Some m else hash_mode r | _ :: r => hash_mode r end.
(** the length that counts is that of the hash mode at the time of the call *)
Definition right_length (past : list part_op) (b : Bytes) : bool :=
  match hash_mode past with Some m => lenN (bdata b) =? digest_len m | None => false end.
Fixpoint validator (past : list part_op) : option bytes :=
  match past with [] => None | PValid b :: r => if right_length r b then Some (bdata b) else validator r | _ :: r => validator r end.
Fixpoint the_salt (past : list part_op) : option bytes :=
  match past with [] => None | PSalt b :: r => if right_length r b then Some (bdata b) else the_salt r | _ :: r => the_salt r end.
Fixpoint chain1 (past : list part_op) : bool :=
  match past with [] => false | PCh1 c :: r => ch_val c || chain1 r | _ :: r => chain1 r end.
Fixpoint chain2 (past : list part_op) : bool :=
  match past with [] => false | PCh2 c :: r => ch_val c || chain2 r | _ :: r => chain2 r end.
Definition known {A} (f : A -> part_ans) (v : option A) : outcome part_ans :=
  match v with Some x => Ret (f x) | None => Throw RuntimeError end.
Definition accept_if (c : bool) (e : exn) : outcome part_ans := if c then Ret ADone else Throw e.
Definition set_bytes (past : list part_op) (b : Bytes) : outcome part_ans :=
  match hash_mode past with None => Throw RuntimeError | Some _ => accept_if (right_length past b) InvalidArgument end.
Definition part_answer (past : list part_op) (o : part_op) : outcome part_ans :=
  match o with
  | PFile m => accept_if (m =? 1) InvalidArgument
  | PHash m => accept_if ((1 <=? m) && (m <=? 3)) InvalidArgument
  | PValid b | PSalt b => set_bytes past b
  | PCh1 c | PCh2 c => accept_if (ch_val c) RuntimeError
  | GFile => known ANum (file_mode past)
  | GHash => known ANum (hash_mode past)
  | GSize => known (fun m => ANum (digest_len m)) (hash_mode past)
  | GValid => known ABytes (validator past)
  | GSalt => known ABytes (the_salt past)
  | GComplete n => Ret (ABool (
      chain1 past && chain2 past && isSome (file_mode past) && isSome (validator past) && isSome (the_salt past) &&
      match hash_mode past with Some m => digest_len m =? n | None => false end))
  end.
Fixpoint part_expected (past : list part_op) (ops : list part_op) : list (outcome part_ans) :=
  match ops with [] => [] | o :: r => part_answer past o :: part_expected (o :: past) r end.

(** ** DataHeader: dataheader.h 607-666 *)
Fixpoint h_answers (bd : build) (H : hashes) (clk : nat -> N) (d : dheader) (ops : list hop) : list (outcome unit) :=
  match ops with [] => [] | o :: r => snd (h_step bd H clk d o) :: h_answers bd H clk (fst (h_step bd H clk d o)) r end.

Record sheet := mkSheet {
  sh_hmode : N; sh_fmode : option N; sh_c1 : option (N * N * bytes); sh_c2 : option (N * N * bytes);
  sh_valid : option bytes; sh_salt : bytes; sh_blocks : list (N * bytes); sh_encs : list (N * N * bytes);
  sh_size : option N;
  sh_done : bool }.                                  (* the bytes have been computed since the last change *)
Definition new_sheet (mode : N) (salt : bytes) : sheet := mkSheet mode None None None None salt [] [] None false.
(** of a header that was read from a file of [fs] bytes *)
Definition read_sheet (fs : N) (h : header) : sheet :=
  mkSheet (h_hmode h) (Some (h_fmode h)) (Some (h_ch1 h)) (Some (h_ch2 h)) (Some (h_valid h)) (h_salt h) (h_blocks h) (h_encs h) (Some fs) true.
(** the header, if nothing is missing *)
Definition whole (s : sheet) : option header :=
  match sh_fmode s, sh_c1 s, sh_c2 s, sh_valid s with
  | Some fm, Some c1, Some c2, Some v => Some (mkHeader fm (sh_hmode s) (sh_blocks s) c1 c2 v (sh_salt s) (sh_encs s))
  | _, _, _, _ => None
  end.
(** a change of the sheet makes computed bytes out of date *)
Definition put_fmode m (s : sheet) := mkSheet (sh_hmode s) (Some m) (sh_c1 s) (sh_c2 s) (sh_valid s) (sh_salt s) (sh_blocks s) (sh_encs s) (sh_size s) false.
Definition put_c1 c (s : sheet) := mkSheet (sh_hmode s) (sh_fmode s) (Some c) (sh_c2 s) (sh_valid s) (sh_salt s) (sh_blocks s) (sh_encs s) (sh_size s) false.
Definition put_c2 c (s : sheet) := mkSheet (sh_hmode s) (sh_fmode s) (sh_c1 s) (Some c) (sh_valid s) (sh_salt s) (sh_blocks s) (sh_encs s) (sh_size s) false.
Definition put_valid v (s : sheet) := mkSheet (sh_hmode s) (sh_fmode s) (sh_c1 s) (sh_c2 s) (Some v) (sh_salt s) (sh_blocks s) (sh_encs s) (sh_size s) false.
Definition put_salt v (s : sheet) := mkSheet (sh_hmode s) (sh_fmode s) (sh_c1 s) (sh_c2 s) (sh_valid s) v (sh_blocks s) (sh_encs s) (sh_size s) false.
Definition put_blocks b e (s : sheet) := mkSheet (sh_hmode s) (sh_fmode s) (sh_c1 s) (sh_c2 s) (sh_valid s) (sh_salt s) b e (sh_size s) false.
Definition put_size n (s : sheet) := mkSheet (sh_hmode s) (sh_fmode s) (sh_c1 s) (sh_c2 s) (sh_valid s) (sh_salt s) (sh_blocks s) (sh_encs s) (Some n) false.
Definition put_done (s : sheet) := mkSheet (sh_hmode s) (sh_fmode s) (sh_c1 s) (sh_c2 s) (sh_valid s) (sh_salt s) (sh_blocks s) (sh_encs s) (sh_size s) true.

Definition only_if (c : bool) (e : exn) (s s' : sheet) : sheet * outcome unit := if c then (s', Ret tt) else (s, Throw e).
Definition with_chain (c : chainhash) (s : sheet) (put : N * N * bytes -> sheet -> sheet) : sheet * outcome unit :=
  match chain_of c with Some x => (put x s, Ret tt) | None => (s, Throw InvalidArgument) end.
Definition sheet_step (H : hashes) (s : sheet) (o : hop) : sheet * outcome unit :=
  match o with
  | HChain1 c => with_chain c s put_c1
  | HChain2 c => with_chain c s put_c2
  | HFileMode m => only_if (m =? 1) InvalidArgument s (put_fmode m s)
  | HValid b => only_if (lenN (bdata b) =? digest_len (sh_hmode s)) InvalidArgument s (put_valid (bdata b) s)
  | HSalt b => only_if (lenN (bdata b) =? digest_len (sh_hmode s)) InvalidArgument s (put_salt (bdata b) s)
  | HClear => (put_blocks [] [] s, Ret tt)
  | HBlock b => only_if (lenN (sh_blocks s) <? 255) LengthError s (put_blocks (sh_blocks s ++ [(db_type b, bdata (db_data b))]) (sh_encs s) s)
  | HEnc e => only_if (lenN (sh_encs s) <? 255) LengthError s
      (put_blocks (sh_blocks s) (sh_encs s ++ [(db_type (eb_block e), eb_len e, bdata (db_data (eb_block e)))]) s)
  | HFileSize n =>
      match whole s with None => (s, Throw LogicError) | Some h => only_if (hdr_len h <=? n) InvalidArgument s (put_size n s) end
  | HDataSize n =>
      match whole s with None => (s, Throw LogicError) | Some h => (put_size ((n + hdr_len h) mod 2 ^ 32) s, Ret tt) end
  | HCalc pw =>
      match whole s, sh_size s with
      | Some h, Some n =>
          only_if ((hdr_len h <=? n) &&
                   ((lenN (bdata pw) =? 0) || eqb_bytes (h_valid h) (chain_value (hash_of H (h_hmode h)) (h_ch2 h) (bdata pw))))
            InvalidArgument s (put_done s)
      | _, _ => (s, Throw LogicError)
      end
  | HShared1 _ | HShared2 _ => (s, Ret tt)           (* not used, see [direct] *)
  end.
Fixpoint sheet_answers (H : hashes) (s : sheet) (ops : list hop) : list (outcome unit) :=
  match ops with [] => [] | o :: r => snd (sheet_step H s o) :: sheet_answers H (fst (sheet_step H s o)) r end.
Fixpoint sheet_run (H : hashes) (s : sheet) (ops : list hop) : sheet :=
  match ops with [] => s | o :: r => sheet_run H (fst (sheet_step H s o)) r end.

(** calls on the header itself; password hashes of a size that exists *)
Definition direct (o : hop) : Prop :=
  match o with
  | HShared1 _ | HShared2 _ => False
  | HCalc pw => getLen pw <= bmax pw /\ bmax pw + 275 < 2 ^ 64
  | _ => True
  end.
(** the length of the header as soon as the chain hashes are known, otherwise 0 *)
Definition sheet_len (s : sheet) : N :=
  match sh_c1 s, sh_c2 s with
  | Some x, Some y => 40 + 2 * digest_len (sh_hmode s) + lenN (snd x) + lenN (snd y) +
      2 * lenN (sh_blocks s) + 257 * lenN (sh_encs s) + sum (map (fun b => lenN (snd b)) (sh_blocks s))
  | _, _ => 0
  end.
(** the getters of the object [d] answer what the sheet says *)
Definition answers_as (d : dheader) (s : sheet) : Prop :=
  getHeaderLength d = Ret (sheet_len s) /\
  d_fsize d = sh_size s /\
  match whole s with
  | None => getDataHeaderParts d = Throw LogicError
  | Some h => exists p, getDataHeaderParts d = Ret p /\
      p_getFileDataMode p = Ret (h_fmode h) /\ p_getHashMode p = Ret (h_hmode h) /\ p_getHashSize p = Ret (digest_len (h_hmode h)) /\
      (exists v, p_getValid p = Ret v /\ bdata v = h_valid h) /\ (exists v, p_getSalt p = Ret v /\ bdata v = h_salt h) /\
      chain_of (p_ch1 p) = Some (h_ch1 h) /\ chain_of (p_ch2 p) = Some (h_ch2 h) /\
      map (fun b => (db_type b, bdata (db_data b))) (p_dec p) = h_blocks h /\
      map (fun e => (db_type (eb_block e), eb_len e, bdata (db_data (eb_block e)))) (p_enc p) = h_encs h
  end /\
  match sh_done s, whole s, sh_size s with
  | true, Some h, Some n => exists b, getHeaderBytes d = Ret b /\ bdata b = ser n h
  | _, _, _ => getHeaderBytes d = Throw LogicError
  end.

(** ** ChainHashTimed: chainhash_modes.h 178-312 *)
(** mode, run time and data that a call leaves behind *)
Definition timed_after (c : chtimed) (o : ctop) : option N * option N * option chd :=
  match o with
  | TTime t => (ct_mode c, Some t, ct_data c)
  | TMode m => (Some m, ct_time c, ct_data c)
  | TData d => (ct_mode c, ct_time c, d)
  | TAssign s => (ct_mode s, ct_time s, ct_data s)
  | TShared _ => (ct_mode c, ct_time c, ct_data c)
  end.
Definition timed_of (c : chtimed) : option N * option N * option chd := (ct_mode c, ct_time c, ct_data c).
Definition timed_setter (o : ctop) : Prop := match o with TShared _ => False | _ => True end.
(** the call is refused, and with what *)
Definition timed_refused (o : ctop) : option exn :=
  match o with
  | TMode m => if (1 <=? m) && (m <=? 5) then None else Some InvalidArgument
  | TAssign s => if ct_val s then None else Some RuntimeError
  | _ => None
  end.

(** ** Bytes: what a call throws that does not fit into the capacity *)
Definition raised (o : bop) : exn := match o with BAddString _ => RuntimeError | _ => LengthError end.
