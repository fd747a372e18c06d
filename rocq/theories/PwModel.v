(** Model of the password functions: src/pwfunc.cpp, include/pwfunc.h, include/settings.h.

    Each chain hash function is an instance of one of four loop templates (string or
    Bytes input, with a timeout or timed), because the source repeats the same loop
    with a different salt expression.  Logging is not modelled.  [clk k] is the value
    the k-th call of [timer.peekTime()] returns within the chain hash call. *)
From Verif Require Import Base BytesModel CipherModel.
From Coq Require Import Strings.String.

Definition str (s : string) : bytes := list_byte_of_string s.

(** ** isPasswordValid: pwfunc.cpp 8-38 *)
Definition MIN_PASS_LEN : N := 8.                                 (* settings.h 10 *)
(** settings.h 12; the source file is UTF-8, so the section sign is the two bytes C2 A7 *)
Definition VALID_PASS_CHARSET : bytes :=
  (str "a1eo0r2ins9lt357864mdycuhkbwgzpfvxjqAWYEZSRXMTNLVBDCOIPHUGKFJQ_.-!*@$#?%&;=~+[(/]{}):"
   ++ [xc2; xa7] ++ str "<>,")%list.
Inductive pwcheck := PwOk | PwCharInvalid (c : byte) | PwTooShort.
Fixpoint in_charset (c : byte) (l : bytes) : bool :=
  match l with [] => false | x :: r => if Byte.eqb c x then true else in_charset c r end.
(** the loop over the characters (pwfunc.cpp 11-27) from index [i] on; the index is an [int], which must not be increased beyond 2^31 - 1 *)
Definition INT_MAX : N := 2147483647.
Fixpoint first_invalid (i : N) (pw : bytes) : outcome (option byte) :=
  match pw with
  | [] => Ret None
  | c :: r => if in_charset c VALID_PASS_CHARSET then if i =? INT_MAX then Crash Undefined else first_invalid (i + 1) r else Ret (Some c)
  end.
Definition isPasswordValid (pw : bytes) : outcome pwcheck :=
  bad <- first_invalid 0 pw ;;
  Ret match bad with
      | Some c => PwCharInvalid c
      | None => if lenN pw <? MIN_PASS_LEN then PwTooShort else PwOk
      end.

(** ** std::to_string(u_int64_t): decimal text *)
Fixpoint to_string_loop (fuel : nat) (n : N) (acc : bytes) : bytes :=
  match fuel with
  | O => acc
  | S f =>
      let acc' := n2b (48 + n mod 10) :: acc in
      if n / 10 =? 0 then acc' else to_string_loop f (n / 10) acc'
  end.
Definition to_string (n : N) : bytes := to_string_loop 20 n [].

(** the quadratic salt value: pwfunc.cpp 125, 129, 224, 319, 325, 422 *)
Definition quad (a b c s : N) : N := w64 (w64 (w64 (a * s) * s) + w64 (b * s) + c).

Definition TIMEOUT_ITERATIONS : N := 1000.                        (* settings.h 45 *)

(** ErrorStruct<Bytes>: SUCCESS/NO_ERR with a digest, or TIMEOUT/ERR_TIMEOUT *)
Inductive chres := Done (b : Bytes) | TimedOut.

Section PwFunc.
Variable h : hashfn.
Variable clk : nat -> N.

(** [addStringToBytes(salt(start), ret)]; None: the function has no such statement *)
Definition add_salt (sf : option (N -> bytes)) (start : N) (ret : Bytes) : outcome Bytes :=
  match sf with None => Ret ret | Some f => addStringToBytes (f start) ret end.
Definition salt_text (sf : option (N -> bytes)) (start : N) : bytes :=
  match sf with None => [] | Some f => f start end.

(** *** string input: pwfunc.cpp 42-139 *)
(** the loop [for (i = 1; i < iterations; i++)]; k rounds left; [peeks] clock readings so far *)
Fixpoint string_loop (sf : option (N -> bytes)) (extra timeout : N)
    (k : nat) (i : N) (peeks : nat) (start : N) (ret : Bytes) : outcome chres :=
  match k with
  | O => Ret (Done ret)
  | S k' =>
      let start' := w64 (start + 1) in                       (* salt_start++ (modes with a counter) *)
      ret1 <- add_salt sf start' ret ;;
      ret2 <- do_hash h (bdata ret1) extra ;;
      if negb (timeout =? 0) && (i mod TIMEOUT_ITERATIONS =? 0) then
        if timeout <=? clk peeks then Ret TimedOut
        else string_loop sf extra timeout k' (w64 (i + 1)) (S peeks) start' ret2
      else string_loop sf extra timeout k' (w64 (i + 1)) peeks start' ret2
  end.
Definition string_chain (sf : option (N -> bytes)) (extra iters start timeout : N) (pw : bytes) : outcome chres :=
  noexcept (
    ret <- do_hash h (pw ++ salt_text sf start)%list extra ;;
    string_loop sf extra timeout (N.to_nat (iters - 1)) 1 0 start ret).

(** pwfunc.cpp 42-57 *)
Definition chainhash_s (pw : bytes) (iters timeout : N) :=
  string_chain None 0 iters 0 timeout pw.
(** pwfunc.cpp 59-76 *)
Definition chainhashWithConstantSalt_s (pw : bytes) (iters : N) (salt : bytes) (timeout : N) :=
  string_chain (Some (fun _ => salt)) (lenN salt) iters 0 timeout pw.
(** pwfunc.cpp 78-96 *)
Definition chainhashWithCountSalt_s (pw : bytes) (iters start timeout : N) :=
  string_chain (Some to_string) 20 iters start timeout pw.
(** pwfunc.cpp 98-118 *)
Definition chainhashWithCountAndConstantSalt_s (pw : bytes) (iters start : N) (salt : bytes) (timeout : N) :=
  string_chain (Some (fun s => salt ++ to_string s)%list) (lenN salt + 20) iters start timeout pw.
(** pwfunc.cpp 120-139 *)
Definition chainhashWithQuadraticCountSalt_s (pw : bytes) (iters start a b c timeout : N) :=
  string_chain (Some (fun s => to_string (quad a b c s))) 20 iters start timeout pw.

(** *** Bytes input: pwfunc.cpp 141-235 *)
(** the loop [for (i = 0; i < iterations; i++)] *)
Fixpoint bytes_loop (sf : option (N -> bytes)) (extra timeout : N)
    (k : nat) (i : N) (peeks : nat) (start : N) (ret : Bytes) : outcome chres :=
  match k with
  | O => Ret (Done ret)
  | S k' =>
      ret1 <- add_salt sf start ret ;;
      ret2 <- do_hash h (bdata ret1) extra ;;
      let start' := w64 (start + 1) in
      if negb (timeout =? 0) && (i mod TIMEOUT_ITERATIONS =? 0) then
        if timeout <=? clk peeks then Ret TimedOut
        else bytes_loop sf extra timeout k' (w64 (i + 1)) (S peeks) start' ret2
      else bytes_loop sf extra timeout k' (w64 (i + 1)) peeks start' ret2
  end.
(** [cp]: extra capacity given to the copy of the input *)
Definition bytes_chain (sf : option (N -> bytes)) (cp extra iters start timeout : N) (data : Bytes) : outcome chres :=
  noexcept (bytes_loop sf extra timeout (N.to_nat iters) 0 0 start (copyExtra data cp)).

(** pwfunc.cpp 141-156 *)
Definition chainhash_b (data : Bytes) (iters timeout : N) :=
  bytes_chain None 0 0 iters 0 timeout data.
(** pwfunc.cpp 158-175 *)
Definition chainhashWithConstantSalt_b (data : Bytes) (iters : N) (salt : bytes) (timeout : N) :=
  bytes_chain (Some (fun _ => salt)) (lenN salt) (lenN salt) iters 0 timeout data.
(** pwfunc.cpp 177-195 *)
Definition chainhashWithCountSalt_b (data : Bytes) (iters start timeout : N) :=
  bytes_chain (Some to_string) 20 20 iters start timeout data.
(** pwfunc.cpp 197-215 *)
Definition chainhashWithCountAndConstantSalt_b (data : Bytes) (iters start : N) (salt : bytes) (timeout : N) :=
  bytes_chain (Some (fun s => salt ++ to_string s)%list) (lenN salt + 20) (lenN salt + 20) iters start timeout data.
(** pwfunc.cpp 217-235 *)
Definition chainhashWithQuadraticCountSalt_b (data : Bytes) (iters start a b c timeout : N) :=
  bytes_chain (Some (fun s => to_string (quad a b c s))) 20 20 iters start timeout data.

(** *** timed versions: pwfunc.cpp 237-432; the result is TimedResult {iterations, result} *)
Fixpoint string_timed_loop (fuel : nat) (sf : option (N -> bytes)) (extra timeout : N)
    (iterations : N) (peeks : nat) (start : N) (ret : Bytes) : outcome (N * Bytes) :=
  match fuel with
  | O => OutOfFuel
  | S f =>
      let iterations' := w64 (iterations + 1) in
      let start' := w64 (start + 1) in
      ret1 <- add_salt sf start' ret ;;
      ret2 <- do_hash h (bdata ret1) extra ;;
      if iterations' mod TIMEOUT_ITERATIONS =? 0 then
        if timeout <=? clk peeks then Ret (iterations', ret2)
        else string_timed_loop f sf extra timeout iterations' (S peeks) start' ret2
      else string_timed_loop f sf extra timeout iterations' peeks start' ret2
  end.
Definition string_timed (fuel : nat) (sf : option (N -> bytes)) (extra start timeout : N) (pw : bytes) : outcome (N * Bytes) :=
  noexcept (
    ret <- do_hash h (pw ++ salt_text sf start)%list extra ;;
    string_timed_loop fuel sf extra timeout 1 0 start ret).
(** pwfunc.cpp 237-253 *)
Definition chainhashTimed_s (fuel : nat) (pw : bytes) (timeout : N) :=
  string_timed fuel None 0 0 timeout pw.
(** pwfunc.cpp 255-272 *)
Definition chainhashWithConstantSaltTimed_s (fuel : nat) (pw : bytes) (timeout : N) (salt : bytes) :=
  string_timed fuel (Some (fun _ => salt)) (lenN salt) 0 timeout pw.
(** pwfunc.cpp 274-292 *)
Definition chainhashWithCountSaltTimed_s (fuel : nat) (pw : bytes) (timeout start : N) :=
  string_timed fuel (Some to_string) 20 start timeout pw.
(** pwfunc.cpp 294-313 *)
Definition chainhashWithCountAndConstantSaltTimed_s (fuel : nat) (pw : bytes) (timeout start : N) (salt : bytes) :=
  string_timed fuel (Some (fun s => salt ++ to_string s)%list) (lenN salt + 20) start timeout pw.
(** pwfunc.cpp 315-334 *)
Definition chainhashWithQuadraticCountSaltTimed_s (fuel : nat) (pw : bytes) (timeout start a b c : N) :=
  string_timed fuel (Some (fun s => to_string (quad a b c s))) 20 start timeout pw.

Fixpoint bytes_timed_loop (fuel : nat) (sf : option (N -> bytes)) (extra timeout : N)
    (iterations : N) (peeks : nat) (start : N) (ret : Bytes) : outcome (N * Bytes) :=
  match fuel with
  | O => OutOfFuel
  | S f =>
      let iterations' := w64 (iterations + 1) in
      ret1 <- add_salt sf start ret ;;
      ret2 <- do_hash h (bdata ret1) extra ;;
      let start' := w64 (start + 1) in
      if iterations' mod TIMEOUT_ITERATIONS =? 0 then
        if timeout <=? clk peeks then Ret (iterations', ret2)
        else bytes_timed_loop f sf extra timeout iterations' (S peeks) start' ret2
      else bytes_timed_loop f sf extra timeout iterations' peeks start' ret2
  end.
Definition bytes_timed (fuel : nat) (sf : option (N -> bytes)) (cp extra start timeout : N) (data : Bytes) : outcome (N * Bytes) :=
  noexcept (bytes_timed_loop fuel sf extra timeout 0 0 start (copyExtra data cp)).
(** pwfunc.cpp 336-352 *)
Definition chainhashTimed_b (fuel : nat) (data : Bytes) (timeout : N) :=
  bytes_timed fuel None 0 0 0 timeout data.
(** pwfunc.cpp 354-371 *)
Definition chainhashWithConstantSaltTimed_b (fuel : nat) (data : Bytes) (timeout : N) (salt : bytes) :=
  bytes_timed fuel (Some (fun _ => salt)) (lenN salt) (lenN salt) 0 timeout data.
(** pwfunc.cpp 373-391 *)
Definition chainhashWithCountSaltTimed_b (fuel : nat) (data : Bytes) (timeout start : N) :=
  bytes_timed fuel (Some to_string) 20 20 start timeout data.
(** pwfunc.cpp 393-412 *)
Definition chainhashWithCountAndConstantSaltTimed_b (fuel : nat) (data : Bytes) (timeout start : N) (salt : bytes) :=
  bytes_timed fuel (Some (fun s => salt ++ to_string s)%list) (lenN salt + 20) (lenN salt + 20) start timeout data.
(** pwfunc.cpp 414-432 *)
Definition chainhashWithQuadraticCountSaltTimed_b (fuel : nat) (data : Bytes) (timeout start a b c : N) :=
  bytes_timed fuel (Some (fun s => to_string (quad a b c s))) 20 20 start timeout data.
End PwFunc.
