(** Models of the small utilities: stream reading, number validation, random
    values, timer, error struct.
    Sources: src/utility.cpp, src/rng.cpp, src/timer.cpp, include/timer.h, include/error.h. *)
From Verif Require Import Base BytesModel.

(** ** endsWith: utility.cpp 11-19 *)
Definition endsWith (full ending : bytes) : bool :=
  if lenN ending <=? lenN full then
    eqb_bytes (takeN (lenN ending) (dropN (lenN full - lenN ending) full)) ending
  else false.

(** ** readData(istream&, Bytes&, size): utility.cpp 81-103.
    The stream is the list of bytes left.  [g i] is how many bytes [readsome] finds
    buffered in round [i]; after a successful [peek] at least one byte is buffered.
    I/O errors of the stream (fail/bad bits) are not modelled. *)
Fixpoint readData_loop (fuel : nat) (g : nat -> N) (i : nat) (peeked : bool)
    (size read : N) (acc s : bytes) : outcome (bool * bytes * bytes) :=
  match fuel with
  | O => OutOfFuel
  | S f =>
      let avail := if peeked then N.max 1 (g i) else g i in
      let m := N.min (size - read) (N.min avail (lenN s)) in
      let acc' := acc ++ takeN m s in
      let s' := dropN m s in
      let read' := read + m in
      if negb (read' =? size) && (lenN s' =? 0) then Ret (false, acc', s')   (* eof() || peek() == EOF *)
      else if read' =? size then Ret (true, acc', s')
      else readData_loop f g (S i) true size read' acc' s'
  end.
(** returns success, the new [data] and the bytes left; noexcept *)
Definition readData (fuel : nat) (g : nat -> N) (size : N) (data : Bytes) (s : bytes) : outcome (bool * Bytes * bytes) :=
  noexcept
    (if sub64 (bmax data) (getLen data) <? size then Ret (false, data, s)
     else
       '(ok, got, s') <- readData_loop fuel g 0 false size 0 [] s ;;
       if (ok : bool) then Ret (true, mkBytes (bdata data ++ got) (bmax data), s')
       else Ret (false, data, s')).

(** ** isValidNumber: utility.cpp 57-79.
    [isdigit] on a negative char (bytes 128..255) is undefined behaviour. *)
Definition isdigit (c : byte) : outcome bool :=
  if 128 <=? b2n c then Crash Undefined
  else Ret ((48 <=? b2n c) && (b2n c <=? 57)).
Fixpoint all_digits (s : bytes) : outcome bool :=
  match s with
  | [] => Ret true
  | c :: r => d <- isdigit c ;; if (d : bool) then all_digits r else Ret false
  end.
(** std::stoul on a non-empty digit string; None when the value does not fit in unsigned long *)
Definition stoul (s : bytes) : option N :=
  let v := fold_left (fun a c => a * 10 + (b2n c - 48)) s 0 in
  if v <? two64 then Some v else None.
Definition isValidNumber (number : bytes) (accept_blank : bool) (lower upper : N) : outcome bool :=
  match number with
  | [] => Ret accept_blank
  | _ =>
      d <- all_digits number ;;
      if (d : bool) then
        match stoul number with
        | None => Ret false
        | Some v => Ret ((lower <=? v) && (v <=? upper))
        end
      else Ret false
  end.

(** ** RNG::get_random_byte: rng.cpp 61-89; [rnd n] are the n bytes RAND_bytes delivers,
    None when it fails *)
Definition get_random_byte (rnd : N -> option bytes) (lower upper : byte) (buffer_size : N) : outcome byte :=
  if (buffer_size <? 1) || (8 <? buffer_size) then Throw LogicError
  else if b2n upper <=? b2n lower then
    if b2n upper =? b2n lower then Ret upper else Throw LogicError
  else
    match rnd buffer_size with
    | None => Throw RuntimeError
    | Some bs => v <- toLong (mkBytes bs buffer_size) ;; Ret (n2b (v mod (b2n upper - b2n lower) + b2n lower))
    end.

(** ** RNG::get_random_string: rng.cpp 8-38.  [rnd i] are the [num] bytes of the
    i-th RAND_bytes call (None: failure). *)
Definition isLetter (b : byte) : bool :=
  ((65 <=? b2n b) && (b2n b <=? 90)) || ((97 <=? b2n b) && (b2n b <=? 122)).
(** the for loop; inr = return from the function *)
Fixpoint pick_letters (num : N) (buf res : bytes) : bytes + bytes :=
  match buf with
  | [] => inl res
  | b :: r =>
      let res' := if isLetter b then res ++ [b] else res in
      if lenN res' =? num then inr res' else pick_letters num r res'
  end.
Fixpoint random_string_loop (fuel : nat) (rnd : nat -> option bytes) (i : nat) (num : N) (res : bytes) : outcome bytes :=
  match fuel with
  | O => OutOfFuel
  | S f =>
      match rnd i with
      | None => Throw RuntimeError
      | Some buf =>
          match pick_letters num buf res with
          | inr r => Ret r
          | inl res' => random_string_loop f rnd (S i) num res'
          end
      end
  end.
Definition get_random_string (fuel : nat) (rnd : nat -> option bytes) (num : N) : outcome bytes :=
  if num <? 1 then Throw LogicError else random_string_loop fuel rnd 0 num [].

(** ** Timer: timer.cpp, timer.h.  Clock readings (ns) are passed in with each call. *)
Record timer := mkTimer { t_last : N; t_laps : list N; t_started : bool; t_stopped : bool }.
Definition timer_init : timer := mkTimer 0 [] false false.

Inductive timer_op :=
| TStart | TStop | TRecord | TPeek | TAverage | TSlowest | TTime | TLaps.

(** duration_cast<milliseconds>, converted to u_int64_t *)
Definition elapsed_ms (now last : N) : N := w64 ((now - last) / 1000000).

(** getAverageTime: timer.cpp 46-58 *)
Definition avg (laps : list N) : N :=
  match laps with
  | [] => 0
  | _ => fold_left (fun s l => w64 (s + l)) laps 0 / lenN laps
  end.
(** getSlowest: timer.cpp 60-74 *)
Definition slowest (laps : list N) : N :=
  fold_left (fun m l => if m <? l then l else m) laps 0.

(** require_*: timer.cpp 88-114 *)
Definition require (b : bool) {A} (k : outcome A) : outcome A := if b then k else Throw LogicError.

(** timer.cpp 8-86; the clock must not go back (steady_clock) *)
Definition timer_step (t : timer) (now : N) (o : timer_op) : outcome (timer * N) :=
  match o with
  | TStart => require (negb (t_started t)) (Ret (mkTimer now [] true false, 0))
  | TStop =>
      require (negb (t_stopped t)) (require (t_started t)
        (let e := elapsed_ms now (t_last t) in
         Ret (mkTimer now (t_laps t ++ [e]) false true, 0)))
  | TRecord =>
      require (t_started t) (require (negb (t_stopped t))
        (let e := elapsed_ms now (t_last t) in
         Ret (mkTimer now (t_laps t ++ [e]) (t_started t) (t_stopped t), e)))
  | TPeek => require (t_started t) (require (negb (t_stopped t)) (Ret (t, elapsed_ms now (t_last t))))
  | TAverage => require (t_stopped t) (Ret (t, avg (t_laps t)))
  | TSlowest => require (t_stopped t) (Ret (t, slowest (t_laps t)))
  | TTime => require (t_stopped t) (Ret (t, w64 (avg (t_laps t) * lenN (t_laps t))))
  | TLaps => require (t_stopped t) (Ret (t, lenN (t_laps t)))
  end.
(** a history of calls with their clock readings; a call that throws leaves the timer as it was *)
Fixpoint timer_run (t : timer) (ops : list (N * timer_op)) : timer * list (outcome N) :=
  match ops with
  | [] => (t, [])
  | (now, o) :: r =>
      match timer_step t now o with
      | Ret (t', v) => let '(tf, outs) := timer_run t' r in (tf, Ret v :: outs)
      | Throw e => let '(tf, outs) := timer_run t r in (tf, Throw e :: outs)
      | Crash c => (t, [Crash c])
      | OutOfFuel => (t, [OutOfFuel])
      end
  end.

(** ** ErrorStruct<T>: error.h 58-156 *)
Inductive success_type := SUCCESS | FAIL | TIMEOUT.
Record errstruct (T : Type) := mkErr {
  e_moved : bool; e_input_moved : bool; e_success : success_type; e_value : option T }.
Arguments mkErr {T}. Arguments e_moved {T}. Arguments e_input_moved {T}.
Arguments e_success {T}. Arguments e_value {T}.

Definition isSuccess {T} (e : errstruct T) : bool :=
  match e_success e with SUCCESS => true | _ => false end.
(** constructors: createMove error.h 69-80, default 83-91, value 96, failing ones 94-95, full 92-93 *)
Definition createMove {T} (v : T) : errstruct T := mkErr false true SUCCESS (Some v).
Definition err_default {T} : errstruct T := mkErr false false FAIL None.
Definition err_ok {T} (v : T) : errstruct T := mkErr false false SUCCESS (Some v).
Definition err_fail {T} (s : success_type) : errstruct T := mkErr false false s None.
Definition err_full {T} (s : success_type) (v : T) : errstruct T := mkErr false false s (Some v).

Inductive err_op (T : Type) := OpValue | OpRef | OpMove | OpSet (v : T) | OpSetSuccess (s : success_type).
Arguments OpValue {T}. Arguments OpRef {T}. Arguments OpMove {T}. Arguments OpSet {T}. Arguments OpSetSuccess {T}.

(** returnValue error.h 99-119, returnRef 120-136, returnMove 137-150, setReturnValue 152; [success] is a public field *)
Definition err_step {T} (e : errstruct T) (o : err_op T) : outcome (errstruct T * option T) :=
  let give (e' : errstruct T) :=
    if negb (isSuccess e) then Throw LogicError
    else match e_value e with None => Throw LogicError | Some v => Ret (e', Some v) end in
  match o with
  | OpValue => if e_moved e then Throw LogicError else if e_input_moved e then Throw LogicError else give e
  | OpRef => if e_moved e then Throw LogicError else give e
  | OpMove => give (mkErr true (e_input_moved e) (e_success e) (e_value e))
  | OpSet v => Ret (mkErr (e_moved e) (e_input_moved e) (e_success e) (Some v), None)
  | OpSetSuccess s => Ret (mkErr (e_moved e) (e_input_moved e) s (e_value e), None)
  end.
Fixpoint err_run {T} (e : errstruct T) (ops : list (err_op T)) : errstruct T :=
  match ops with
  | [] => e
  | o :: r => match err_step e o with Ret (e', _) => err_run e' r | _ => err_run e r end
  end.
