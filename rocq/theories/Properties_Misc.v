(** Properties C50-C53, C55, C57: utilities. *)
From Verif Require Import Base BytesModel MiscModel MiscFacts.

(** C50 *)
Theorem C50_range : forall rnd lower upper n r, get_random_byte rnd lower upper n = Ret r ->
  (b2n lower < b2n upper -> b2n lower <= b2n r < b2n upper) /\ (lower = upper -> r = lower) /\
  b2n lower <= b2n upper /\ 1 <= n <= 8.
Proof. exact get_random_byte_range. Qed.
Print Assumptions C50_range.
(** every value of the range is produced by some random source *)
Theorem C50_onto : forall lower upper n x, b2n lower <= b2n x < b2n upper -> 1 <= n <= 8 ->
  exists rnd, (forall k, exists bs, rnd k = Some bs /\ lenN bs = k) /\ get_random_byte rnd lower upper n = Ret x.
Proof. exact get_random_byte_onto. Qed.
Print Assumptions C50_onto.
Theorem C50_inverted_throws : forall rnd lower upper n, b2n upper < b2n lower ->
  get_random_byte rnd lower upper n = Throw LogicError.
Proof. exact get_random_byte_inverted. Qed.
Print Assumptions C50_inverted_throws.
Example C50_ex : get_random_byte (fun n => Some (repeat xff (N.to_nat n))) x10 x20 4 = Ret x1f /\
  get_random_byte (fun _ => None) x10 x10 4 = Ret x10 /\ b2n x10 < b2n x20.
Proof. vm_compute. auto. Qed.

(** C51 *)
Theorem C51_protocol : forall ops,
  sums_ok Idle ops ->
  snd (timer_run timer_init ops) = snd (phase_run Idle ops).
Proof. exact (fun ops H => proj1 (timer_run_refines ops timer_init Idle (conj eq_refl eq_refl) H)). Qed.
Print Assumptions C51_protocol.
Theorem C51_total_time : forall laps, laps <> [] ->
  let total := lenN laps * (sumlaps laps / lenN laps) in
  total <= sumlaps laps < total + lenN laps /\ (total = sumlaps laps <-> (sumlaps laps) mod (lenN laps) = 0).
Proof. exact total_time_bounds. Qed.
Print Assumptions C51_total_time.
Definition C51_ops : list (N * timer_op) :=
  [(0, TTime); (1000000, TStart); (4000000, TRecord); (9500000, TPeek); (9600000, TStop); (0, TTime); (0, TSlowest); (0, TLaps); (0, TStop)].
Example C51_ex : sums_ok Idle C51_ops /\ snd (timer_run timer_init C51_ops) =
  [Throw LogicError; Ret 0; Ret 3; Ret 5; Ret 0; Ret 8; Ret 5; Ret 2; Throw LogicError].
Proof. vm_compute. repeat split; congruence. Qed.
Example C51_ex_lossy : snd (timer_run timer_init [(0, TStart); (1000000, TRecord); (3000000, TStop); (0, TTime)]) =
  [Ret 0; Ret 1; Ret 0; Ret 2].   (* 1 ms + 2 ms reported as 2 ms *)
Proof. vm_compute. reflexivity. Qed.

(** C52 *)
Theorem C52_accepts : forall s blank lo hi, Forall (fun c => b2n c < 128) s ->
  exists r, isValidNumber s blank lo hi = Ret r /\
    (r = true <-> (s = [] /\ blank = true) \/
      (s <> [] /\ Forall is_digit s /\ dec_val s 0 < 2 ^ 64 /\ lo <= dec_val s 0 <= hi)).
Proof. exact isValidNumber_spec. Qed.
Print Assumptions C52_accepts.
Theorem C52_undefined : forall s blank lo hi, isValidNumber s blank lo hi = Crash Undefined <->
  exists p c r, s = p ++ c :: r /\ Forall is_digit p /\ 128 <= b2n c.
Proof. exact isValidNumber_undef. Qed.
Print Assumptions C52_undefined.
Example C52_ex : isValidNumber [x34; x32] false 1 42 = Ret true /\ isValidNumber [x34; x33] false 1 42 = Ret false /\
  dec_val [x34; x32] 0 = 42 /\ isValidNumber (repeat x39 20) false 0 (2 ^ 64 - 1) = Ret false /\
  isValidNumber [x34; xc2; xa7] true 0 100 = Crash Undefined /\ isValidNumber [x2d; xc2] true 0 100 = Ret false.
Proof. vm_compute. repeat split. Qed.

(** C53 *)
Theorem C53_value_only_on_success : forall T (e : errstruct T) o e' v, err_step e o = Ret (e', Some v) ->
  e_success e = SUCCESS /\ e_value e = Some v.
Proof. exact @err_value_only_success. Qed.
Print Assumptions C53_value_only_on_success.
Theorem C53_no_value_after_move : forall T (e : errstruct T) e' v ops o,
  err_step e OpMove = Ret (e', v) -> o = OpValue \/ o = OpRef -> err_step (err_run e' ops) o = Throw LogicError.
Proof. exact @err_no_value_after_move. Qed.
Print Assumptions C53_no_value_after_move.
(** "not moved out before" is false for returnMove itself: it hands the value out again *)
Theorem C53_second_move_refuted : exists (e e' : errstruct N) v,
  err_step e OpMove = Ret (e', Some v) /\ err_step e' OpMove = Ret (e', Some v).
Proof. exists (createMove 7), (mkErr true true SUCCESS (Some 7)), 7. vm_compute. auto. Qed.
Print Assumptions C53_second_move_refuted.
(** what each access gives, from how the struct was made and the calls since: default constructed, from a value, from an error, from
    everything, by createMove *)
Theorem C53_reference : forall T (m : made T) ops,
  given (err_run (make m) ops) OpMove = result_at m ops /\
  (moved_at m ops -> given (err_run (make m) ops) OpRef = None) /\ (~ moved_at m ops -> given (err_run (make m) ops) OpRef = result_at m ops) /\
  given (err_run (make m) ops) OpValue = (match m with ByMove _ => None | _ => given (err_run (make m) ops) OpRef end) /\
  isSuccess (err_run (make m) ops) = match success_at m ops with SUCCESS => true | _ => false end /\
  (forall o, given (err_run (make m) ops) o = None -> match o with OpSet _ | OpSetSuccess _ => True | _ => err_step (err_run (make m) ops) o = Throw LogicError end).
Proof. exact @err_reference. Qed.
Print Assumptions C53_reference.
Example C53_reference_ex : result_at (ByFailure TIMEOUT) [OpSet 7; OpSetSuccess SUCCESS] = Some 7 /\ given (err_run (make (ByFailure TIMEOUT)) [OpSet 7; OpSetSuccess SUCCESS]) OpValue = Some 7 /\
  moved_at (ByMove 7) [OpRef; OpMove] /\ given (err_run (make (ByMove 7)) [OpRef; OpMove]) OpMove = Some 7 /\ given (err_run (make (T := N) ByDefault) [OpMove]) OpMove = None.
Proof. split; [reflexivity|]. split; [reflexivity|]. split; [exists [OpRef], []; split; [reflexivity|discriminate]|]. split; reflexivity. Qed.
Example C53_ex : err_step (err_ok 7) OpValue = Ret (err_ok 7, Some 7) /\
  err_step (err_fail (T := N) TIMEOUT) OpRef = Throw LogicError /\
  err_step (createMove 7) OpValue = Throw LogicError /\ err_step (createMove 7) OpRef = Ret (createMove 7, Some 7).
Proof. vm_compute. auto. Qed.

(** C55 *)
Theorem C55_read_exact : forall g size data s fuel,
  getLen data <= bmax data -> bmax data < 2 ^ 64 -> (N.to_nat size + 2 <= fuel)%nat ->
  (size <= bmax data - getLen data /\ size <= lenN s ->
     readData fuel g size data s = Ret (true, mkBytes (bdata data ++ takeN size s) (bmax data), dropN size s)) /\
  (~ (size <= bmax data - getLen data /\ size <= lenN s) ->
     exists s', readData fuel g size data s = Ret (false, data, s')).
Proof. exact readData_ok. Qed.
Print Assumptions C55_read_exact.
Example C55_ex : readData 5 (fun i => if Nat.eqb i 0 then 0 else 1) 3 (mkBytes [x01] 4) [x0a; x0b; x0c; x0d]
    = Ret (true, mkBytes [x01; x0a; x0b; x0c] 4, [x0d]) /\
  readData 5 (fun _ => 100) 3 (mkBytes [x01] 4) [x0a; x0b] = Ret (false, mkBytes [x01] 4, []) /\
  readData 5 (fun _ => 100) 3 (mkBytes [x01; x02] 4) [x0a; x0b; x0c] = Ret (false, mkBytes [x01; x02] 4, [x0a; x0b; x0c]).
Proof. vm_compute. auto. Qed.

(** C57 *)
Theorem C57_random_string : forall fuel rnd num,
  match get_random_string fuel rnd num with
  | Ret r => 1 <= num /\ exists k, (k <= fuel)%nat /\ draws_work rnd k /\ num <= lenN (filter is_letter (drawn rnd 0 k)) /\ r = takeN num (filter is_letter (drawn rnd 0 k))
  | Throw LogicError => num = 0
  | Throw RuntimeError => exists k, (k < fuel)%nat /\ draws_work rnd k /\ rnd k = None /\ lenN (filter is_letter (drawn rnd 0 k)) < num
  | OutOfFuel => draws_work rnd fuel /\ lenN (filter is_letter (drawn rnd 0 fuel)) < num
  | _ => False
  end.
Proof. exact get_random_string_spec. Qed.
Print Assumptions C57_random_string.
Theorem C57_only_letters : forall fuel rnd num r, get_random_string fuel rnd num = Ret r -> lenN r = num /\ Forall (fun c => In c letters) r.
Proof. exact get_random_string_shape. Qed.
Print Assumptions C57_only_letters.
Theorem C57_ends_with_enough_letters : forall rnd num k, 1 <= num -> draws_work rnd k ->
  num <= lenN (filter is_letter (drawn rnd 0 k)) ->
  forall fuel, (k <= fuel)%nat -> get_random_string fuel rnd num = Ret (takeN num (filter is_letter (drawn rnd 0 k))).
Proof. exact get_random_string_ends. Qed.
Print Assumptions C57_ends_with_enough_letters.
Example C57_ex : get_random_string 3 (fun i => Some [x31; n2b (65 + N.of_nat i)]) 2 = Ret [x41; x42] /\
  2 <= lenN (filter is_letter (drawn (fun i => Some [x31; n2b (65 + N.of_nat i)]) 0 2)).
Proof. vm_compute. split; congruence. Qed.
