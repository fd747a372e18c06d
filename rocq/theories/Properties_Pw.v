(** Property theorems about the password policy and the chain hash functions. *)
From Coq Require Import Strings.String.
From Verif Require Import Base BytesModel CipherModel CipherFacts PwModel PwSpec PwFacts Toy.

Definition sample_hash : hashfn := toy 4.
Example sample_fits : fits sample_hash (ConstCountSalt (2 ^ 64 - 1) [x61; x62]) /\
  fits sample_hash (QuadSalt 3 (2 ^ 63) 5 7) /\ fits sample_hash NoSalt /\ fits sample_hash (CountSalt 9).
Proof.
  assert (hash_ok sample_hash) by (split; [vm_compute; reflexivity|split; [vm_compute; congruence|exact (toy_len 4)]]).
  repeat split; try assumption; vm_compute; congruence.
Qed.

(** C10 *)
Theorem C10_string_iteration : forall h clk m pw iters, fits h m -> 1 <= iters < 2 ^ 64 ->
  exists b, call_string h clk m pw iters 0 = Ret (Done b) /\ bdata b = iterated (hfun h) m pw (N.to_nat (iters - 1)).
Proof. exact string_documented. Qed.
Print Assumptions C10_string_iteration.
Theorem C10_zero_is_one : forall h clk m pw timeout, call_string h clk m pw 0 timeout = call_string h clk m pw 1 timeout.
Proof. exact string_zero_iters. Qed.
Print Assumptions C10_zero_is_one.
(** the counter wraps from 2^64-1 to 0 in the second round *)
Example C10_ex :
  let H := hfun sample_hash in
  call_string sample_hash (fun _ => 0) (ConstCountSalt (2 ^ 64 - 1) [x61]) [x70] 2 0 =
    Ret (Done (mkBytes (H (H ([x70; x61] ++ str "18446744073709551615")%list ++ [x61; x30])) 25)) /\
  call_string sample_hash (fun _ => 0) (QuadSalt 3 1 2 4) [x70] 2 0 =
    Ret (Done (mkBytes (H (H ([x70] ++ str "19") ++ str "28")) 24)).
Proof. vm_compute. auto. Qed.

(** C11 *)
Theorem C11_bytes_agree : forall h clk clk' m data iters, fits h m -> 1 <= iters < 2 ^ 64 ->
  getLen data <= bmax data -> bmax data + salt_len m < 2 ^ 64 ->
  exists b, call_bytes h clk m data iters 0 = Ret (Done b) /\ call_string h clk' m (bdata data) iters 0 = Ret (Done b).
Proof. exact bytes_agree. Qed.
Print Assumptions C11_bytes_agree.
Example C11_ex :
  call_bytes sample_hash (fun _ => 0) (CountSalt 9) (mkBytes [x70; x71] 2) 3 0 =
  call_string sample_hash (fun _ => 5) (CountSalt 9) [x70; x71] 3 0 /\
  is_ret (call_string sample_hash (fun _ => 5) (CountSalt 9) [x70; x71] 3 0) = true.
Proof. vm_compute. auto. Qed.

(** C12 *)
Theorem C12_string_timeout_iff : forall h clk m pw iters timeout, fits h m -> iters < 2 ^ 64 ->
  (call_string h clk m pw iters timeout = Ret TimedOut <-> reached clk timeout (readings_string iters)) /\
  (call_string h clk m pw iters timeout <> Ret TimedOut -> exists b, call_string h clk m pw iters timeout = Ret (Done b)).
Proof. exact string_timeout_iff. Qed.
Print Assumptions C12_string_timeout_iff.
Theorem C12_bytes_timeout_iff : forall h clk m data iters timeout, fits h m -> iters < 2 ^ 64 ->
  getLen data <= bmax data -> bmax data + salt_len m < 2 ^ 64 ->
  (call_bytes h clk m data iters timeout = Ret TimedOut <-> reached clk timeout (readings_bytes iters)) /\
  (call_bytes h clk m data iters timeout <> Ret TimedOut -> exists b, call_bytes h clk m data iters timeout = Ret (Done b)).
Proof. exact bytes_timeout_iff. Qed.
Print Assumptions C12_bytes_timeout_iff.
Theorem C12_string_result_same : forall h clk clk' m pw iters timeout b, fits h m -> iters < 2 ^ 64 ->
  call_string h clk m pw iters timeout = Ret (Done b) -> call_string h clk' m pw iters 0 = Ret (Done b).
Proof. exact string_result_same. Qed.
Print Assumptions C12_string_result_same.
Theorem C12_bytes_result_same : forall h clk clk' m data iters timeout b, fits h m -> iters < 2 ^ 64 ->
  getLen data <= bmax data -> bmax data + salt_len m < 2 ^ 64 ->
  call_bytes h clk m data iters timeout = Ret (Done b) -> call_bytes h clk' m data iters 0 = Ret (Done b).
Proof. exact bytes_result_same. Qed.
Print Assumptions C12_bytes_result_same.
Theorem C12_short_string_never : forall h clk m pw iters timeout, fits h m -> iters <= 1000 ->
  call_string h clk m pw iters timeout <> Ret TimedOut.
Proof. exact string_short_never. Qed.
Print Assumptions C12_short_string_never.
(** 1001 rounds read the clock once, 1000 rounds never; the Bytes function reads it at once *)
Example C12_ex :
  call_string sample_hash (fun _ => 7) NoSalt [x70] 1001 7 = Ret TimedOut /\
  is_ret (call_string sample_hash (fun _ => 6) NoSalt [x70] 1001 7) = true /\
  call_string sample_hash (fun _ => 6) NoSalt [x70] 1001 7 = call_string sample_hash (fun _ => 0) NoSalt [x70] 1001 0 /\
  call_string sample_hash (fun _ => 7) NoSalt [x70] 1000 7 <> Ret TimedOut /\
  call_bytes sample_hash (fun _ => 7) NoSalt (mkBytes [x70] 4) 1 7 = Ret TimedOut /\
  readings_string 1001 = 1 /\ readings_bytes 1 = 1.
Proof. vm_compute. repeat split; congruence. Qed.

(** C13 *)
Theorem C13_string_reproducible : forall fuel h clk clk' m pw rt n b, fits h m -> 1 + N.of_nat fuel < 2 ^ 64 ->
  call_string_timed fuel h clk m pw rt = Ret (n, b) ->
  call_string h clk' m pw n 0 = Ret (Done b) /\
  exists k, n = 1000 * (N.of_nat k + 1) /\ rt <= clk k /\ forall q, (q < k)%nat -> clk q < rt.
Proof. exact string_timed_reproducible. Qed.
Print Assumptions C13_string_reproducible.
Theorem C13_bytes_reproducible : forall fuel h clk clk' m data rt n b, fits h m -> N.of_nat fuel < 2 ^ 64 ->
  getLen data <= bmax data -> bmax data + salt_len m < 2 ^ 64 ->
  call_bytes_timed fuel h clk m data rt = Ret (n, b) ->
  call_bytes h clk' m data n 0 = Ret (Done b) /\
  exists k, n = 1000 * (N.of_nat k + 1) /\ rt <= clk k /\ forall q, (q < k)%nat -> clk q < rt.
Proof. exact bytes_timed_reproducible. Qed.
Print Assumptions C13_bytes_reproducible.
Theorem C13_string_returns : forall fuel h clk m pw rt k, fits h m -> 1000 * (N.of_nat k + 1) < 2 ^ 64 ->
  rt <= clk k -> (forall q, (q < k)%nat -> clk q < rt) -> 1000 * (N.of_nat k + 1) <= N.of_nat fuel ->
  exists b, call_string_timed fuel h clk m pw rt = Ret (1000 * (N.of_nat k + 1), b).
Proof. exact string_timed_returns. Qed.
Print Assumptions C13_string_returns.
Theorem C13_bytes_returns : forall fuel h clk m data rt k, fits h m ->
  getLen data <= bmax data -> bmax data + salt_len m < 2 ^ 64 -> 1000 * (N.of_nat k + 1) < 2 ^ 64 ->
  rt <= clk k -> (forall q, (q < k)%nat -> clk q < rt) -> 1000 * (N.of_nat k + 1) <= N.of_nat fuel ->
  exists b, call_bytes_timed fuel h clk m data rt = Ret (1000 * (N.of_nat k + 1), b).
Proof. exact bytes_timed_returns. Qed.
Print Assumptions C13_bytes_returns.
(** the clock reaches the run time at its second reading: 2000 rounds *)
Example C13_ex :
  let clk := fun k => N.of_nat k * 5 in
  match call_string_timed 2100 sample_hash clk (CountSalt 1) [x70] 5, call_string sample_hash clk (CountSalt 1) [x70] 2000 0 with
  | Ret (iters, b), Ret (Done d) => iters = 2000 /\ bdata b = bdata d
  | _, _ => False
  end.
Proof. vm_compute. auto. Qed.

(** C15 *)
Theorem C15_counter_text : forall k, k < 2 ^ 64 -> is_decimal_of (to_string k) k /\ 1 <= lenN (to_string k) <= 20.
Proof. exact to_string_spec. Qed.
Print Assumptions C15_counter_text.
Theorem C15_decimal_unique : forall s t k, is_decimal_of s k -> is_decimal_of t k -> s = t.
Proof. exact is_decimal_unique. Qed.
Print Assumptions C15_decimal_unique.
Theorem C15_injective : forall a b, a < 2 ^ 64 -> b < 2 ^ 64 -> to_string a = to_string b -> a = b.
Proof. exact to_string_inj. Qed.
Print Assumptions C15_injective.
Theorem C15_never_crashes : forall h clk m, fits h m ->
  (forall pw iters timeout, iters < 2 ^ 64 -> is_ret (call_string h clk m pw iters timeout) = true) /\
  (forall data iters timeout, iters < 2 ^ 64 -> getLen data <= bmax data -> bmax data + salt_len m < 2 ^ 64 ->
     is_ret (call_bytes h clk m data iters timeout) = true).
Proof. exact never_crashes. Qed.
Print Assumptions C15_never_crashes.
(** the size hypothesis of [fits] is needed: a constant salt this long makes the capacity wrap *)
Theorem C15_huge_salt : forall h clk pw s iters timeout,
  0 < hsize h -> hsize h < 2 ^ 32 -> 2 ^ 32 - hsize h <= lenN s < 2 ^ 32 ->
  call_string h clk (ConstSalt s) pw iters timeout = Crash Undefined.
Proof. exact huge_salt. Qed.
Print Assumptions C15_huge_salt.
Example C15_ex : to_string (2 ^ 64 - 1) = str "18446744073709551615" /\ lenN (to_string (2 ^ 64 - 1)) = 20 /\
  to_string 0 = [x30] /\ to_string 907 = str "907".
Proof. vm_compute. auto. Qed.

(** C29 *)
Theorem C29_policy : forall pw,
  (isPasswordValid pw = Ret PwOk <-> Forall allowed pw /\ 8 <= lenN pw < 2 ^ 31) /\
  (isPasswordValid pw = Ret PwTooShort <-> Forall allowed pw /\ lenN pw < 8) /\
  (forall c, isPasswordValid pw = Ret (PwCharInvalid c) <->
     exists p r, pw = p ++ c :: r /\ Forall allowed p /\ ~ allowed c /\ lenN p < 2 ^ 31) /\
  (isPasswordValid pw = Crash Undefined <-> exists p r, pw = p ++ r /\ Forall allowed p /\ lenN p = 2 ^ 31) /\
  ((exists v, isPasswordValid pw = Ret v) \/ isPasswordValid pw = Crash Undefined).
Proof. exact password_policy. Qed.
Print Assumptions C29_policy.
Example C29_ex : isPasswordValid (str "Abc12!?x") = Ret PwOk /\ isPasswordValid (str "Abc12!?") = Ret PwTooShort /\
  isPasswordValid (str "A b") = Ret (PwCharInvalid x20) /\ isPasswordValid (str "Abcdefg\") = Ret (PwCharInvalid x5c).
Proof. vm_compute. auto. Qed.
