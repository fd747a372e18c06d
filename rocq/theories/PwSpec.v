(** What the password functions are supposed to compute (docs/chainhash_modes.md). *)
From Coq Require Import Strings.String.
From Verif Require Import Base BytesModel CipherModel CipherSpec2 MiscSpec PwModel.
Open Scope N_scope.
Open Scope list_scope.

(** decimal text of a number *)
Fixpoint dec_value (s : bytes) (acc : N) : N :=
  match s with [] => acc | c :: r => dec_value r (acc * 10 + (b2n c - 48)) end.
Definition is_decimal_of (s : bytes) (n : N) : Prop :=
  s <> [] /\ Forall (fun c => 48 <= b2n c <= 57) s /\ dec_value s 0 = n /\
  (hd x00 s = x30 -> s = [x30]).

(** the five modes with their parameters *)
Inductive saltmode :=
| NoSalt | ConstSalt (s : bytes) | CountSalt (start : N) | ConstCountSalt (start : N) (s : bytes)
| QuadSalt (start a b c : N).

Definition salt_at (m : saltmode) (i : N) : bytes :=
  match m with
  | NoSalt => []
  | ConstSalt s => s
  | CountSalt start => to_string ((start + i) mod 2 ^ 64)
  | ConstCountSalt start s => s ++ to_string ((start + i) mod 2 ^ 64)
  | QuadSalt start a b c =>
      let k := start + i in to_string ((a * k * k + b * k + c) mod 2 ^ 64)
  end.
Definition salt_len (m : saltmode) : N :=
  match m with
  | NoSalt => 0 | ConstSalt s => lenN s | CountSalt _ => 20
  | ConstCountSalt _ s => lenN s + 20 | QuadSalt _ _ _ _ => 20
  end.
(** counters and coefficients are 64-bit numbers *)
Definition mode_wf (m : saltmode) : Prop :=
  match m with
  | CountSalt start | ConstCountSalt start _ => start < 2 ^ 64
  | QuadSalt start a b c => start < 2 ^ 64 /\ a < 2 ^ 64 /\ b < 2 ^ 64 /\ c < 2 ^ 64
  | _ => True
  end.

(** H(...H(H(pw|s_0)|s_1)...|s_n) : [n] further rounds after the first *)
Fixpoint iterated (H : bytes -> bytes) (m : saltmode) (pw : bytes) (n : nat) : bytes :=
  match n with
  | O => H (pw ++ salt_at m 0)
  | S k => H (iterated H m pw k ++ salt_at m (N.of_nat (S k)))
  end.

(** the public functions of PwFunc, selected by mode *)
Definition call_string (h : hashfn) (clk : nat -> N) (m : saltmode) (pw : bytes) (iters timeout : N) : outcome chres :=
  match m with
  | NoSalt => chainhash_s h clk pw iters timeout
  | ConstSalt s => chainhashWithConstantSalt_s h clk pw iters s timeout
  | CountSalt start => chainhashWithCountSalt_s h clk pw iters start timeout
  | ConstCountSalt start s => chainhashWithCountAndConstantSalt_s h clk pw iters start s timeout
  | QuadSalt start a b c => chainhashWithQuadraticCountSalt_s h clk pw iters start a b c timeout
  end.
Definition call_bytes (h : hashfn) (clk : nat -> N) (m : saltmode) (data : Bytes) (iters timeout : N) : outcome chres :=
  match m with
  | NoSalt => chainhash_b h clk data iters timeout
  | ConstSalt s => chainhashWithConstantSalt_b h clk data iters s timeout
  | CountSalt start => chainhashWithCountSalt_b h clk data iters start timeout
  | ConstCountSalt start s => chainhashWithCountAndConstantSalt_b h clk data iters start s timeout
  | QuadSalt start a b c => chainhashWithQuadraticCountSalt_b h clk data iters start a b c timeout
  end.
Definition call_string_timed (fuel : nat) (h : hashfn) (clk : nat -> N) (m : saltmode) (pw : bytes) (run_time : N) : outcome (N * Bytes) :=
  match m with
  | NoSalt => chainhashTimed_s h clk fuel pw run_time
  | ConstSalt s => chainhashWithConstantSaltTimed_s h clk fuel pw run_time s
  | CountSalt start => chainhashWithCountSaltTimed_s h clk fuel pw run_time start
  | ConstCountSalt start s => chainhashWithCountAndConstantSaltTimed_s h clk fuel pw run_time start s
  | QuadSalt start a b c => chainhashWithQuadraticCountSaltTimed_s h clk fuel pw run_time start a b c
  end.
Definition call_bytes_timed (fuel : nat) (h : hashfn) (clk : nat -> N) (m : saltmode) (data : Bytes) (run_time : N) : outcome (N * Bytes) :=
  match m with
  | NoSalt => chainhashTimed_b h clk fuel data run_time
  | ConstSalt s => chainhashWithConstantSaltTimed_b h clk fuel data run_time s
  | CountSalt start => chainhashWithCountSaltTimed_b h clk fuel data run_time start
  | ConstCountSalt start s => chainhashWithCountAndConstantSaltTimed_b h clk fuel data run_time start s
  | QuadSalt start a b c => chainhashWithQuadraticCountSaltTimed_b h clk fuel data run_time start a b c
  end.

(** Clock readings.  The string functions read the clock after rounds 1000, 2000, ... below
    [iters]; the Bytes functions also after the first round (round index 0, 1000, ...). *)
Definition readings_string (iters : N) : N := (iters - 1) / 1000.
Definition readings_bytes (iters : N) : N := (iters + 999) / 1000.
Definition reached (clk : nat -> N) (timeout readings : N) : Prop :=
  timeout <> 0 /\ exists k, N.of_nat k < readings /\ timeout <= clk k.
(** a call whose hash function and salt are usable *)
Definition fits (h : hashfn) (m : saltmode) : Prop := hash_ok h /\ mode_wf m /\ hsize h + salt_len m < 2 ^ 32.

(** ** The password policy: letters, digits and these signs are allowed (the section sign is two bytes) *)
Definition pw_signs : bytes := list_byte_of_string "!#$%&()*+,-./:;<=>?@[]_{}~" ++ [xc2; xa7].
Definition allowed (c : byte) : Prop := is_letter c = true \/ is_digit c \/ In c pw_signs.
