(** What a password check has to compute: one digest per round, each over the digest before it, with a look at the
    clock every thousand rounds. *)
From Verif Require Import Base BytesModel CipherModel PwModel PwSpec ChModel ChSpec HeaderModel HeaderSpec FileModel ApiModel ApiSpec WorkModel.
Open Scope N_scope.
Open Scope list_scope.

(** the input of round [i] of a chain that starts with [x]: the digest of the round before and the salt of this one *)
Definition input (H : bytes -> bytes) (m : saltmode) (x : bytes) (i : nat) : bytes :=
  match i with O => x ++ salt_at m 0 | S k => iterated H m x k ++ salt_at m (N.of_nat i) end.
(** round [i] of a chain over a string and over Bytes, with limit [t] (0: none); [clk k] is the reading number [k] *)
Definition string_round (H : bytes -> bytes) (m : saltmode) (x : bytes) (t : N) (clk : nat -> N) (i : nat) : list event :=
  EvHash (input H m x i) ::
  (if (t =? 0) || Nat.eqb i 0 || negb (Nat.eqb (i mod 1000) 0) then [] else [EvClock (clk (i / 1000 - 1)%nat)]).
Definition bytes_round (H : bytes -> bytes) (m : saltmode) (x : bytes) (t : N) (clk : nat -> N) (i : nat) : list event :=
  EvHash (input H m x i) :: (if (t =? 0) || negb (Nat.eqb (i mod 1000) 0) then [] else [EvClock (clk (i / 1000)%nat)]).
(** the limit is reached: the reading is the last thing that happens *)
Definition is_late (t : N) (e : event) : bool := match e with EvClock r => t <=? r | EvHash _ => false end.
Definition late (t : N) (l : list event) : bool := existsb (is_late t) l.
Fixpoint until_late (t : N) (l : list event) : list event :=
  match l with [] => [] | e :: r => if is_late t e then [e] else e :: until_late t r end.
Definition string_events (H : bytes -> bytes) (m : saltmode) (x : bytes) (n t : N) (clk : nat -> N) : list event :=
  until_late t (flat_map (string_round H m x t clk) (seq 0 (N.to_nat n))).
Definition bytes_events (H : bytes -> bytes) (m : saltmode) (x : bytes) (n t : N) (clk : nat -> N) : list event :=
  until_late t (flat_map (bytes_round H m x t clk) (seq 0 (N.to_nat n))).

(** the two chains of a header *)
Definition salts (c : N * N * bytes) : saltmode := described (fst (fst c)) (snd c).
Definition first_events (H : hashes) (h : header) (pw : bytes) (t : N) (clk : nat -> N) : list event :=
  string_events (hash_of H (h_hmode h)) (salts (h_ch1 h)) pw (iterations (h_ch1 h)) t clk.
Definition second_events (H : hashes) (h : header) (pw : bytes) (t : N) (clk : nat -> N) : list event :=
  bytes_events (hash_of H (h_hmode h)) (salts (h_ch2 h)) (key_of H h pw) (iterations (h_ch2 h)) t clk.
(** verifyPassword: the first chain, a reading, and the second chain with the limit that is left (modulo 2^64) *)
Definition verify_events (H : hashes) (w : world) (h : header) (pw : bytes) (t : N) : list event :=
  let e1 := first_events H h pw t (w_clk1 w) in
  if late t e1 then e1
  else e1 ++ EvClock (w_elapsed w) ::
       (if negb (t =? 0) && (w_elapsed w =? t) then [] else second_events H h pw ((t + 2 ^ 64 - w_elapsed w) mod 2 ^ 64) (w_clk2 w)).
(** createDataHeader: the same, but it gives up when the time is over *)
Definition create_events (H : hashes) (w : world) (h : header) (pw : bytes) (t : N) : list event :=
  let e1 := first_events H h pw t (w_clk1 w) in
  if late t e1 then e1
  else e1 ++ EvClock (w_elapsed w) ::
       (if negb (t =? 0) && (t <=? w_elapsed w) then [] else second_events H h pw (t - w_elapsed w) (w_clk2 w)).

(** ** Measures *)
Definition is_hash (e : event) : bool := match e with EvHash _ => true | EvClock _ => false end.
Definition digests (l : list event) : N := lenN (filter is_hash l).
(** what the duration of the call depends on: the lengths of the digested texts, and the readings *)
Inductive sight := Digest (len : N) | Reading (t : N).
Definition seen (l : list event) : list sight := map (fun e => match e with EvHash x => Digest (lenN x) | EvClock t => Reading t end) l.
(** the digested texts, in order *)
Definition texts (l : list event) : list bytes := flat_map (fun e => match e with EvHash x => [x] | EvClock _ => [] end) l.
(** nothing happens after a reading of [t] or more *)
Definition stops (t : N) (l : list event) : Prop := forall a r b, l = a ++ EvClock r :: b -> t <= r -> b = [].
(** no more than [n] digests without a reading *)
Definition paced (n : N) (l : list event) : Prop := forall a b c, l = a ++ b ++ c -> forallb is_hash b = true -> lenN b <= n.
(** every digested text begins with the digest of the one before: the digests cannot be computed side by side *)
Definition sequential (D : bytes -> bytes) (l : list event) : Prop := forall a x y b, texts l = a ++ x :: y :: b -> exists s, y = D x ++ s.
