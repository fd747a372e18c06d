(** What an attacker can do and cannot do: the inputs of a password check, what two files made with
    the same salt have in common, and forged files. *)
From Verif Require Import Base BytesModel CipherSpec PwModel PwSpec ChModel ChSpec HeaderModel HeaderSpec ApiModel ApiSpec.

(** what round [k] of a chain hash on [x] hashes *)
Definition round_input (H : bytes -> bytes) (c : N * N * bytes) (x : bytes) (k : nat) : bytes :=
  let m := described (fst (fst c)) (snd c) in
  match k with O => x ++ salt_at m 0 | S j => iterated H m x j ++ salt_at m (N.of_nat k) end.
(** what round [k] of a password check hashes: the rounds of the first chain hash, then those of the second *)
Definition check_input (H : hashes) (h : header) (pw : bytes) (k : nat) : bytes :=
  let n1 := N.to_nat (iterations (h_ch1 h)) in
  if Nat.ltb k n1 then round_input (hash_of H (h_hmode h)) (h_ch1 h) pw k
  else round_input (hash_of H (h_hmode h)) (h_ch2 h) (key_of H h pw) (k - n1).
Definition check_rounds (h : header) : N := iterations (h_ch1 h) + iterations (h_ch2 h).
(** the checks of two passwords hash, in the same round, different inputs to the same digest *)
Definition collide (H : hashes) (h : header) (pw pw' : bytes) : Prop := exists k, N.of_nat k < check_rounds h /\
  check_input H h pw k <> check_input H h pw' k /\
  hash_of H (h_hmode h) (check_input H h pw k) = hash_of H (h_hmode h) (check_input H h pw' k).

(** Two byte strings that differ first in the block of [n] bytes that follows [x]. *)
Definition split_at (n : N) (p1 p2 x y1 y2 z1 z2 : bytes) : Prop :=
  p1 = x ++ y1 ++ z1 /\ p2 = x ++ y2 ++ z2 /\ (exists j, lenN x = j * n) /\ lenN y1 = lenN y2 /\ lenN y1 <= n.
(** [c1] and [c2] show where [p1] and [p2] differ first, and by how much *)
Definition leaks (c1 c2 x y1 y2 : bytes) : Prop := exists u v1 v2 w1 w2,
  c1 = u ++ v1 ++ w1 /\ c2 = u ++ v2 ++ w2 /\ lenN u = lenN x /\ lenN v1 = lenN y1 /\ lenN v2 = lenN y2 /\ bdiff v1 v2 = bdiff y1 y2.

(** the file [c] with its last bytes, known to be [y], turned into [y'] *)
Definition forge (y y' c : bytes) : bytes :=
  let k := lenN c - lenN y in takeN k c ++ bsum (bdiff (dropN k c) y) y'.
