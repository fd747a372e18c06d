(** The digest functions the code calls: SHA256, SHA384 and SHA512 of OpenSSL (sha256.cpp 9, 17,
    sha384.cpp 9, 17, sha512.cpp 9, 17), written after FIPS 180-4.  OpenSSL itself is not in /repo; every
    theorem about the code holds for all digest functions with the right output lengths, and this file
    supplies the ones meant, so that the model can be run on the answers the project's tests expect. *)
From Verif Require Import Base ChModel.

(** ** The constants (FIPS 180-4, 4.2.2, 4.2.3 and 5.3): fractional parts of roots of the first primes *)
Definition divides_some (n : N) (l : list N) : bool := existsb (fun p => n mod p =? 0) l.
Definition primes_below (n : nat) : list N :=
  fold_left (fun ps k => let c := N.of_nat k in if divides_some c ps then ps else ps ++ [c]) (seq 2 (n - 2)) [].
Definition primes : list N := Eval vm_compute in primes_below 410.        (* the first 80 primes *)
(** the largest r with r^3 <= n, found bit by bit from bit k - 1 downwards *)
Fixpoint cube_root (k : nat) (r n : N) : N :=
  match k with
  | O => r
  | S k' => let r' := r + 2 ^ N.of_nat k' in cube_root k' (if r' * r' * r' <=? n then r' else r) n
  end.
(** the first 64 bits of the fractional part of a root of p *)
Definition sqrt_bits (p : N) : N := N.sqrt (p * 2 ^ 128) mod 2 ^ 64.
Definition cbrt_bits (p : N) : N := cube_root 68 0 (p * 2 ^ 192) mod 2 ^ 64.

Definition k512 : list N := Eval vm_compute in map cbrt_bits primes.
Definition k256 : list N := Eval vm_compute in map (fun p => cbrt_bits p / 2 ^ 32) (firstn 64 primes).
Definition iv512 : list N := Eval vm_compute in map sqrt_bits (firstn 8 primes).
Definition iv384 : list N := Eval vm_compute in map sqrt_bits (firstn 8 (skipn 8 primes)).
Definition iv256 : list N := Eval vm_compute in map (fun p => sqrt_bits p / 2 ^ 32) (firstn 8 primes).

(** ** The compression function (6.2.2 and 6.4.2), for words of [8 * wb] bits *)
Record regs := mkRegs { ra : N; rb : N; rc : N; rd : N; re : N; rf : N; rg : N; rh : N }.

Section Sha.
Variable wb : N.                                   (* bytes in a word: 4 or 8 *)
Variables (S0 S1 : N * N * N) (s0 s1 : N * N * N). (* the rotations of the four sigma functions *)
Variable ks : list N.                              (* one constant for each round *)

Let bits : N := 8 * wb.
Definition wrap (x : N) : N := x mod 2 ^ bits.
Definition rotr (n x : N) : N := wrap (N.lor (N.shiftr x n) (N.shiftl x (bits - n))).
Definition big_sigma (r : N * N * N) (x : N) : N :=
  let '(a, b, c) := r in N.lxor (rotr a x) (N.lxor (rotr b x) (rotr c x)).
Definition small_sigma (r : N * N * N) (x : N) : N :=
  let '(a, b, c) := r in N.lxor (rotr a x) (N.lxor (rotr b x) (N.shiftr x c)).
Definition choose (x y z : N) : N := N.lxor (N.land x y) (N.land (N.lxor x (N.ones bits)) z).
Definition majority (x y z : N) : N := N.lxor (N.land x y) (N.lxor (N.land x z) (N.land y z)).

(** one round; the window holds the next 16 words of the message schedule *)
Definition round (s : regs * list N) (k : N) : regs * list N :=
  let '(mkRegs a b c d e f g h, win) := s in
  let t1 := h + big_sigma S1 e + choose e f g + k + nth 0 win 0 in
  let t2 := big_sigma S0 a + majority a b c in
  (mkRegs (wrap (t1 + t2)) a b c (wrap (d + t1)) e f g,
   tl win ++ [wrap (small_sigma s1 (nth 14 win 0) + nth 9 win 0 + small_sigma s0 (nth 1 win 0) + nth 0 win 0)]).

Fixpoint word_of (b : bytes) (acc : N) : N :=
  match b with [] => acc | x :: r => word_of r (acc * 256 + b2n x) end.
Fixpoint words (n : nat) (b : bytes) : list N :=
  match n with O => [] | S n' => word_of (takeN wb b) 0 :: words n' (dropN wb b) end.

Definition add_regs (x y : regs) : regs :=
  mkRegs (wrap (ra x + ra y)) (wrap (rb x + rb y)) (wrap (rc x + rc y)) (wrap (rd x + rd y))
         (wrap (re x + re y)) (wrap (rf x + rf y)) (wrap (rg x + rg y)) (wrap (rh x + rh y)).
Definition compress (s : regs) (block : bytes) : regs :=
  add_regs s (fst (fold_left round ks (s, words 16 block))).

(** ** Padding (5.1) and the hash *)
Fixpoint big_endian (n : nat) (v : N) : bytes :=
  match n with O => [] | S n' => n2b (v / 256 ^ N.of_nat n') :: big_endian n' v end.
Definition padded (x : bytes) : bytes :=
  let bl := 16 * wb in
  let used := (lenN x + 1 + 2 * wb) mod bl in
  x ++ [x80] ++ repeat x00 (N.to_nat ((bl - used) mod bl)) ++ big_endian (N.to_nat (2 * wb)) (8 * lenN x).
Fixpoint blocks (n : nat) (s : regs) (x : bytes) : regs :=
  match n with O => s | S n' => blocks n' (compress s (takeN (16 * wb) x)) (dropN (16 * wb) x) end.
Definition digest (iv : list N) (x : bytes) : bytes :=
  let g i := nth i iv 0 in
  let p := padded x in
  let '(mkRegs a b c d e f g' h) :=
    blocks (N.to_nat (lenN p / (16 * wb))) (mkRegs (g 0%nat) (g 1%nat) (g 2%nat) (g 3%nat) (g 4%nat) (g 5%nat) (g 6%nat) (g 7%nat)) p in
  flat_map (big_endian (N.to_nat wb)) [a; b; c; d; e; f; g'; h].
End Sha.

Definition sha256 (x : bytes) : bytes :=
  digest 4 (2, 13, 22) (6, 11, 25) (7, 18, 3) (17, 19, 10) k256 iv256 x.
Definition sha512_with (iv : list N) (x : bytes) : bytes :=
  digest 8 (28, 34, 39) (14, 18, 41) (1, 8, 7) (19, 61, 6) k512 iv x.
Definition sha512 (x : bytes) : bytes := sha512_with iv512 x.
Definition sha384 (x : bytes) : bytes := takeN 48 (sha512_with iv384 x).

Definition sha2 : hashes := mkHashes sha256 sha384 sha512.
