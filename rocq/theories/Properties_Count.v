(** Property C105: how random values are distributed. *)
From Verif Require Import Base BytesModel MiscModel MiscSpec CountSpec CountFacts CountFacts2.
From Coq Require Import Lia.

(** how many of the 256^n answers of the generator lead to each value of get_random_byte *)
Theorem C105_byte : forall n lower upper x, 1 <= n <= 8 -> b2n lower <= b2n x < b2n upper ->
  number n (fun l => get_random_byte (delivers l) lower upper n = Ret x)
    (256 ^ n / (b2n upper - b2n lower) + (if b2n x - b2n lower <? 256 ^ n mod (b2n upper - b2n lower) then 1 else 0)).
Proof. exact random_byte_number. Qed.
Print Assumptions C105_byte.
(** a value is at least as likely as every higher one *)
Theorem C105_low : forall n lower upper x y kx ky, 1 <= n <= 8 -> b2n lower <= b2n x -> b2n x <= b2n y -> b2n y < b2n upper ->
  number n (fun l => get_random_byte (delivers l) lower upper n = Ret x) kx -> number n (fun l => get_random_byte (delivers l) lower upper n = Ret y) ky ->
  ky <= kx <= ky + 1.
Proof. exact random_byte_low. Qed.
Print Assumptions C105_low.
(** all values are equally likely exactly if their number is a power of two, whatever the size of the buffer *)
Theorem C105_fair : forall n lower upper, 1 <= n <= 8 -> b2n lower < b2n upper ->
  (exists k, forall x, b2n lower <= b2n x < b2n upper -> number n (fun l => get_random_byte (delivers l) lower upper n = Ret x) k) <->
  (exists e, b2n upper - b2n lower = 2 ^ e).
Proof. exact random_byte_fair. Qed.
Print Assumptions C105_fair.
(** get_random_string: all strings of [num] letters are equally likely, and the share of the answers after which [k] buffers were not enough falls exponentially with [k] *)
Theorem C105_string : forall num k, 1 <= num -> exists c u,
  (forall s, all_letters s -> lenN s = num -> number (N.of_nat k * num) (fun l => get_random_string k (buffers num l) num = Ret s) c) /\
  number (N.of_nat k * num) (fun l => get_random_string k (buffers num l) num = OutOfFuel) u /\
  c * 52 ^ num + u = 256 ^ (N.of_nat k * num) /\ u <= (256 ^ num - 52 ^ num) ^ N.of_nat k.
Proof. exact string_number. Qed.
Print Assumptions C105_string.
(** the number of answers with a property is determined *)
Theorem C105_number : forall n P k1 k2, number n P k1 -> number n P k2 -> k1 = k2.
Proof. exact number_unique. Qed.
Print Assumptions C105_number.

(** the comment in rng.cpp (line 66) says that one byte is enough for a range of 255: then the lowest value is twice as likely as any other *)
Example C105_ex_255 : number 1 (fun l => get_random_byte (delivers l) x00 xff 1 = Ret x00) 2 /\ number 1 (fun l => get_random_byte (delivers l) x00 xff 1 = Ret x01) 1 /\
  get_random_byte (delivers [xff]) x00 xff 1 = Ret x00.
Proof.
  split; [exact (random_byte_number 1 x00 xff x00 ltac:(lia) ltac:(vm_compute; split; [discriminate|reflexivity]))|].
  split; [exact (random_byte_number 1 x00 xff x01 ltac:(lia) ltac:(vm_compute; split; [discriminate|reflexivity]))|]. reflexivity.
Qed.
(** a die with one byte: four faces come up 43 times, two of them 42 times *)
Example C105_ex_die : number 1 (fun l => get_random_byte (delivers l) x01 x07 1 = Ret x04) 43 /\ number 1 (fun l => get_random_byte (delivers l) x01 x07 1 = Ret x05) 42.
Proof.
  split; [exact (random_byte_number 1 x01 x07 x04 ltac:(lia) ltac:(vm_compute; split; [discriminate|reflexivity]))|].
  exact (random_byte_number 1 x01 x07 x05 ltac:(lia) ltac:(vm_compute; split; [discriminate|reflexivity])).
Qed.
Example C105_ex_fair : b2n x20 - b2n x10 = 2 ^ 4 /\ get_random_byte (delivers [x01; x02]) x10 x20 2 = Ret x12.
Proof. vm_compute. auto. Qed.
(** two letters from two buffers of two bytes; one buffer is not enough here *)
Example C105_ex_string : all_letters [x41; x62] /\ get_random_string 2 (buffers 2 [x41; x30; x62; x63]) 2 = Ret [x41; x62] /\
  get_random_string 1 (buffers 2 [x41; x30]) 2 = OutOfFuel /\ 1 * 52 ^ 2 + 62832 = 256 ^ (N.of_nat 1 * 2).
Proof. split; [repeat constructor; vm_compute; tauto|vm_compute; auto]. Qed.
