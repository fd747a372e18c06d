(** Properties C01-C09 and C54: the block cipher. *)
From Verif Require Import Base BaseFacts BytesModel CipherModel CipherSpec CipherFacts CipherFacts2 CipherFacts3 Toy.

(** C01 *)
Theorem C01_round_trip : forall h pw es xs ys fuel1 fuel2 c,
  hash_ok h -> getLen pw = hsize h -> getLen es = hsize h ->
  sizes_ok fuel1 xs -> sizes_ok fuel2 ys ->
  run_chain fuel1 Enc h pw es xs = Ret c -> concat (map chunk_data ys) = c ->
  run_chain fuel2 Dec h pw es ys = Ret (concat (map chunk_data xs)).
Proof. exact (fun h pw es xs ys f1 f2 c Hh => round_trip_lemma h Hh pw es xs ys f1 f2 c). Qed.
Print Assumptions C01_round_trip.

Definition ex_pw : Bytes := fromArray [x01; x02; x03; x04].
Definition ex_es : Bytes := fromArray [xff; x00; x10; x20].
Definition ex_xs : list chunk :=
  [ByRef [x61; x62]; ByStream [x63; x64; x65; x66; x67] [x99]; ByPtr []; ByRef [x68; x69; x70]].
Example C01_ex :
  match run_chain 20 Enc (toy 4) ex_pw ex_es ex_xs with
  | Ret c => c <> concat (map chunk_data ex_xs) /\
      run_chain 20 Dec (toy 4) ex_pw ex_es [ByPtr (takeN 3 c); ByRef (dropN 3 c)] = Ret (concat (map chunk_data ex_xs))
  | _ => False
  end.
Proof. vm_compute. split; congruence. Qed.
Example C01_ex_hyp : hash_ok (toy 4) /\ sizes_ok 20 ex_xs /\ getLen ex_pw = hsize (toy 4) /\ getLen ex_es = hsize (toy 4).
Proof.
  split; [split; [reflexivity|split; [vm_compute; congruence|apply toy_len]]|].
  split; [split; [discriminate|]|split; reflexivity].
  repeat constructor; vm_compute; reflexivity.
Qed.

(** C02 *)
Theorem C02_split_independent : forall h k pw es xs ys fuel1 fuel2,
  hash_ok h -> getLen pw = hsize h -> getLen es = hsize h ->
  sizes_ok fuel1 xs -> sizes_ok fuel2 ys ->
  concat (map chunk_data xs) = concat (map chunk_data ys) ->
  run_chain fuel1 k h pw es xs = run_chain fuel2 k h pw es ys /\ is_ret (run_chain fuel1 k h pw es xs) = true.
Proof. exact (fun h k pw es xs ys f1 f2 Hh => split_indep_lemma h Hh k pw es xs ys f1 f2). Qed.
Print Assumptions C02_split_independent.
Example C02_ex : run_chain 20 Enc (toy 4) ex_pw ex_es ex_xs =
  run_chain 20 Enc (toy 4) ex_pw ex_es [ByStream (concat (map chunk_data ex_xs)) []].
Proof. vm_compute. reflexivity. Qed.

(** C03 *)
Theorem C03_length : forall h k pw es xs fuel r,
  hash_ok h -> getLen pw = hsize h -> getLen es = hsize h -> sizes_ok fuel xs ->
  run_chain fuel k h pw es xs = Ret r -> lenN r = lenN (concat (map chunk_data xs)).
Proof. exact (fun h k pw es xs fuel r Hh => length_lemma h Hh k pw es xs fuel r). Qed.
Print Assumptions C03_length.
Example C03_ex : match run_chain 20 Enc (toy 4) ex_pw ex_es ex_xs, run_chain 20 Dec (toy 4) ex_pw ex_es ex_xs with
  | Ret c, Ret d => lenN c = 10 /\ lenN d = 10 /\ lenN (concat (map chunk_data ex_xs)) = 10
  | _, _ => False
  end.
Proof. vm_compute. auto. Qed.

(** C04 *)
Theorem C04_keystream : forall h k pw es xs fuel,
  hash_ok h -> getLen pw = hsize h -> getLen es = hsize h -> sizes_ok fuel xs ->
  run_chain fuel k h pw es xs =
    Ret ((match k with Enc => spec_enc | Dec => spec_dec end) (hfun h) (hsize h) (bdata pw) (bdata es)
           (concat (map chunk_data xs))).
Proof. exact (fun h k pw es xs fuel Hh => chain_spec_lemma h Hh k pw es xs fuel). Qed.
Print Assumptions C04_keystream.
Example C04_ex : let data := concat (map chunk_data ex_xs) in
  run_chain 20 Enc (toy 4) ex_pw ex_es ex_xs = Ret (spec_enc (hfun (toy 4)) 4 (bdata ex_pw) (bdata ex_es) data) /\
  run_chain 20 Dec (toy 4) ex_pw ex_es ex_xs = Ret (spec_dec (hfun (toy 4)) 4 (bdata ex_pw) (bdata ex_es) data) /\
  eqb_bytes (spec_enc (hfun (toy 4)) 4 (bdata ex_pw) (bdata ex_es) data) (spec_dec (hfun (toy 4)) 4 (bdata ex_pw) (bdata ex_es) data) = false.
Proof. vm_compute. auto. Qed.

(** C05 *)
Theorem C05_prefix : forall h k pw es xs ys fuel1 fuel2 r1 r2,
  hash_ok h -> getLen pw = hsize h -> getLen es = hsize h -> sizes_ok fuel1 xs -> sizes_ok fuel2 ys ->
  (exists q, concat (map chunk_data ys) = concat (map chunk_data xs) ++ q) ->
  run_chain fuel1 k h pw es xs = Ret r1 -> run_chain fuel2 k h pw es ys = Ret r2 ->
  exists t, r2 = r1 ++ t.
Proof. exact (fun h k pw es xs ys f1 f2 r1 r2 Hh => prefix_lemma h Hh k pw es xs ys f1 f2 r1 r2). Qed.
Print Assumptions C05_prefix.
Example C05_ex : match run_chain 20 Enc (toy 4) ex_pw ex_es ex_xs, run_chain 20 Enc (toy 4) ex_pw ex_es [ByPtr [x61; x62; x63; x64; x65; x66]] with
  | Ret c, Ret c' => c' = takeN 6 c /\ lenN c = 10
  | _, _ => False
  end.
Proof. vm_compute. auto. Qed.

(** C06 *)
Theorem C06_key_lengths : forall h k pw es,
  (getLen pw = hsize h /\ getLen es = hsize h -> exists c, new_chain k h pw es = Ret c) /\
  (~ (getLen pw = hsize h /\ getLen es = hsize h) -> new_chain k h pw es = Throw InvalidArgument).
Proof. exact new_chain_iff. Qed.
Print Assumptions C06_key_lengths.
Example C06_ex : new_chain Enc (toy 4) (fromArray [x00; x00; x00]) ex_es = Throw InvalidArgument.
Proof. reflexivity. Qed.

(** C07: no state of the chain and no number of loop rounds lets a call with 2^31 bytes or more return *)
Theorem C07_oversized_never_returns : forall fuel d c c',
  2 ^ 31 <= lenN d -> lenN d < 2 ^ 63 -> addData fuel (fromArray d) c <> Ret c'.
Proof.
  exact (fun fuel d c c' H1 H2 => addData_big fuel d c c' H1 (lt63 _ H2)).
Qed.
Print Assumptions C07_oversized_never_returns.
Theorem C07_oversized_stream_never_returns : forall fuel s total c c',
  2 ^ 31 <= total -> total < 2 ^ 64 -> addStream fuel s total c <> Ret c'.
Proof. exact addStream_big. Qed.
Print Assumptions C07_oversized_stream_never_returns.
(** which of the two happens, for every chain in use *)
Theorem C07_oversized_throws : forall h k pw es xs fuel c0 c d n,
  hash_ok h -> getLen pw = hsize h -> getLen es = hsize h ->
  Forall (fun x => lenN (chunk_data x) < 2 ^ 31 /\ (length (chunk_data x) + 2 <= fuel)%nat) xs ->
  new_chain k h pw es = Ret c0 -> addChunks fuel xs c0 = Ret c ->
  2 ^ 31 <= lenN d mod 2 ^ 32 -> lenN d < 2 ^ 63 ->
  addData (S n) (fromArray d) c = Throw LengthError.
Proof.
  exact (fun h k pw es xs fuel c0 c d n Hh Lp Le HA H0 H1 H2 H3 =>
    addData_big_throw h k _ _ _ _ c n d Hh Lp Le (reach_fed h Hh k pw es xs fuel c0 c Lp Le HA H0 H1) H2 (lt63 _ H3)).
Qed.
Print Assumptions C07_oversized_throws.
Theorem C07_oversized_hangs : forall h k pw es xs fuel c0 c d n,
  hash_ok h -> getLen pw = hsize h -> getLen es = hsize h ->
  Forall (fun x => lenN (chunk_data x) < 2 ^ 31 /\ (length (chunk_data x) + 2 <= fuel)%nat) xs ->
  new_chain k h pw es = Ret c0 -> addChunks fuel xs c0 = Ret c ->
  2 ^ 32 <= lenN d -> lenN d mod 2 ^ 32 < 2 ^ 31 -> lenN d < 2 ^ 63 ->
  addData n (fromArray d) c = OutOfFuel.
Proof.
  exact (fun h k pw es xs fuel c0 c d n Hh Lp Le HA H0 H1 H2 H3 H4 =>
    addData_big_hang h k _ _ _ _ c n d Hh Lp Le (reach_fed h Hh k pw es xs fuel c0 c Lp Le HA H0 H1) H2 H3 (lt63 _ H4)).
Qed.
Print Assumptions C07_oversized_hangs.
(** the same for streams; one that ends before the low 32 bits of its announced length is an error *)
Theorem C07_oversized_stream_throws : forall h k pw es xs fuel c0 c s total n,
  hash_ok h -> getLen pw = hsize h -> getLen es = hsize h ->
  Forall (fun x => lenN (chunk_data x) < 2 ^ 31 /\ (length (chunk_data x) + 2 <= fuel)%nat) xs ->
  new_chain k h pw es = Ret c0 -> addChunks fuel xs c0 = Ret c ->
  2 ^ 31 <= total mod 2 ^ 32 -> total < 2 ^ 64 ->
  addStream (S n) s total c = Throw InvalidArgument.
Proof.
  exact (fun h k pw es xs fuel c0 c s total n Hh Lp Le HA H0 H1 => stream_throws h Hh k pw es xs fuel c0 c Lp Le HA H0 H1 s total n).
Qed.
Print Assumptions C07_oversized_stream_throws.
Theorem C07_oversized_stream_hangs : forall h k pw es xs fuel c0 c s total n,
  hash_ok h -> getLen pw = hsize h -> getLen es = hsize h ->
  Forall (fun x => lenN (chunk_data x) < 2 ^ 31 /\ (length (chunk_data x) + 2 <= fuel)%nat) xs ->
  new_chain k h pw es = Ret c0 -> addChunks fuel xs c0 = Ret c ->
  2 ^ 32 <= total -> total mod 2 ^ 32 < 2 ^ 31 -> total < 2 ^ 64 -> total mod 2 ^ 32 <= lenN s ->
  addStream n s total c = OutOfFuel.
Proof.
  exact (fun h k pw es xs fuel c0 c s total n Hh Lp Le HA H0 H1 => stream_hangs h Hh k pw es xs fuel c0 c Lp Le HA H0 H1 s total n).
Qed.
Print Assumptions C07_oversized_stream_hangs.
Theorem C07_oversized_stream_ends : forall h k pw es xs fuel c0 c s total n,
  hash_ok h -> getLen pw = hsize h -> getLen es = hsize h ->
  Forall (fun x => lenN (chunk_data x) < 2 ^ 31 /\ (length (chunk_data x) + 2 <= fuel)%nat) xs ->
  new_chain k h pw es = Ret c0 -> addChunks fuel xs c0 = Ret c ->
  2 ^ 32 <= total -> total mod 2 ^ 32 < 2 ^ 31 -> total < 2 ^ 64 -> lenN s < total mod 2 ^ 32 -> (length s + 2 <= n)%nat ->
  addStream n s total c = Throw RuntimeError.
Proof.
  exact (fun h k pw es xs fuel c0 c s total n Hh Lp Le HA H0 H1 => stream_short h Hh k pw es xs fuel c0 c Lp Le HA H0 H1 s total n).
Qed.
Print Assumptions C07_oversized_stream_ends.
(** the hypotheses are met: streams of 2^31 bytes (throws) and 2^32 bytes (no progress at all) *)
Example C07_ex_throw :
  bind (new_chain Enc (toy 4) ex_pw ex_es) (addStream 3 [x61] 2147483648) = Throw InvalidArgument.
Proof. vm_compute. reflexivity. Qed.
Example C07_ex_hang :
  bind (new_chain Enc (toy 4) ex_pw ex_es) (addStream 1000 [x61] 4294967296) = OutOfFuel.
Proof. vm_compute. reflexivity. Qed.
Example C07_ex_ends :
  bind (new_chain Enc (toy 4) ex_pw ex_es) (addStream 4 [x61; x62] 4294967299) = Throw RuntimeError.
Proof. vm_compute. reflexivity. Qed.
Example C07_ex_hang2 :
  bind (new_chain Enc (toy 4) ex_pw ex_es) (fun c => bind (addChunks 20 ex_xs c) (addStream 100 [x61; x62; x63] 4294967299)) = OutOfFuel.
Proof. vm_compute. reflexivity. Qed.
Example C07_ex_len : exists d : bytes, 2 ^ 32 <= lenN d /\ lenN d mod 2 ^ 32 < 2 ^ 31 /\ lenN d < 2 ^ 63.
Proof. exists (repeat x00 (N.to_nat (2 ^ 32))). rewrite lenN_repeat, N2Nat.id. split; [|split]; [apply N.le_refl | reflexivity | reflexivity]. Qed.

(** C08 *)
Theorem C08_height_and_size_wrong : forall h k pw es xs fuel c0 c,
  hash_ok h -> getLen pw = hsize h -> getLen es = hsize h ->
  sizes_ok fuel xs -> new_chain k h pw es = Ret c0 -> addChunks fuel xs c0 = Ret c ->
  lenN (concat (map chunk_data xs)) < 2 ^ 63 ->
  getHeight c = 0 /\ getDataSize c <> lenN (concat (map chunk_data xs)).
Proof. exact size_lemma. Qed.
Print Assumptions C08_height_and_size_wrong.
(** the exact number, and the only chain of which it is right: one that was never fed *)
Theorem C08_reported_size : forall h k pw es xs fuel c0 c,
  hash_ok h -> getLen pw = hsize h -> getLen es = hsize h ->
  Forall (fun x => lenN (chunk_data x) < 2 ^ 31 /\ (length (chunk_data x) + 2 <= fuel)%nat) xs ->
  new_chain k h pw es = Ret c0 -> addChunks fuel xs c0 = Ret c ->
  getDataSize c = match xs with [] => 0 | _ => minus_free (hsize h) (lenN (concat (map chunk_data xs))) end.
Proof.
  exact (fun h k pw es xs fuel c0 c Hh Lp Le HA H0 H1 => size_exact h Hh k pw es xs fuel c0 c Lp Le HA H0 H1).
Qed.
Print Assumptions C08_reported_size.
(** after one call without any data a block of 4 bytes is all free; after 8 bytes nothing is free; after 9 bytes 3 *)
Example C08_ex_free : minus_free 4 0 = 2 ^ 64 - 4 /\ minus_free 4 8 = 0 /\ minus_free 4 9 = 2 ^ 64 - 3.
Proof. vm_compute. auto. Qed.
Example C08_ex_empty : match bind (new_chain Enc (toy 4) ex_pw ex_es) (addChunks 20 [ByRef []]) with
  | Ret c => getDataSize c = 2 ^ 64 - 4 | _ => False end.
Proof. vm_compute. auto. Qed.
Example C08_ex : match bind (new_chain Enc (toy 4) ex_pw ex_es) (addChunks 20 ex_xs) with
  | Ret c => getHeight c = 0 /\ getDataSize c = 2 ^ 64 - 2 | _ => False end.
Proof. vm_compute. auto. Qed.

(** C09 *)
Theorem C09_any_body_decrypts : forall h pw es xs fuel,
  hash_ok h -> getLen pw = hsize h -> getLen es = hsize h -> sizes_ok fuel xs ->
  exists r, run_chain fuel Dec h pw es xs = Ret r /\ lenN r = lenN (concat (map chunk_data xs)).
Proof. exact (fun h pw es xs fuel Hh => any_decrypts_lemma h Hh pw es xs fuel). Qed.
Print Assumptions C09_any_body_decrypts.
Theorem C09_decryption_bijective : forall h pw es p,
  hash_ok h -> getLen pw = hsize h -> getLen es = hsize h ->
  exists! c, lenN c = lenN p /\ spec_dec (hfun h) (hsize h) (bdata pw) (bdata es) c = p.
Proof. exact (fun h pw es p Hh => no_integrity_lemma h Hh pw es p). Qed.
Print Assumptions C09_decryption_bijective.
(** the right key, a changed byte in the body, and a wrong key: all three succeed *)
Example C09_ex : match run_chain 20 Enc (toy 4) ex_pw ex_es ex_xs with
  | Ret c =>
      match run_chain 20 Dec (toy 4) ex_pw ex_es [ByRef c], run_chain 20 Dec (toy 4) ex_pw ex_es [ByRef (x00 :: dropN 1 c)], run_chain 20 Dec (toy 4) ex_es ex_es [ByRef c] with
      | Ret a, Ret b, Ret d => a = concat (map chunk_data ex_xs) /\ eqb_bytes a b = false /\ eqb_bytes a d = false /\ lenN b = 10 /\ lenN d = 10
      | _, _, _ => False
      end
  | _ => False
  end.
Proof. vm_compute. auto 8. Qed.

(** C54 *)
Theorem C54_stream_cipher_terminates : forall bd k h pw es inp c,
  0 < hsize h -> new_schain k h pw es = Ret c -> enc_stream bd inp c = Crash Terminate.
Proof. exact enc_stream_terminates. Qed.
Print Assumptions C54_stream_cipher_terminates.
Example C54_ex : exists c, new_schain Enc (toy 4) ex_pw ex_es = Ret c.
Proof. eexists. vm_compute. reflexivity. Qed.
