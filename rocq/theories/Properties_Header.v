(** Properties C20-C28 and C56: the data header. *)
From Coq Require Import Strings.Byte.
From Verif Require Import Base BaseFacts BytesModel BytesSpec CipherModel CipherSpec CipherFacts PwModel PwSpec ChModel ChSpec HeaderModel HeaderSpec Toy
  HeaderFacts5 HeaderFacts8 HeaderFacts9 HeaderFacts10 HeaderFacts11.

(** hash functions and headers used in the Examples *)
Definition ex_hashes : hashes := mkHashes (toy_digest 32) (toy_digest 48) (toy_digest 64).
Example ex_hashes_ok : hashes_ok ex_hashes.
Proof. split; [|split]; intros x; [exact (toy_len 32 x)|exact (toy_len 48 x)|exact (toy_len 64 x)]. Qed.
Definition zrnd (k : N) : bytes := repeat x07 (N.to_nat k).
Example zrnd_ok : forall k, lenN (zrnd k) = k.
Proof. intros k. unfold zrnd, lenN. rewrite repeat_length. apply N2Nat.id. Qed.
(** a plain block, an encrypted block, a counter salt and a constant salt *)
Definition ex_h : header := mkHeader 1 1 [(1, [x61; x62])] (3, 1000, [x00; x00; x00; x00; x00; x00; x01; x02]) (2, 3, [x73; x61; x6c; x74])
  (repeat x11 32) (repeat x22 32) [(2, 9, repeat x33 255)].
(** the same with a salt-free second chain hash *)
Definition ex_h0 : header := mkHeader 1 1 [(1, [x61; x62])] (3, 1000, [x00; x00; x00; x00; x00; x00; x01; x02]) (1, 3, [])
  (repeat x11 32) (repeat x22 32) [(2, 9, repeat x33 255)].
Ltac header_tac := unfold header_ok, chain_ok, block_ok, enc_ok, ex_h, ex_h0; cbn [h_fmode h_hmode h_blocks h_ch1 h_ch2 h_valid h_salt h_encs fst snd data_fits];
  repeat match goal with |- _ /\ _ => split | |- Forall _ (_ :: _) => constructor | |- Forall _ [] => constructor end;
  try reflexivity; vm_compute; discriminate.
Example ex_h_ok : header_ok ex_h /\ no_empty_block ex_h /\ header_ok ex_h0 /\ no_empty_block ex_h0.
Proof. unfold no_empty_block. header_tac. Qed.

(** C20 *)
Theorem C20_length_and_bounds : forall bd d h, hbuilt bd d -> contents d = Some h ->
  header_ok h /\ getHeaderLength d = Ret (hdr_len h) /\ 72 + 32 * h_hmode h <= hdr_len h <= 131652 + 32 * h_hmode h.
Proof. exact built_length. Qed.
Print Assumptions C20_length_and_bounds.
Theorem C20_complete_has_contents : forall bd d, hbuilt bd d -> (d_isComplete d = true <-> exists h, contents d = Some h).
Proof. exact built_complete. Qed.
Print Assumptions C20_complete_has_contents.
Theorem C20_bounds_attained : forall bd m, 1 <= m <= 3 ->
  (exists d h, hbuilt bd d /\ contents d = Some h /\ h_hmode h = m /\ getHeaderLength d = Ret (72 + 32 * m)) /\
  (exists d h, hbuilt bd d /\ contents d = Some h /\ h_hmode h = m /\ getHeaderLength d = Ret (131652 + 32 * m)).
Proof. exact bounds_attained. Qed.
Print Assumptions C20_bounds_attained.
Theorem C20_bytes_have_this_length : forall bd H clk pw d d', hbuilt bd d -> calcHeaderBytes H clk pw d = (d', Ret tt) ->
  exists h n b, contents d = Some h /\ contents d' = Some h /\ d_fsize d = Some n /\ d_fsize d' = Some n /\ hdr_len h <= n /\
    getHeaderBytes d' = Ret b /\ bdata b = ser n h /\ lenN (bdata b) = hdr_len h.
Proof. exact calc_bytes. Qed.
Print Assumptions C20_bytes_have_this_length.
Example C20_ex : (exists d, hbuilt Debug d /\ contents d = Some ex_h) /\ hdr_len ex_h = 377.
Proof. split; [exact (any_header_built Debug ex_h (proj1 ex_h_ok) (proj1 (proj2 ex_h_ok)))|vm_compute; reflexivity]. Qed.

(** C21 *)
Theorem C21_write_then_read : forall bd d h body, hbuilt bd d -> contents d = Some h -> no_empty_block h -> hdr_len h + lenN body < two64 ->
  exists d1 d2 b, setFileSize (hdr_len h + lenN body) d = Ret d1 /\
    (forall H clk, calcHeaderBytes H clk (mkBytes [] 0) d1 = (d2, Ret tt)) /\ getHeaderBytes d2 = Ret b /\
    forall bd' rnd, (forall k, lenN (rnd k) = k) ->
      exists d3 b3, decode_stream bd' rnd (bdata b ++ body) = Ret (inr (d3, body)) /\
        contents d3 = Some h /\ d_fsize d3 = Some (hdr_len h + lenN body) /\ getHeaderBytes d3 = Ret b3 /\ bdata b3 = bdata b.
Proof. exact write_read. Qed.
Print Assumptions C21_write_then_read.
(** the condition on the blocks is needed: an empty block makes the reader terminate *)
Theorem C21_empty_block_kills_reader : forall bd rnd fs h rest, (forall k, lenN (rnd k) = k) -> header_ok h -> ~ no_empty_block h ->
  fs = hdr_len h + lenN rest -> fs < two64 -> decode_stream bd rnd (ser fs h ++ rest) = Crash Terminate.
Proof. exact empty_block_kills. Qed.
Print Assumptions C21_empty_block_kills_reader.
Example C21_ex :
  match decode_stream Debug zrnd (ser 379 ex_h ++ [x62; x6f]) with
  | Ret (inr (d, r)) => contents d = Some ex_h /\ r = [x62; x6f] /\ d_fsize d = Some 379
  | _ => False
  end.
Proof. vm_compute. auto. Qed.
Example C21_ex_empty_block : exists bd d, hbuilt bd d /\ map (fun b => (db_type b, bdata (db_data b))) (p_dec (d_parts d)) = [(1, [])].
Proof.
  destruct (newDataHeader zrnd 1) as [d0| | |] eqn:E; try discriminate. exists Debug, (fst (h_step Debug ex_hashes (fun _ => 0) d0 (HBlock (mkDB 1 (db_data db_default))))).
  split.
  - apply hb_step; [exact (hb_new Debug zrnd 1 d0 zrnd_ok E)|]. apply bm_type; [reflexivity|apply bm_default].
  - vm_compute in E. injection E as <-. vm_compute. reflexivity.
Qed.

(** C22 *)
Theorem C22_reads_back : forall bd rnd fs h body cap, (forall k, lenN (rnd k) = k) -> header_ok h -> no_empty_block h ->
  free_salt (h_ch1 h) = [] -> free_salt (h_ch2 h) = [] -> hdr_len h < 65536 -> hdr_len h <= fs -> fs < two64 -> hdr_len h + lenN body < two64 ->
  exists d, decode_mem bd rnd (mkBytes (ser fs h ++ body) cap) = Ret (inr d) /\ shows d fs h.
Proof. exact mem_back. Qed.
Print Assumptions C22_reads_back.
Theorem C22_debug_accepts_only : forall rnd f d, (forall k, lenN (rnd k) = k) -> getLen f < two64 -> decode_mem Debug rnd f = Ret (inr d) ->
  exists fs h body, header_ok h /\ no_empty_block h /\ free_salt (h_ch1 h) = [] /\ free_salt (h_ch2 h) = [] /\ hdr_len h < 65536 /\
    hdr_len h <= fs /\ bdata f = ser fs h ++ body /\ shows d fs h.
Proof. exact mem_debug_only. Qed.
Print Assumptions C22_debug_accepts_only.
Theorem C22_release_exact : forall rnd fs h body cap, (forall k, lenN (rnd k) = k) -> header_ok h -> no_empty_block h ->
  hdr_len h < 65536 -> hdr_len h <= fs -> fs < two64 -> hdr_len h + lenN body < two64 ->
  ((exists d, decode_mem Release rnd (mkBytes (ser fs h ++ body) cap) = Ret (inr d) /\ contents d = Some h) <->
   exists l2, l2 < 256 /\ lb_ok (fst (fst (h_ch2 h))) (snd (h_ch2 h)) l2 /\
     found (ser fs h ++ body) (pos2 h) (ser_chain l2 (h_ch2 h)) /\ found (ser fs h ++ body) (pos3 h) (tail_of h)).
Proof. exact mem_release. Qed.
Print Assumptions C22_release_exact.
Theorem C22_salt_must_imitate : forall rnd fs h body cap d, (forall k, lenN (rnd k) = k) -> header_ok h -> no_empty_block h ->
  hdr_len h < 65536 -> hdr_len h <= fs -> fs < two64 -> hdr_len h + lenN body < two64 ->
  decode_mem Release rnd (mkBytes (ser fs h ++ body) cap) = Ret (inr d) -> contents d = Some h ->
  let '(m2, i2, _) := h_ch2 h in
  takeN 9 (free_salt (h_ch1 h) ++ u8 m2 ++ u64 i2) = u8 m2 ++ u64 i2 /\
  (free_salt (h_ch1 h) = [] -> takeN (2 * digest_len (h_hmode h)) (free_salt (h_ch2 h) ++ h_valid h ++ h_salt h) = h_valid h ++ h_salt h).
Proof. exact mem_imitate. Qed.
Print Assumptions C22_salt_must_imitate.
Theorem C22_decodes_only_valid_headers : forall bd rnd f d, (forall k, lenN (rnd k) = k) -> decode_mem bd rnd f = Ret (inr d) ->
  exists fs h, header_ok h /\ no_empty_block h /\ hdr_len h <= fs /\ fs < two64 /\ shows d fs h.
Proof. exact mem_valid. Qed.
Print Assumptions C22_decodes_only_valid_headers.
(** a written header that a release build decodes, without any error, as another header *)
Definition ex_trap : header := mkHeader 1 1 [] (2, 1, ser_chain 0 (1, 2, [])) (1, 1, []) (repeat x00 32) (repeat x00 32) [].
Theorem C22_silently_other_header_refuted : exists h h' d, header_ok h /\ no_empty_block h /\ hdr_len h < 65536 /\
  decode_mem Release zrnd (mkBytes (ser (hdr_len h) h) 0) = Ret (inr d) /\ contents d = Some h' /\ h' <> h /\
  decode_mem Debug zrnd (mkBytes (ser (hdr_len h) h) 0) = Crash AssertFail.
Proof.
  exists ex_trap. eexists. eexists. split; [unfold ex_trap; header_tac|]. split; [constructor|]. split; [vm_compute; reflexivity|].
  split; [vm_compute; reflexivity|]. split; [vm_compute; reflexivity|]. split; [discriminate|]. vm_compute. reflexivity.
Qed.
Print Assumptions C22_silently_other_header_refuted.
Example C22_ex :
  match decode_mem Debug zrnd (mkBytes (ser 379 ex_h0 ++ [x62; x6f]) 500) with Ret (inr d) => contents d = Some ex_h0 | _ => False end /\
  decode_mem Debug zrnd (mkBytes (ser 379 ex_h ++ [x62; x6f]) 500) = Ret (inl ERR) /\
  decode_mem Release zrnd (mkBytes (ser 379 ex_h ++ [x62; x6f]) 500) = Ret (inl ERR).
Proof. vm_compute. auto. Qed.

(** C23 *)
Theorem C23_never_stale : forall bd d, hbuilt bd d ->
  getHeaderBytes d = Throw LogicError \/
  exists h n b, contents d = Some h /\ d_fsize d = Some n /\ getHeaderBytes d = Ret b /\ bdata b = ser n h.
Proof. exact never_stale. Qed.
Print Assumptions C23_never_stale.
Example C23_ex :
  match decode_stream Debug zrnd (ser 377 ex_h) with
  | Ret (inr (d, _)) => (exists b, getHeaderBytes d = Ret b /\ bdata b = ser 377 ex_h) /\
      match setFileSize 378 d with
      | Ret d1 => getHeaderBytes d1 = Throw LogicError /\
          match calcHeaderBytes ex_hashes (fun _ => 0) (mkBytes [] 0) d1 with
          | (d2, Ret _) => exists b, getHeaderBytes d2 = Ret b /\ bdata b = ser 378 ex_h
          | _ => False
          end
      | _ => False
      end
  | _ => False
  end.
Proof. vm_compute. split; [eauto|split; eauto]. Qed.

(** C24 *)
Theorem C24_wrong_password_hash_detected : forall bd H clk pw d d' h, hbuilt bd d -> contents d = Some h -> hashes_ok H ->
  bdata pw <> [] -> getLen pw <= bmax pw -> bmax pw + 275 < 2 ^ 64 ->
  calcHeaderBytes H clk pw d = (d', Ret tt) -> chain_value (hash_of H (h_hmode h)) (h_ch2 h) (bdata pw) = h_valid h.
Proof. exact calc_accepts. Qed.
Print Assumptions C24_wrong_password_hash_detected.
Theorem C24_outcome : forall bd H clk pw d h, hbuilt bd d -> contents d = Some h -> hashes_ok H ->
  bdata pw <> [] -> getLen pw <= bmax pw -> bmax pw + 275 < 2 ^ 64 ->
  forall n, d_fsize d = Some n -> hdr_len h <= n ->
  (chain_value (hash_of H (h_hmode h)) (h_ch2 h) (bdata pw) = h_valid h -> exists d', calcHeaderBytes H clk pw d = (d', Ret tt) /\ contents d' = Some h) /\
  (chain_value (hash_of H (h_hmode h)) (h_ch2 h) (bdata pw) <> h_valid h -> calcHeaderBytes H clk pw d = (d, Throw InvalidArgument)).
Proof. exact calc_check. Qed.
Print Assumptions C24_outcome.
Definition ex_pwh : Bytes := mkBytes (repeat x41 32) 32.
Definition ex_h24 : header := mkHeader 1 1 [] (1, 1, []) (2, 3, [x73]) (chain_value (toy_digest 32) (2, 3, [x73]) (bdata ex_pwh)) (repeat x22 32) [].
Example C24_ex :
  match decode_stream Debug zrnd (ser (hdr_len ex_h24) ex_h24) with
  | Ret (inr (d, _)) =>
      match calcHeaderBytes ex_hashes (fun _ => 0) ex_pwh d, calcHeaderBytes ex_hashes (fun _ => 0) (mkBytes (repeat x42 32) 32) d with
      | (_, Ret _), (_, Throw InvalidArgument) => True
      | _, _ => False
      end
  | _ => False
  end.
Proof. vm_compute. exact I. Qed.

(** C25 *)
Theorem C25_release_accepts_only : forall rnd file d rest, (forall k, lenN (rnd k) = k) -> lenN file < two64 ->
  decode_stream Release rnd file = Ret (inr (d, rest)) ->
  exists hsz l1 l2 h, written_as file hsz l1 l2 h rest /\ shows d (lenN file) h.
Proof. exact accept_release. Qed.
Print Assumptions C25_release_accepts_only.
Theorem C25_release_accepts : forall rnd file hsz l1 l2 h rest, (forall k, lenN (rnd k) = k) -> lenN file < two64 ->
  written_as file hsz l1 l2 h rest -> exists d, decode_stream Release rnd file = Ret (inr (d, rest)) /\ shows d (lenN file) h.
Proof. exact accept_release_conv. Qed.
Print Assumptions C25_release_accepts.
Theorem C25_debug_accepts_only : forall rnd file d rest, (forall k, lenN (rnd k) = k) -> lenN file < two64 ->
  decode_stream Debug rnd file = Ret (inr (d, rest)) ->
  exists h, header_ok h /\ no_empty_block h /\ file = ser (lenN file) h ++ rest /\ shows d (lenN file) h.
Proof. exact accept_debug. Qed.
Print Assumptions C25_debug_accepts_only.
Theorem C25_canonical_accepted : forall bd rnd h rest, (forall k, lenN (rnd k) = k) -> header_ok h -> no_empty_block h -> hdr_len h + lenN rest < two64 ->
  exists d, decode_stream bd rnd (ser (hdr_len h + lenN rest) h ++ rest) = Ret (inr (d, rest)) /\ shows d (hdr_len h + lenN rest) h.
Proof. exact accept_any. Qed.
Print Assumptions C25_canonical_accepted.
(** a release build accepts files that are not canonical: the size field and a length byte are wrong here *)
Definition ex_odd : bytes := layout_with 377 0 99 4 ex_h.
Theorem C25_release_canonical_refuted : exists d b, decode_stream Release zrnd ex_odd = Ret (inr (d, [])) /\
  getHeaderBytes d = Ret b /\ lenN (bdata b) = lenN ex_odd /\ bdata b <> ex_odd.
Proof.
  eexists. eexists. split; [vm_compute; reflexivity|]. split; [vm_compute; reflexivity|]. split; [vm_compute; reflexivity|].
  intros E. apply (f_equal (fun x => nth_error x 15)) in E. vm_compute in E. discriminate.
Qed.
Print Assumptions C25_release_canonical_refuted.
Example C25_ex : written_as ex_odd 0 99 4 ex_h [] /\ hdr_len ex_h = 377 /\
  match decode_stream Release zrnd ex_odd with Ret (inr (d, [])) => contents d = Some ex_h | _ => False end /\
  match decode_stream Debug zrnd (ser 379 ex_h ++ [x41; x42]) with Ret (inr (d, [x41; x42])) => contents d = Some ex_h | _ => False end /\
  decode_stream Debug zrnd (ser 378 ex_h ++ [x41; x42]) = Ret (inl ERR_FILESIZE_INVALID).
Proof.
  split; [|vm_compute; repeat split]. split; [apply ex_h_ok|]. split; [apply ex_h_ok|]. split; [vm_compute; discriminate|]. split; [intros [E|E]; discriminate E|]. split; [reflexivity|].
  split; [intros _; reflexivity|]. split; [reflexivity|]. vm_compute. reflexivity.
Qed.

(** C26 *)
Theorem C26_crashes_exactly : forall rnd, (forall k, lenN (rnd k) = k) -> forall bd file c, lenN file < two64 ->
  (decode_stream bd rnd file = Crash c <->
   (c = Terminate /\ zero_block file) \/
   (bd = Debug /\ c = AssertFail /\ (bad_length1 file \/ bad_length2 file \/ bad_size file))).
Proof. exact decode_crash. Qed.
Print Assumptions C26_crashes_exactly.
Theorem C26_returns_otherwise : forall rnd, (forall k, lenN (rnd k) = k) -> forall bd file, lenN file < two64 ->
  (exists r, decode_stream bd rnd file = Ret r) \/ (exists c, decode_stream bd rnd file = Crash c).
Proof. exact decode_no_throw. Qed.
Print Assumptions C26_returns_otherwise.
Example C26_ex :
  decode_stream Debug zrnd ex_odd = Crash AssertFail /\
  decode_stream Debug zrnd (layout_with 377 376 8 4 ex_h) = Crash AssertFail /\
  decode_stream Debug zrnd (layout_with 373 373 8 1 ex_h0) = Crash AssertFail /\
  decode_stream Release zrnd (pre 21 21 1 1 [] ++ [x00; x00]) = Crash Terminate.
Proof. vm_compute. auto. Qed.

(** C27 *)
Theorem C27_size_modulo : forall bd d h n, hbuilt bd d -> contents d = Some h ->
  exists d', setDataSize n d = Ret d' /\ contents d' = Some h /\ d_fsize d' = Some ((n + hdr_len h) mod 2 ^ 32) /\
    (d_fsize d' = Some (n + hdr_len h) <-> n + hdr_len h < 2 ^ 32).
Proof. exact data_size. Qed.
Print Assumptions C27_size_modulo.
Example C27_ex :
  match decode_stream Debug zrnd (ser 377 ex_h) with
  | Ret (inr (d, _)) => match setDataSize 4294966919 d with Ret d' => d_fsize d' = Some 0 | _ => False end
  | _ => False
  end.
Proof. vm_compute. reflexivity. Qed.

(** C28 *)
Theorem C28_only_full_blocks : forall fuel rnd h b pwhash salt, (forall k, lenN (rnd k) = k) -> hash_ok h -> 2 <= hsize h -> getLen salt = hsize h ->
  getLen (db_data b) <= 255 -> 255 <= N.of_nat fuel ->
  (getLen (db_data b) <> 255 -> newEncDataBlock fuel rnd h b pwhash salt = Throw InvalidArgument) /\
  (getLen (db_data b) = 255 -> exists e k, newEncDataBlock fuel rnd h b pwhash salt = Ret e /\
     nth_error (hfun h (bdata pwhash)) 1 = Some k /\ eb_len e = (255 + b2n k) mod 256 /\ db_type (eb_block e) = db_type b /\
     bdata (db_data (eb_block e)) = bsum (bdata (db_data b)) (pad (hfun h) fuel (hfun h (bdata pwhash)) (bdata salt))).
Proof. exact enc_block_sum. Qed.
Print Assumptions C28_only_full_blocks.
Theorem C28_round_trip : forall fuel rnd h b pwhash salt e, (forall k, lenN (rnd k) = k) -> hash_ok h -> 2 <= hsize h -> getLen salt = hsize h ->
  getLen (db_data b) <= 255 -> 255 <= N.of_nat fuel ->
  newEncDataBlock fuel rnd h b pwhash salt = Ret e ->
  exists r, getDec fuel h pwhash salt e = Ret r /\ bdata r = bdata (db_data b).
Proof. exact enc_block_round_trip. Qed.
Print Assumptions C28_round_trip.
Theorem C28_type_in_clear : forall h pwhash e, hash_ok h -> db_type (eb_block e) < 256 ->
  exists k, nth_error (hfun h (bdata pwhash)) 0 = Some k /\
    getDecType h pwhash e = Ret ((db_type (eb_block e) + 256 - b2n k) mod 256) /\
    (getDecType h pwhash e = Ret (db_type (eb_block e)) <-> k = x00).
Proof. exact enc_block_type. Qed.
Print Assumptions C28_type_in_clear.
Example C28_ex :
  let h := toy 32 in let pw := mkBytes [x61] 1 in let salt := mkBytes (repeat x09 32) 32 in
  let b := mkDB 2 (mkBytes (repeat x42 255) 255) in
  match newEncDataBlock 255 zrnd h b pw salt with
  | Ret e => bdata (db_data (eb_block e)) <> repeat x42 255 /\ db_type (eb_block e) = 2 /\ getDecType h pw e <> Ret 2 /\
      match getDec 255 h pw salt e with Ret r => bdata r = repeat x42 255 | _ => False end
  | _ => False
  end.
Proof. vm_compute. repeat split; discriminate. Qed.

(** C56 *)
Theorem C56_step : forall bound s o,
  (in_range bound o -> exists s', set_step bound s o = Ret s') /\ (~ in_range bound o -> set_step bound s o = Throw InvalidArgument).
Proof. exact set_step_iff. Qed.
Print Assumptions C56_step.
Theorem C56_values : forall bound ops i v, nth_error (slots (set_run bound ops)) i = Some (Some v) <-> last_set bound ops i v.
Proof. exact slots_run. Qed.
Print Assumptions C56_values.
Theorem C56_complete : forall bound ops,
  set_isComplete (set_run bound ops) = true <-> forall i, (i < 6)%nat -> exists v, last_set bound ops i v.
Proof. exact settings_complete. Qed.
Print Assumptions C56_complete.
Example C56_ex :
  let ops := [SFile 1; SHash 4; SHash 2; SCh1 1; SCh2 5; SN1 1000000000; SN2 7; SN2 0; SHash 0] in
  set_isComplete (set_run 1000000000 ops) = true /\ set_isComplete (set_run 999999999 ops) = false /\
  slots (set_run 1000000000 ops) = [Some 1; Some 2; Some 1; Some 5; Some 1000000000; Some 7].
Proof. vm_compute. auto. Qed.
