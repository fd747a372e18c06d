(** Property C102: machines that keep the high byte of a number first. *)
From Coq Require Import Strings.Byte.
From Verif Require Import Base BaseFacts BytesModel BytesSpec PwModel PwSpec CipherModel CipherSpec CipherSpec2 ChModel ChSpec HeaderModel HeaderSpec
  FileModel MiscModel Toy OrderModel OrderSpec OrderFacts OrderFacts2 OrderFacts3 Properties_Header.

(** the order that the other Model files fix *)
Theorem C102_this_machine :
  (forall v z, fromLong_on Little v z = fromLong v z) /\ (forall b, toLong_on Little b = toLong b) /\
  (forall h clk c x t, performChainHash_s_on Little h clk c x t = performChainHash_s h clk c x t) /\
  (forall h clk c x t, performChainHash_b_on Little h clk c x t = performChainHash_b h clk c x t) /\
  (forall H clk pw d, calcHeaderBytes_on Little H clk pw d = calcHeaderBytes H clk pw d) /\
  (forall bd rnd file, decode_stream_on Little bd rnd file = decode_stream bd rnd file) /\
  (forall p c, fh_update_on Little p c = fh_update p c) /\
  (forall rnd lower upper n, get_random_byte_on Little rnd lower upper n = get_random_byte rnd lower upper n).
Proof. exact this_machine. Qed.
Print Assumptions C102_this_machine.

(** numbers: kept by one machine, reversed on the way to the other *)
Theorem C102_numbers_kept : forall o v z, v < two64 -> exists b, fromLong_on o v z = Ret b /\ toLong_on o b = Ret v.
Proof. exact numbers_kept. Qed.
Print Assumptions C102_numbers_kept.
Theorem C102_numbers_sent : forall o o' v z, o <> o' -> v < two64 -> exists b, fromLong_on o v z = Ret b /\ toLong_on o' b = Ret (swap v).
Proof. exact numbers_sent. Qed.
Print Assumptions C102_numbers_sent.
Theorem C102_short_numbers : forall o b, getLen b <= 8 -> toLong_on o b = Ret (number_on o (bdata b)).
Proof. exact toLong_on_val. Qed.
Print Assumptions C102_short_numbers.
Example C102_ex_numbers : swap 1 = 72057594037927936 /\ swap (swap 191) = 191 /\
  fromLong_on Big 258 true = Ret (mkBytes [x02; x01; x00; x00; x00; x00; x00; x00] 8) /\
  toLong_on Big (mkBytes [x02; x01; x00; x00; x00; x00; x00; x00] 8) = Ret 258 /\
  toLong_on Little (mkBytes [x02; x01; x00; x00; x00; x00; x00; x00] 8) = Ret (swap 258) /\
  toLong_on Big (mkBytes [x05] 1) = Ret 360287970189639680 /\ toLong_on Little (mkBytes [x05] 1) = Ret 5.
Proof. vm_compute. auto 10. Qed.

(** a header as it is written, and read back by the same kind of machine *)
Theorem C102_written : forall o bd H clk pw d h b d', hbuilt bd d -> contents d = Some h ->
  calcHeaderBytes_on o H clk pw (storing b d) = (d', Ret tt) ->
  exists n, d_fsize d = Some n /\ hdr_len h <= n /\ shows_on o d' n h.
Proof. exact written_on. Qed.
Print Assumptions C102_written.
Theorem C102_write_succeeds : forall o bd H clk cap d h b n, hbuilt bd d -> contents d = Some h -> d_fsize d = Some n -> hdr_len h <= n ->
  exists d', calcHeaderBytes_on o H clk (mkBytes [] cap) (storing b d) = (d', Ret tt).
Proof. exact write_succeeds_on. Qed.
Print Assumptions C102_write_succeeds.
Theorem C102_read_back : forall o bd rnd h rest, (forall k, lenN (rnd k) = k) -> header_ok h -> no_empty_block h -> hdr_len h + lenN rest < two64 ->
  exists d, decode_stream_on o bd rnd (ser_on o (hdr_len h + lenN rest) h ++ rest) = Ret (inr (d, rest)) /\ shows_on o d (hdr_len h + lenN rest) h.
Proof. exact read_own. Qed.
Print Assumptions C102_read_back.
Theorem C102_selected : forall o p h rest, header_ok h -> hdr_len h + lenN rest < two64 ->
  fh_update_on o p (ser_on o (hdr_len h + lenN rest) h ++ rest) = Ret (mkFH p (hdr_len h) (hdr_len h + lenN rest) false).
Proof. exact own_opens. Qed.
Print Assumptions C102_selected.
Example C102_ex_written : exists d, hbuilt Debug d /\ contents d = Some ex_h /\ d_fsize d = Some 379 /\ hdr_len ex_h <= 379.
Proof.
  destruct ex_h_ok as (Ho & Hn & _). destruct (C25_canonical_accepted Debug zrnd ex_h [x62; x6f] zrnd_ok Ho Hn ltac:(vm_compute; reflexivity)) as (d & E & C & F & _).
  exists d. split; [|split; [exact C|split; [exact F|vm_compute; discriminate]]]. apply (hb_stream Debug zrnd _ d _ zrnd_ok E). vm_compute. reflexivity.
Qed.
Example C102_ex_read :
  match decode_stream_on Big Debug zrnd (ser_on Big 379 ex_h ++ [x62; x6f]) with
  | Ret (inr (d, r)) => contents d = Some ex_h /\ r = [x62; x6f] /\ d_fsize d = Some 379
  | _ => False
  end /\ firstn 8 (ser_on Big 379 ex_h) = [x7b; x01; x00; x00; x00; x00; x00; x00].
Proof. vm_compute. auto. Qed.

(** the other kind of machine refuses every file of less than 4311744512 bytes *)
Theorem C102_other_refuses : forall o o' bd rnd p h rest, o <> o' -> header_ok h -> hdr_len h + lenN rest < 4311744512 ->
  let file := ser_on o (hdr_len h + lenN rest) h ++ rest in
  decode_stream_on o' bd rnd file = Ret (inl ERR_FILESIZE_INVALID) /\ fh_update_on o' p file = Throw LogicError.
Proof. exact other_refuses_header. Qed.
Print Assumptions C102_other_refuses.
(** the bound is the first size that reads the same both ways *)
Theorem C102_bound : swap 4311744512 = 4311744512 /\ forall v, v < 4311744512 -> swap v = v -> v = 0.
Proof. exact swap_bound. Qed.
Print Assumptions C102_bound.
Example C102_ex_refused :
  decode_stream_on Big Release zrnd (ser_on Little 379 ex_h ++ [x62; x6f]) = Ret (inl ERR_FILESIZE_INVALID) /\
  decode_stream_on Little Release zrnd (ser_on Big 379 ex_h ++ [x62; x6f]) = Ret (inl ERR_FILESIZE_INVALID) /\ hdr_len ex_h + 2 < 4311744512.
Proof. vm_compute. auto. Qed.

(** the same description, other salts: a chain hash is that of the data with its numbers reversed *)
Theorem C102_chain_hash : forall bd o c h clk, built bd c -> ch_val c = true ->
  exists mode d, ch_mode c = Some mode /\ ch_data c = Some d /\
    (forall pw timeout, performChainHash_s_on o h clk c pw timeout =
       call_string h clk (described_on o mode (bdata (cd_block d))) pw (ch_iters c) timeout) /\
    (forall data timeout, performChainHash_b_on o h clk c data timeout =
       call_bytes h clk (described_on o mode (bdata (cd_block d))) data (ch_iters c) timeout).
Proof. exact perform_on. Qed.
Print Assumptions C102_chain_hash.
Definition ex_one : chd := cd_run Debug (newChd 3) [AddPart (mkBytes [x00; x00; x00; x00; x00; x00; x00; x01] 8)].
Definition ex_counting : chainhash := mkCH (Some 3) (Some ex_one) 2 true.
Example C102_ex_built : built Debug ex_counting /\ ch_val ex_counting = true.
Proof.
  split; [|reflexivity]. apply (built_ctor Debug 3 2 (Some ex_one) ex_counting); [|vm_compute; reflexivity].
  intros x [= <-]. exists 3, [AddPart (mkBytes [x00; x00; x00; x00; x00; x00; x00; x01] 8)]. split; [lia|]. split; [repeat constructor|reflexivity].
Qed.
Example C102_ex_chain :
  described_on Big 3 [x00; x00; x00; x00; x00; x00; x00; x01] = CountSalt 72057594037927936 /\
  described_on Big 4 [x00; x00; x00; x00; x00; x00; x00; x01; x70; x71] = ConstCountSalt 72057594037927936 [x70; x71] /\
  described_on Big 2 [x70; x71] = ConstSalt [x70; x71] /\
  match performChainHash_s_on Big (toy 32) (fun _ => 0) ex_counting [x61] 0, performChainHash_s_on Little (toy 32) (fun _ => 0) ex_counting [x61] 0 with
  | Ret (Done a), Ret (Done b) => bdata a <> bdata b
  | _, _ => False
  end.
Proof. vm_compute. repeat split. discriminate. Qed.

(** encrypted blocks: length and type are not masked, the content is *)
Theorem C102_block_round_trip : forall fuel rnd h pw salt, (forall k, lenN (rnd k) = k) -> hash_ok h -> 2 <= hsize h -> getLen salt = hsize h -> 255 <= N.of_nat fuel ->
  forall o b e, getLen (db_data b) <= 255 -> newEncDataBlock_on o fuel rnd h b pw salt = Ret e ->
  exists r, getDec_on o fuel h pw salt e = Ret r /\ bdata r = bdata (db_data b).
Proof. exact block_round_trip_on. Qed.
Print Assumptions C102_block_round_trip.
Theorem C102_block_in_clear : forall fuel rnd h pw salt, (forall k, lenN (rnd k) = k) -> hash_ok h -> 2 <= hsize h -> getLen salt = hsize h -> 255 <= N.of_nat fuel ->
  forall b e, db_type b < 256 -> getLen (db_data b) <= 255 -> newEncDataBlock_on Big fuel rnd h b pw salt = Ret e ->
  eb_len e = getLen (db_data b) /\ db_type (eb_block e) = db_type b /\ forall pw', getDecType_on Big h pw' e = Ret (db_type b).
Proof. exact block_in_clear. Qed.
Print Assumptions C102_block_in_clear.
Example C102_ex_block :
  let h := toy 32 in let pw := mkBytes [x61] 1 in let salt := mkBytes (repeat x09 32) 32 in let b := mkDB 2 (mkBytes (repeat x42 255) 255) in
  match newEncDataBlock_on Big 255 zrnd h b pw salt, newEncDataBlock_on Little 255 zrnd h b pw salt with
  | Ret e, Ret e' => eb_len e = 255 /\ eb_len e' <> 255 /\ eb_block e = eb_block e' /\ getDecType_on Big h pw e = Ret 2 /\ getDecType_on Little h pw e' <> Ret 2
  | _, _ => False
  end.
Proof. vm_compute. repeat split; discriminate. Qed.

(** random bytes: in range, but not random *)
Theorem C102_random_range : forall o rnd lower upper n r, get_random_byte_on o rnd lower upper n = Ret r ->
  b2n lower <= b2n r <= b2n upper /\ (b2n lower < b2n upper -> b2n r < b2n upper).
Proof. exact random_range_on. Qed.
Print Assumptions C102_random_range.
Theorem C102_random_constant : forall rnd lower upper n j r, (forall k bs, rnd k = Some bs -> lenN bs = k) -> n < 8 -> b2n upper = b2n lower + 2 ^ j ->
  get_random_byte_on Big rnd lower upper n = Ret r -> r = lower.
Proof. exact random_constant. Qed.
Print Assumptions C102_random_constant.
Example C102_ex_random : let rnd := fun k => Some (repeat xa7 (N.to_nat k)) in
  get_random_byte_on Big rnd x10 x50 4 = Ret x10 /\ get_random_byte_on Little rnd x10 x50 4 = Ret x37 /\ b2n x50 = b2n x10 + 2 ^ 6 /\
  get_random_byte_on Big rnd x10 x4f 4 <> Ret x10.
Proof. vm_compute. repeat split. discriminate. Qed.
