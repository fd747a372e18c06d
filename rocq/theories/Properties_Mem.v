(** Property C118: the decoder that works on a buffer. *)
From Verif Require Import Base BytesModel BytesSpec HeaderModel HeaderSpec RefSpec MemSpec MemFacts MemFacts2 Properties_Header.

Theorem C118_reader : forall bd rnd f, (forall k, lenN (rnd k) = k) ->
  match read_buffer bd (bdata f) with
  | Gives (fs, h) => exists d, decode_mem bd rnd f = Ret (inr d) /\ shows d fs h
  | Rejects e => decode_mem bd rnd f = Ret (inl e)
  | Dies c => decode_mem bd rnd f = Crash c
  end.
Proof. exact buffer_shows. Qed.
Print Assumptions C118_reader.
(** the codes that can come back *)
Theorem C118_codes : forall rnd, (forall k, lenN (rnd k) = k) -> forall bd f e, decode_mem bd rnd f = Ret (inl e) ->
  In e [ERR; ERR_NOT_ENOUGH_DATA; ERR_HASHMODE_INVALID; ERR_FILEMODE_INVALID; ERR_CHAINHASHMODE_FORMAT_INVALID; ERR_CHAINHASH_DATAPART_INVALID;
        ERR_CHAINHASH_DATABLOCK_OUTOFRANGE; ERR_CHAINHASH1_INVALID; ERR_CHAINHASH2_INVALID; ERR_FILESIZE_INVALID].
Proof. exact mem_codes. Qed.
Print Assumptions C118_codes.
(** only a Debug build can die, and only at an assertion *)
Theorem C118_answers : forall rnd, (forall k, lenN (rnd k) = k) -> forall bd f,
  (exists r, decode_mem bd rnd f = Ret r) \/ bd = Debug /\ decode_mem bd rnd f = Crash AssertFail.
Proof. exact mem_answers. Qed.
Print Assumptions C118_answers.
Theorem C118_builds : forall rnd, (forall k, lenN (rnd k) = k) -> forall f r, decode_mem Debug rnd f = Ret r -> decode_mem Release rnd f = Ret r.
Proof. exact mem_builds. Qed.
Print Assumptions C118_builds.
(** what a Debug build makes of a whole file, the decoder of streams makes of it in every build *)
Theorem C118_stream : forall rnd, (forall k, lenN (rnd k) = k) -> forall f d, getLen f < 2 ^ 64 ->
  decode_mem Debug rnd f = Ret (inr d) -> d_fsize d = Some (getLen f) ->
  exists h rest, bdata f = ser (getLen f) h ++ rest /\ contents d = Some h /\ forall bd, decode_stream bd rnd (bdata f) = Ret (inr (d, rest)).
Proof. exact mem_stream. Qed.
Print Assumptions C118_stream.

Definition set_at (i : N) (x : byte) (l : bytes) : bytes := takeN i l ++ [x] ++ dropN (i + 1) l.
(** a buffer that states a header of length 0; one that states a file of length 5 *)
Definition no_hsize (l : bytes) : bytes := takeN 8 l ++ u64 0 ++ dropN 16 l.
Definition small_file (l : bytes) : bytes := u64 5 ++ dropN 8 l.
Definition ex_buf : bytes := ser 379 ex_h0 ++ [x62; x6f].
Definition ex_buf2 : bytes := ser 379 ex_h ++ [x62; x6f].
Example C118_ex :
  read_buffer Debug ex_buf = Gives (379, ex_h0) /\ read_buffer Debug ex_buf2 = Rejects ERR /\
  read_buffer Debug (takeN 15 ex_buf) = Rejects ERR_NOT_ENOUGH_DATA /\ read_buffer Debug (takeN 300 ex_buf) = Rejects ERR_NOT_ENOUGH_DATA /\
  read_buffer Debug (takeN 18 (no_hsize ex_buf)) = Rejects ERR /\
  read_buffer Debug (set_at 16 x02 ex_buf) = Rejects ERR_FILEMODE_INVALID /\
  read_buffer Debug (set_at 16 x02 (set_at 17 x04 ex_buf)) = Rejects ERR_HASHMODE_INVALID /\
  read_buffer Debug (set_at 20 x00 ex_buf) = Rejects ERR /\
  read_buffer Debug (set_at 23 x06 ex_buf) = Rejects ERR_CHAINHASHMODE_FORMAT_INVALID /\
  read_buffer Debug (set_at 23 x04 (set_at 32 x03 ex_buf)) = Rejects ERR_CHAINHASH_DATAPART_INVALID /\
  read_buffer Debug (takeN 36 (no_hsize ex_buf)) = Rejects ERR_CHAINHASH_DATABLOCK_OUTOFRANGE /\
  read_buffer Debug (set_at 30 x00 (set_at 31 x00 ex_buf)) = Rejects ERR_CHAINHASH1_INVALID /\
  read_buffer Debug (set_at 49 x00 ex_buf) = Rejects ERR_CHAINHASH2_INVALID /\
  read_buffer Debug (small_file ex_buf) = Rejects ERR_FILESIZE_INVALID /\
  read_buffer Debug (no_hsize ex_buf) = Dies AssertFail /\ read_buffer Release (no_hsize ex_buf) = Gives (379, ex_h0) /\
  read_buffer Debug (set_at 32 x09 ex_buf) = Dies AssertFail /\ read_buffer Release (set_at 32 x09 ex_buf) = Gives (379, ex_h0).
Proof. vm_compute. repeat split. Qed.
Example C118_ex_whole :
  let f := mkBytes (ser (lenN ex_buf) ex_h0 ++ [x62; x6f]) 500 in
  match decode_mem Debug zrnd f with
  | Ret (inr d) => d_fsize d = Some (getLen f) /\ decode_stream Release zrnd (bdata f) = Ret (inr (d, [x62; x6f]))
  | _ => False
  end.
Proof. vm_compute. split; reflexivity. Qed.
