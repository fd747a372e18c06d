(** Property C87: conversions of bytes to enumerations. *)
From Coq Require Import Strings.Byte.
From Verif Require Import Base BaseFacts BytesModel CipherModel CipherFacts PwModel ChModel HeaderModel HeaderSpec Toy EnumModel EnumSpec EnumFacts
  Properties_Header.
Open Scope N_scope.
Open Scope list_scope.

(** C87: for every input the reader with checked conversions does the same, or its behaviour is undefined *)
Theorem C87_stream_same_or_undefined : forall bd rnd file,
  decode_stream_e bd rnd file = decode_stream bd rnd file \/ decode_stream_e bd rnd file = Crash Undefined.
Proof. exact stream_or. Qed.
Print Assumptions C87_stream_same_or_undefined.
Theorem C87_mem_same_or_undefined : forall bd rnd f,
  decode_mem_e bd rnd f = decode_mem bd rnd f \/ decode_mem_e bd rnd f = Crash Undefined.
Proof. exact mem_or. Qed.
Print Assumptions C87_mem_same_or_undefined.
(** of the accepted headers, exactly those whose block types are all below 8 are read with defined behaviour *)
Theorem C87_stream_accepted : forall bd rnd file d h r, decode_stream bd rnd file = Ret (inr (d, r)) -> contents d = Some h ->
  (types_small h -> decode_stream_e bd rnd file = Ret (inr (d, r))) /\ (~ types_small h -> decode_stream_e bd rnd file = Crash Undefined).
Proof. exact stream_ok. Qed.
Print Assumptions C87_stream_accepted.
Theorem C87_mem_accepted : forall bd rnd f d h, decode_mem bd rnd f = Ret (inr d) -> contents d = Some h ->
  (types_small h -> decode_mem_e bd rnd f = Ret (inr d)) /\ (~ types_small h -> decode_mem_e bd rnd f = Crash Undefined).
Proof. exact mem_ok. Qed.
Print Assumptions C87_mem_accepted.
(** an invalid mode byte: the error code is defined behaviour for 0 alone (6 and 7 as well for a chain hash mode) *)
Theorem C87_hash_mode_byte : forall bd rnd file hsz fm hm r, sized file hsz -> fm < 256 -> hm < 256 -> ~ 1 <= hm <= 3 ->
  file = front (lenN file) hsz fm hm r ->
  decode_stream bd rnd file = Ret (inl ERR_HASHMODE_INVALID) /\
  decode_stream_e bd rnd file = if hm =? 0 then Ret (inl ERR_HASHMODE_INVALID) else Crash Undefined.
Proof. exact hash_mode_bad. Qed.
Print Assumptions C87_hash_mode_byte.
Theorem C87_file_mode_byte : forall bd rnd file hsz fm hm r, (forall k, lenN (rnd k) = k) -> sized file hsz -> fm < 256 -> 1 <= hm <= 3 -> fm <> 1 ->
  file = front (lenN file) hsz fm hm r ->
  decode_stream bd rnd file = Ret (inl ERR_FILEMODE_INVALID) /\
  decode_stream_e bd rnd file = if fm =? 0 then Ret (inl ERR_FILEMODE_INVALID) else Crash Undefined.
Proof. exact file_mode_bad. Qed.
Print Assumptions C87_file_mode_byte.
Theorem C87_chain_mode_byte : forall bd rnd file hsz hm bs mode r, (forall k, lenN (rnd k) = k) -> pre_ok file hsz hm bs -> Forall (fun b => fst b < 8) bs ->
  mode < 256 -> ~ 1 <= mode <= 5 -> file = pre (lenN file) hsz hm (lenN bs) bs ++ u8 mode ++ r ->
  decode_stream bd rnd file = Ret (inl ERR_CHAINHASHMODE_FORMAT_INVALID) /\
  decode_stream_e bd rnd file = if mode <? 8 then Ret (inl ERR_CHAINHASHMODE_FORMAT_INVALID) else Crash Undefined.
Proof. exact chain_mode_bad. Qed.
Print Assumptions C87_chain_mode_byte.
Theorem C87_chain_mode_byte2 : forall bd rnd file hsz hm bs c1 mode r, (forall k, lenN (rnd k) = k) -> pre_ok file hsz hm bs -> Forall (fun b => fst b < 8) bs -> chain_ok c1 ->
  mode < 256 -> ~ 1 <= mode <= 5 -> file = pre (lenN file) hsz hm (lenN bs) bs ++ ser_chain (lenN (snd c1)) c1 ++ u8 mode ++ r ->
  decode_stream bd rnd file = Ret (inl ERR_CHAINHASHMODE_FORMAT_INVALID) /\
  decode_stream_e bd rnd file = if mode <? 8 then Ret (inl ERR_CHAINHASHMODE_FORMAT_INVALID) else Crash Undefined.
Proof. exact chain_mode_bad2. Qed.
Print Assumptions C87_chain_mode_byte2.
(** making an encrypted block converts its type plus the first byte of the hash of the password hash; reading it converts the difference *)
Theorem C87_encrypted_block : forall fuel rnd h b pw salt k ks, hash_ok h -> hfun h (bdata pw) = k :: ks ->
  newEncDataBlock_e fuel rnd h b pw salt = if (db_type b + b2n k) mod 256 <? 8 then newEncDataBlock fuel rnd h b pw salt else Crash Undefined.
Proof. exact enc_new. Qed.
Print Assumptions C87_encrypted_block.
Theorem C87_decrypted_type : forall h pw e k ks, hash_ok h -> hfun h (bdata pw) = k :: ks ->
  getDecType_e h pw e = if (db_type (eb_block e) + 256 - b2n k) mod 256 <? 8 then getDecType h pw e else Crash Undefined.
Proof. exact enc_type. Qed.
Print Assumptions C87_decrypted_type.

(** the header of the C21 example is read with defined behaviour; with block type 9 instead of 1 it is not *)
Example C87_ex_defined :
  match decode_stream_e Debug zrnd (ser 379 ex_h ++ [x62; x6f]) with Ret (inr (d, r)) => contents d = Some ex_h /\ r = [x62; x6f] | _ => False end.
Proof. vm_compute. auto. Qed.
Definition ex_h9 : header := mkHeader 1 1 [(9, [x61; x62])] (h_ch1 ex_h) (h_ch2 ex_h) (h_valid ex_h) (h_salt ex_h) (h_encs ex_h).
Example C87_ex_type9 :
  match decode_stream Debug zrnd (ser 377 ex_h9) with Ret (inr (d, [])) => contents d = Some ex_h9 | _ => False end /\
  decode_stream_e Debug zrnd (ser 377 ex_h9) = Crash Undefined.
Proof. vm_compute. auto. Qed.
Example C87_ex_hash_mode : let file := front 18 18 1 4 [] in sized file 18 /\ file = front (lenN file) 18 1 4 [] /\
  decode_stream Debug zrnd file = Ret (inl ERR_HASHMODE_INVALID) /\ decode_stream_e Debug zrnd file = Crash Undefined.
Proof. cbv zeta. unfold sized. repeat split; try reflexivity; vm_compute; discriminate. Qed.
Example C87_ex_file_mode : let file := front 18 18 2 1 [] in sized file 18 /\ file = front (lenN file) 18 2 1 [] /\
  decode_stream Debug zrnd file = Ret (inl ERR_FILEMODE_INVALID) /\ decode_stream_e Debug zrnd file = Crash Undefined.
Proof. cbv zeta. unfold sized. repeat split; try reflexivity; vm_compute; discriminate. Qed.
Example C87_ex_chain_mode : let file := pre 24 20 1 1 [(2, [x61])] ++ u8 9 ++ [x00] in
  pre_ok file 20 1 [(2, [x61])] /\ file = pre (lenN file) 20 1 (lenN [(2, [x61])]) [(2, [x61])] ++ u8 9 ++ [x00] /\
  decode_stream Debug zrnd file = Ret (inl ERR_CHAINHASHMODE_FORMAT_INVALID) /\ decode_stream_e Debug zrnd file = Crash Undefined.
Proof.
  cbv zeta. split; [| split; [| split]; reflexivity]. unfold pre_ok, good, block_ok.
  repeat match goal with |- _ /\ _ => split | |- Forall _ (_ :: _) => constructor | |- Forall _ [] => constructor end; try reflexivity; vm_compute; discriminate.
Qed.
Example C87_ex_chain_mode2 : let file := pre 33 20 1 1 [(2, [x61])] ++ ser_chain 0 (1, 3, []) ++ u8 6 in
  pre_ok file 20 1 [(2, [x61])] /\ chain_ok (1, 3, []) /\ file = pre (lenN file) 20 1 (lenN [(2, [x61])]) [(2, [x61])] ++ ser_chain (lenN (@nil byte)) (1, 3, []) ++ u8 6 ++ [] /\
  decode_stream_e Debug zrnd file = Ret (inl ERR_CHAINHASHMODE_FORMAT_INVALID).
Proof.
  cbv zeta. split; [| split; [| split]; try reflexivity].
  - unfold pre_ok, good, block_ok.
    repeat match goal with |- _ /\ _ => split | |- Forall _ (_ :: _) => constructor | |- Forall _ [] => constructor end; try reflexivity; vm_compute; discriminate.
  - unfold chain_ok. cbn [fst snd]. repeat split; try reflexivity; try (vm_compute; discriminate).
Qed.
(** both outcomes, for the same block and salt and two password hashes *)
Example C87_ex_encrypted : let b := mkDB 2 (mkBytes (repeat x41 255) 255) in let salt := mkBytes (repeat x05 32) 32 in
  hash_ok (toy 32) /\
  newEncDataBlock_e 255 zrnd (toy 32) b (mkBytes [x01] 32) salt = Crash Undefined /\
  match newEncDataBlock_e 255 zrnd (toy 32) b (mkBytes [xd8] 32) salt with
  | Ret e => getDecType_e (toy 32) (mkBytes [xd8] 32) e = Ret 4 /\ getDecType_e (toy 32) (mkBytes [x01] 32) e = Crash Undefined
  | _ => False
  end.
Proof. cbv zeta. split; [split; [reflexivity | split; [discriminate | exact (toy_len 32)]] |]. vm_compute. auto. Qed.
