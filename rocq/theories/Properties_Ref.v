(** Properties C69-C73. *)
From Coq Require Import Strings.String.
From Verif Require Import Base BaseFacts BytesModel BytesSpec MiscModel CipherModel CipherSpec PwModel PwSpec ChModel ChSpec HeaderModel HeaderSpec Toy FileModel ApiModel ApiSpec ApiSpec2
  RefSpec RefSpec2 RefFacts2 RefFacts4 RefFacts5 Properties_Header Properties_File Properties_Api Properties_Api2.

(** C69 *)
Theorem C69_reader : forall bd rnd file, (forall k, lenN (rnd k) = k) -> lenN file < 2 ^ 64 ->
  match read_file bd file with
  | Gives (h, rest) => exists d, decode_stream bd rnd file = Ret (inr (d, rest)) /\ shows d (lenN file) h
  | Rejects e => decode_stream bd rnd file = Ret (inl e)
  | Dies c => decode_stream bd rnd file = Crash c
  end.
Proof. exact reader_shows. Qed.
Print Assumptions C69_reader.
(** a good file, a file cut off in its header, after its header and in its size fields, other bytes at some places *)
Definition put (i : N) (x : byte) (l : bytes) : bytes := takeN i l ++ [x] ++ dropN (i + 1) l.
Definition resized (l : bytes) : bytes := u64 (lenN l) ++ dropN 8 l.
Example C69_ex :
  (match read_file Debug ex_file with Gives (h, rest) => ser 191 h ++ rest = ex_file /\ lenN rest = 67 | _ => False end) /\
  read_file Debug (takeN 100 ex_file) = Rejects ERR_FILESIZE_INVALID /\ read_file Debug (takeN 15 ex_file) = Rejects ERR_NOT_ENOUGH_DATA /\
  read_file Debug (resized (takeN 123 ex_file)) = Rejects ERR_HEADERSIZE_FILESIZE_MISMATCH /\
  read_file Debug (put 16 x02 ex_file) = Rejects ERR_FILEMODE_INVALID /\ read_file Debug (put 17 x04 ex_file) = Rejects ERR_HASHMODE_INVALID /\
  read_file Debug (put 16 x02 (put 17 x04 ex_file)) = Rejects ERR_HASHMODE_INVALID /\
  read_file Debug ex_zero_block = Dies Terminate /\ read_file Debug ex_bad_size = Dies AssertFail /\
  (match read_file Release ex_bad_size with Gives (h, rest) => lenN rest = 67 | _ => False end).
Proof. vm_compute. repeat split. Qed.

(** C70 *)
Theorem C70_machine : forall H, hashes_ok H -> forall bd mode tr a w f o, history bd H mode tr a -> world_ok bd H w -> fs_ok f -> op_ok o ->
  answered tr /\ exists s, follow tr = Some s /\
    (matches w s f o (step w a f o) \/ step w a f o = (f, OutOfFuel) /\ (w_fuel w < rounds s o)%nat).
Proof. exact machine. Qed.
Print Assumptions C70_machine.
(** the machine alone *)
Fixpoint acts (w : world) (l : list op) (s : session) (f : fs) : list answer * option session * fs :=
  match l with
  | [] => ([], Some s, f)
  | o :: r => match act w s f o with (f', Done s' x) => let '(xs, s'', f'') := acts w r s' f' in (x :: xs, s'', f'') | (f', _) => ([], None, f') end
  end.
Example C70_ex :
  match acts ex_world [OSelect a_enc_path; OVerify ex_pw2 0; OWrite; OVerify ex_pw 0; ODecrypt; OSalt; OEncrypt (text (mkBytes (str "new") 3)); OWrite; OLogout; OSelect a_enc_path; OVerify ex_pw 0; ODecrypt] Idle ex_files with
  | ([Ok; Err ERR_PASSWORD_INVALID; Err ERR_API_STATE_INVALID; Ok; Data 1 x; Ok; Ok; Ok; Void; Ok; Ok; Data 1 y], Some (Open p _ q false), _) =>
      x = bdata ex_data /\ y = str "new" /\ p = a_enc_path /\ q = ex_pw
  | _ => False
  end /\
  exists tr a, history Release ex_hashes 1 tr a /\
    match follow tr with Some (Sealed p h pw data) => p = a_enc_path /\ pw = ex_pw /\ data = bdata ex_data | _ => False end.
Proof. split; [vm_compute; repeat split|]. history_of (opening ++ [OEncrypt (text ex_data)]). auto. Qed.

(** C71 *)
Theorem C71_encrypt_by_length : forall H, hashes_ok H -> forall bd mode tr a w f b,
  history bd H mode tr a -> world_ok bd H w -> fs_ok f -> lenN (bdata b) < 2 ^ 63 -> a_state a = DECRYPTED ->
  let n := lenN (bdata b) in
  let r := step w a f (OEncrypt (Some (mkFD (Some 1) (Some b)))) in
  (n < 2 ^ 31 -> (N.to_nat n + 2 <= w_fuel w)%nat -> exists a', r = (f, Ret (a', ROk)) /\ a_state a' = ENCRYPTED) /\
  (2 ^ 32 <= n -> n mod 2 ^ 32 < 2 ^ 31 -> r = (f, OutOfFuel)) /\
  (2 ^ 31 <= n -> ~ (2 ^ 32 <= n /\ n mod 2 ^ 32 < 2 ^ 31) -> (N.to_nat n + 2 <= w_fuel w)%nat ->
     exists a', r = (f, Ret (a', RErr FAIL ERR)) /\ a_state a' = DECRYPTED).
Proof. exact encrypt_length. Qed.
Print Assumptions C71_encrypt_by_length.
Definition zeros (n : N) : bytes := repeat x00 (N.to_nat n).
Lemma zeros_len n : lenN (zeros n) = n.
Proof. unfold zeros, lenN. rewrite repeat_length. apply N2Nat.id. Qed.
(** patience for n rounds *)
Definition long_world (n : N) : world :=
  mkWorld ex_loc (fun _ => true) (fun _ => true) (fun _ => true) (fun _ => true) (fun _ => true) (fun _ => Missing) 1000000
    (fun _ k => zrnd k) 0 (fun _ => 0) (fun _ => 0) ex_hashes Release (N.to_nat n + 2).
Lemma long_world_ok n : world_ok Release ex_hashes (long_world n).
Proof. split; [reflexivity|]. split; [reflexivity|]. split; [intros i k; apply zrnd_ok|reflexivity]. Qed.
Lemma long_fuel n : w_fuel (long_world n) = (N.to_nat n + 2)%nat.
Proof. reflexivity. Qed.
(** data of every length exists; 2^31 bytes are refused, 2^32 + 1 bytes are never done *)
Example C71_ex : (forall n, lenN (bdata (mkBytes (zeros n) n)) = n) /\ exists tr a, history Release ex_hashes 1 tr a /\ a_state a = DECRYPTED /\
  (match step ex_world a ex_files (OEncrypt (Some (mkFD (Some 1) (Some (mkBytes (zeros 100) 100))))) with (_, Ret (a', ROk)) => a_state a' = ENCRYPTED | _ => False end) /\
  (forall b, lenN (bdata b) = 2 ^ 31 -> exists a', step (long_world (lenN (bdata b))) a ex_files (OEncrypt (Some (mkFD (Some 1) (Some b)))) = (ex_files, Ret (a', RErr FAIL ERR))) /\
  (forall b n, lenN (bdata b) = 2 ^ 32 + 1 -> step (long_world n) a ex_files (OEncrypt (Some (mkFD (Some 1) (Some b)))) = (ex_files, OutOfFuel)).
Proof.
  split; [intros n; apply zeros_len|].
  assert (exists tr a, history Release ex_hashes 1 tr a /\ a_state a = DECRYPTED /\
    (match step ex_world a ex_files (OEncrypt (Some (mkFD (Some 1) (Some (mkBytes (zeros 100) 100))))) with (_, Ret (a', ROk)) => a_state a' = ENCRYPTED | _ => False end)) as (tr & a & Hh & Es & Q) by (history_of opening; auto).
  exists tr, a. split; [exact Hh|]. split; [exact Es|]. split; [exact Q|]. split.
  - intros b L. destruct (C71_encrypt_by_length ex_hashes ex_hashes_ok Release 1 tr a (long_world (lenN (bdata b))) ex_files b Hh (long_world_ok _) ex_files_ok) as (_ & _ & R); [rewrite L; reflexivity|exact Es|].
    destruct R as (a' & R & _); [rewrite L; discriminate|rewrite L; intros [X _]; apply X; reflexivity|rewrite long_fuel; apply Nat.le_refl|]. exists a'. exact R.
  - intros b n L. destruct (C71_encrypt_by_length ex_hashes ex_hashes_ok Release 1 tr a (long_world n) ex_files b Hh (long_world_ok _) ex_files_ok) as (_ & R & _); [rewrite L; reflexivity|exact Es|].
    apply R; rewrite L; [discriminate|reflexivity].
Qed.

(** C72 *)
Theorem C72_decrypt_by_length : forall H, hashes_ok H -> forall bd mode tr a w f p c hsz,
  history bd H mode tr a -> world_ok bd H w -> fs_ok f -> a_state a = PASSWORD_VERIFIED ->
  selected tr = Some (p, c) -> hsz < 2 ^ 64 -> sizes_fit c hsz ->
  let n := lenN c - hsz in
  let here := if w_read w p then lenN (content f (w_loc w p)) - hsz else 0 in
  let r := step w a f ODecrypt in
  (n <= here -> n < 2 ^ 31 -> (N.to_nat n + 2 <= w_fuel w)%nat ->
     exists a' b, r = (f, Ret (a', RData (mkFD (Some 1) (Some b)))) /\ lenN (bdata b) = n /\ a_state a' = DECRYPTED) /\
  (2 ^ 32 <= n -> n mod 2 ^ 32 < 2 ^ 31 -> n mod 2 ^ 32 <= here -> r = (f, OutOfFuel)) /\
  (~ (n <= here /\ n < 2 ^ 31) -> ~ (2 ^ 32 <= n /\ n mod 2 ^ 32 < 2 ^ 31 /\ n mod 2 ^ 32 <= here) -> (N.to_nat n + 2 <= w_fuel w)%nat ->
     r = (f, Ret (a, RErr FAIL ERR))).
Proof. exact decrypt_length. Qed.
Print Assumptions C72_decrypt_by_length.
(** a file that has become shorter *)
Example C72_ex_short : exists tr a, history Release ex_hashes 1 tr a /\ a_state a = PASSWORD_VERIFIED /\ selected tr = Some (a_enc_path, ex_file) /\
  match step ex_world a (one_file (takeN 190 ex_file)) ODecrypt with (_, Ret (_, RErr FAIL ERR)) => True | _ => False end /\
  match step ex_world a (one_file (ex_file ++ [x00])) ODecrypt with (_, Ret (_, RData (mkFD _ (Some b)))) => bdata b = bdata ex_data | _ => False end.
Proof. history_of [OSelect a_enc_path; OVerify ex_pw 0]. auto. Qed.
Example C72_ex_fit : sizes_fit ex_file 124.
Proof. exists (dropN 16 ex_file). split; [vm_compute; reflexivity|]. split; vm_compute; discriminate. Qed.
(** files with bodies of 2^32 bytes *)
Definition ex_long (body : bytes) : bytes := ser (hdr_len ex_head + lenN body) ex_head ++ body.
Example C72_ex_forever : forall body, lenN body = 2 ^ 32 -> exists tr a, history Release ex_hashes 1 tr a /\ a_state a = PASSWORD_VERIFIED /\ selected tr = Some (a_enc_path, ex_long body) /\
  forall n, step (long_world n) a (one_file (ex_long body)) ODecrypt = (one_file (ex_long body), OutOfFuel).
Proof.
  intros body Lb. assert (header_ok ex_head) as Hok by apply ex_head_ok.
  assert (hdr_len ex_head = 124) as Eh by (vm_compute; reflexivity).
  assert (lenN (ex_long body) = 124 + 2 ^ 32) as Ll by (unfold ex_long; rewrite lenN_app, HeaderFacts.ser_len, Eh, Lb by exact Hok; reflexivity).
  assert (fs_ok (one_file (ex_long body))) as Hf by (apply one_file_ok; rewrite Ll; reflexivity).
  assert (FileFacts.openable ex_world (one_file (ex_long body)) a_enc_path (ex_long body)) as O.
  { split; [exists (str "dir/"), x61; split; [reflexivity|discriminate]|]. repeat split. }
  destruct (long_opens ex_hashes ex_hashes_ok Release ex_world (one_file (ex_long body)) a_enc_path ex_head ex_pw body 0 ex_world_ok Hf O Hok) as (tr & a & Hh & Es & Se & Sf);
    [apply ex_head_ok|apply ex_head_ok|reflexivity|apply verify_timely_iff; vm_compute; reflexivity|].
  fold (ex_long body) in Se, Sf. rewrite Eh in Sf. exists tr, a. split; [exact Hh|]. split; [exact Es|]. split; [exact Se|]. intros n.
  destruct (C72_decrypt_by_length ex_hashes ex_hashes_ok Release 1 tr a (long_world n) (one_file (ex_long body)) a_enc_path (ex_long body) 124 Hh (long_world_ok n) Hf Es Se eq_refl Sf) as (_ & R & _).
  rewrite Ll in R. apply R; [discriminate|reflexivity|]. change (w_read (long_world n) a_enc_path) with true. cbn iota.
  change (content (one_file (ex_long body)) (w_loc (long_world n) a_enc_path)) with (ex_long body). rewrite Ll. discriminate.
Qed.

(** C73 *)
Theorem C73_is_data_header : forall bd H w f p c fh i m, world_ok bd H w -> fs_ok f -> opened w f p = Gives c -> getFileHandler w f p = Ret (inr fh) -> c <> [] ->
  fh_isDataHeader w f i m fh =
  match read_file (w_build w) c with
  | Gives _ => if m =? 1 then Ret (inr tt) else Ret (inl ERR_FILEMODE_INVALID)
  | Rejects e => Ret (inl e)
  | Dies k => Crash k
  end.
Proof. exact is_header. Qed.
Print Assumptions C73_is_data_header.
Example C73_ex :
  match getFileHandler ex_world ex_files a_enc_path with
  | Ret (inr fh) => fh_isDataHeader ex_world ex_files 0 1 fh = Ret (inr tt) /\ fh_isDataHeader ex_world ex_files 0 2 fh = Ret (inl ERR_FILEMODE_INVALID)
  | _ => False
  end /\
  match getFileHandler ex_world (one_file (put 17 x04 ex_file)) a_enc_path with
  | Ret (inr fh) => fh_isDataHeader ex_world (one_file (put 17 x04 ex_file)) 0 1 fh = Ret (inl ERR_HASHMODE_INVALID)
  | _ => False
  end /\ opened ex_world ex_files a_enc_path = Gives ex_file.
Proof. vm_compute. repeat split. Qed.
