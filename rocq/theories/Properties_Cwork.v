(** Property C101: what encrypting and decrypting compute, and what a guess costs an attacker who knows how the data begin. *)
From Coq Require Import Strings.String.
From Verif Require Import Base BaseFacts BytesModel BytesSpec MiscModel CipherModel CipherSpec PwModel PwSpec ChModel HeaderModel HeaderSpec Toy FileModel ApiModel ApiSpec ApiFacts7 WorkModel WorkSpec
  CworkModel CworkSpec CworkFacts1 CworkFacts2 CworkFacts3 CworkFacts4 Properties_Header Properties_File Properties_Api Properties_Work.
Open Scope N_scope.
Open Scope list_scope.

(** the record is one of the calls of the API: answers and files are the same *)
Theorem C101_same_call : forall w a f o, snd (step_c w a f o) = step w a f o.
Proof. exact same_call_c. Qed.
Print Assumptions C101_same_call.
(** what a successful call digests, in order; nothing else happens, the clock is not read *)
Theorem C101_decrypt_events : forall H, hashes_ok H -> forall bd mode tr a w f m b f' a' h pw, history bd H mode tr a -> world_ok bd H w ->
  step w a f ODecrypt = (f', Ret (a', RData (mkFD m (Some b)))) -> current H tr h -> password tr = Some pw ->
  fst (step_c w a f ODecrypt) = map EvHash (crypt_texts H h pw (bdata b)).
Proof. exact decrypt_call. Qed.
Print Assumptions C101_decrypt_events.
Theorem C101_encrypt_events : forall H, hashes_ok H -> forall bd mode tr a w f m b f' a' h pw, history bd H mode tr a -> world_ok bd H w ->
  op_ok (OEncrypt (Some (mkFD m (Some b)))) -> step w a f (OEncrypt (Some (mkFD m (Some b)))) = (f', Ret (a', ROk)) -> current H tr h -> password tr = Some pw ->
  fst (step_c w a f (OEncrypt (Some (mkFD m (Some b))))) = map EvHash (crypt_texts H h pw (bdata b)).
Proof. exact encrypt_call. Qed.
Print Assumptions C101_encrypt_events.
(** their number, and that it is all that can be seen: only the length of the data decides *)
Theorem C101_cost : forall H, hashes_ok H -> forall h pw d, header_ok h -> lenN (crypt_texts H h pw d) = crypt_cost (digest_len (h_hmode h)) (lenN d).
Proof. exact crypt_count. Qed.
Print Assumptions C101_cost.
Theorem C101_seen : forall H, hashes_ok H -> forall h pw d, header_ok h ->
  seen (map EvHash (crypt_texts H h pw d)) = repeat (Digest (digest_len (h_hmode h))) (N.to_nat (crypt_cost (digest_len (h_hmode h)) (lenN d))).
Proof. exact crypt_seen. Qed.
Print Assumptions C101_seen.
(** four digests for a full block, three for the rest or for no data at all *)
Theorem C101_cost_of : forall n q r, 0 < n -> r < n -> crypt_cost n (n * q + r) = 4 * q + (if (r =? 0) && negb (q =? 0) then 0 else 3).
Proof. exact cost_of. Qed.
Print Assumptions C101_cost_of.
(** no call of getDecryptedData computes more, whatever has become of the file ... *)
Theorem C101_decrypt_bound : forall H, hashes_ok H -> forall bd mode tr a w f p c hsz l1 l2 h rest, history bd H mode tr a -> world_ok bd H w -> selected tr = Some (p, c) ->
  written_as c hsz l1 l2 h rest -> lenN c - hsz < 2 ^ 31 -> digests (fst (step_c w a f ODecrypt)) <= crypt_cost (digest_len (h_hmode h)) (lenN c - hsz).
Proof. exact decrypt_bound. Qed.
Print Assumptions C101_decrypt_bound.
(** ... and if it has become shorter since selectFile, this is found out only after all the blocks that are left *)
Theorem C101_cut_short : forall H, hashes_ok H -> forall bd mode tr a w f p c hsz l1 l2 h rest, history bd H mode tr a -> world_ok bd H w -> a_state a = PASSWORD_VERIFIED ->
  selected tr = Some (p, c) -> written_as c hsz l1 l2 h rest -> lenN c - hsz < 2 ^ 31 -> patient w (lenN c - hsz) ->
  let now := lenN (stream_of w f p) - hsz in now < lenN c - hsz ->
  step w a f ODecrypt = (f, Ret (a, RErr FAIL ERR)) /\ digests (fst (step_c w a f ODecrypt)) = 3 + 4 * (now / digest_len (h_hmode h)).
Proof. exact decrypt_short. Qed.
Print Assumptions C101_cut_short.
(** the attack: it1 + 3 digests for a guess, and the answer is right *)
Theorem C101_probe_cost : forall H h body known guess, lenN (fst (probe_file H h body known guess)) = iterations (h_ch1 h) + 3.
Proof. exact probe_cost. Qed.
Print Assumptions C101_probe_cost.
Theorem C101_probe_says : forall H, hashes_ok H -> forall h body known guess, header_ok h -> lenN known <= digest_len (h_hmode h) -> lenN known <= lenN body ->
  (snd (probe_file H h body known guess) = true <-> exists rest, plain_of H h guess body = known ++ rest).
Proof. exact probe_says. Qed.
Print Assumptions C101_probe_says.
Theorem C101_probe_passes : forall H, hashes_ok H -> forall h pw known rest c, sealed H h pw (known ++ rest) c -> lenN known <= digest_len (h_hmode h) ->
  snd (probe_file H h (dropN (hdr_len h) c) known pw) = true.
Proof. exact probe_passes. Qed.
Print Assumptions C101_probe_passes.
(** the second chain hash, its iterations and the validator do not matter *)
Theorem C101_probe_without_second : forall H h h' body known guess, same_start h h' -> probe_file H h body known guess = probe_file H h' body known guess.
Proof. exact probe_same. Qed.
Print Assumptions C101_probe_without_second.

(** the example file: 67 bytes of data in blocks of 32; and the same file, cut to 40 bytes of data after the password was checked *)
Definition crypt_ops : list op := [OSelect a_enc_path; OVerify ex_pw 0].
Definition cut_files : fs := one_file (takeN 164 ex_file).
Example C101_decrypt_ex : exists tr a, history Release ex_hashes 1 tr a /\ a_state a = PASSWORD_VERIFIED /\ selected tr = Some (a_enc_path, ex_file) /\
  current ex_hashes tr ex_head /\ password tr = Some ex_pw /\
  match step ex_world a ex_files ODecrypt with (_, Ret (_, RData (mkFD _ (Some b)))) => bdata b = bdata ex_data | _ => False end /\
  show (fst (step_c ex_world a ex_files ODecrypt)) = repeat 32 11 /\ crypt_cost 32 67 = 11 /\
  snd (step ex_world a cut_files ODecrypt) = Ret (a, RErr FAIL ERR) /\ show (fst (step_c ex_world a cut_files ODecrypt)) = repeat 32 7.
Proof.
  assert (exists tr a, history Release ex_hashes 1 tr a /\ a_state a = PASSWORD_VERIFIED /\ selected tr = Some (a_enc_path, ex_file) /\ password tr = Some ex_pw /\
    match step ex_world a ex_files ODecrypt with (_, Ret (_, RData (mkFD _ (Some b)))) => bdata b = bdata ex_data | _ => False end /\
    show (fst (step_c ex_world a ex_files ODecrypt)) = repeat 32 11 /\ crypt_cost 32 67 = 11 /\
    snd (step ex_world a cut_files ODecrypt) = Ret (a, RErr FAIL ERR) /\ show (fst (step_c ex_world a cut_files ODecrypt)) = repeat 32 7) as (tr & a & P & S & Q & X & R)
    by (history_of crypt_ops; repeat split; reflexivity).
  exists tr, a. repeat (split; [assumption|]). split; [|split; assumption].
  destruct (sealed_written ex_hashes ex_hashes_ok ex_head ex_pw (bdata ex_data) ex_file ex_file_ok (proj1 (proj2 ex_head_ok)) ltac:(vm_compute; reflexivity)) as (_ & _ & _ & _ & Wr).
  exact (current_at ex_hashes ex_hashes_ok Release 1 tr a _ _ _ _ _ _ _ P S Q Wr).
Qed.
(** encrypting nothing, one byte, exactly two blocks, and one byte more *)
Definition some_bytes (n : N) : filedata := mkFD (Some 1) (Some (mkBytes (repeat x61 (N.to_nat n)) n)).
Example C101_encrypt_ex : exists tr a h, history Release ex_hashes 1 tr a /\ a_state a = DECRYPTED /\ current ex_hashes tr h /\ password tr = Some ex_pw /\
  map (fun n => match snd (step ex_world a ex_files (OEncrypt (Some (some_bytes n)))) with Ret (_, ROk) => true | _ => false end) [0; 1; 64; 65] = [true; true; true; true] /\
  map (fun n => show (fst (step_c ex_world a ex_files (OEncrypt (Some (some_bytes n)))))) [0; 1; 64; 65] = [repeat 32 3; repeat 32 3; repeat 32 8; repeat 32 11].
Proof.
  assert (exists tr a, history Release ex_hashes 1 tr a /\ a_state a = DECRYPTED /\ password tr = Some ex_pw /\
    map (fun n => match snd (step ex_world a ex_files (OEncrypt (Some (some_bytes n)))) with Ret (_, ROk) => true | _ => false end) [0; 1; 64; 65] = [true; true; true; true] /\
    map (fun n => show (fst (step_c ex_world a ex_files (OEncrypt (Some (some_bytes n)))))) [0; 1; 64; 65] = [repeat 32 3; repeat 32 3; repeat 32 8; repeat 32 11]) as (tr & a & P & S & X & R)
    by (history_of opening; repeat split; reflexivity).
  destruct (current_open ex_hashes ex_hashes_ok Release 1 tr a P S) as (h & _ & C & _). exists tr, a, h. repeat (split; [assumption|]). exact R.
Qed.
(** it takes five digests instead of those of a password check, and the second chain may be as long as it likes *)
Definition long_head : header := mkHeader (h_fmode ex_head) (h_hmode ex_head) (h_blocks ex_head) (h_ch1 ex_head) (1, 1000000000, []) (h_valid ex_head) (h_salt ex_head) (h_encs ex_head).
Example C101_probe_ex : sealed ex_hashes ex_head ex_pw (bdata ex_data) ex_file /\ same_start ex_head long_head /\
  let known := takeN 8 (bdata ex_data) in let body := dropN (hdr_len ex_head) ex_file in
  lenN (fst (probe_file ex_hashes long_head body known ex_pw)) = 5 /\ snd (probe_file ex_hashes long_head body known ex_pw) = true /\
  snd (probe_file ex_hashes long_head body known ex_pw2) = false.
Proof. split; [exact ex_file_ok|]. split; [repeat split|]. repeat split; vm_compute; reflexivity. Qed.
