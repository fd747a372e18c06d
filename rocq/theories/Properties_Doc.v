(** Property C110. *)
From Coq Require Import Strings.String.
From Verif Require Import Base BaseFacts BytesModel BytesSpec MiscModel CipherModel CipherSpec PwModel PwSpec ChModel ChSpec HeaderModel HeaderSpec Toy FileModel ApiModel ApiSpec ApiSpec2
  SecSpec RefSpec WorkModel WorkSpec QuerySpec SysSpec StolenSpec DocSpec ApiFacts9 SysFacts DocFacts Properties_Header Properties_File Properties_Api Properties_Sys Properties_Stolen.
Open Scope N_scope.
Open Scope list_scope.

(** C110 *)
Theorem C110_stored_as_drawn : forall H, hashes_ok H -> forall bd loc f0 tr os f l c hsz l1 l2 h rest, system bd H loc f0 tr os f -> f l = Some c -> written_as c hsz l1 l2 h rest ->
  let stored := takeN (digest_len (h_hmode h)) (dropN (salt_at h) c) in
  (exists l0 c0 hsz0 a b h0 rest0, f0 l0 = Some c0 /\ written_as c0 hsz0 a b h0 rest0 /\ h_salt h0 = stored) \/ drawn tr (digest_len (h_hmode h)) stored.
Proof. exact salt_clear. Qed.
Print Assumptions C110_stored_as_drawn.
Theorem C110_only_the_salt : forall H h s pw pw' d d' c c', sealed H h pw d c -> sealed H (with_salt s h) pw' d' c' -> lenN d = lenN d' ->
  takeN (salt_at h) c = takeN (salt_at h) c' /\
  takeN (1 + 257 * lenN (h_encs h)) (dropN (salt_at h + digest_len (h_hmode h)) c) = takeN (1 + 257 * lenN (h_encs h)) (dropN (salt_at h + digest_len (h_hmode h)) c').
Proof. exact salt_only. Qed.
Print Assumptions C110_only_the_salt.
(** after a change of salt: other bytes stand at the place of the salt, and they are the bytes drawn *)
Definition salt_in (c : bytes) : bytes := takeN 32 (dropN (salt_at ex_head) c).
Example C110_ex : let c := final (saving 0 data1 ++ renewing 1 data2) in
  salt_in c = w_rnd with_ones 0 32 /\ salt_in c <> salt_in ex_file /\ takeN (salt_at ex_head) (dropN 8 c) <> [] /\
  match read_file Release c with Gives (h, _) => salt_in c = h_salt h | _ => False end.
Proof. vm_compute. split; [reflexivity|]. split; [discriminate|]. split; [discriminate|reflexivity]. Qed.
(** the system of [C109_ex] is one in which a salt was changed; two files whose headers differ in the salt only *)
Definition salted (s : bytes) (d : bytes) : bytes := ser (hdr_len ex_head + lenN d) (with_salt s ex_head) ++ cipher_of ex_hashes (with_salt s ex_head) ex_pw d.
Definition ones : bytes := repeat Byte.x11 32.
Example C110_ex_pair : sealed ex_hashes ex_head ex_pw (bdata ex_data) ex_file /\ sealed ex_hashes (with_salt ones ex_head) ex_pw (bdata ex_data) (salted ones (bdata ex_data)) /\
  salted ones (bdata ex_data) <> ex_file.
Proof.
  split; [exact ex_file_ok|]. split; [|vm_compute; discriminate]. split; [|split; [exact (proj1 (proj2 (proj2 ex_head_ok)))|reflexivity]].
  destruct ex_head_ok as [(A1 & A2 & A3 & A4 & A5 & A6 & A7 & _ & A9 & A10) _]. exact (conj A1 (conj A2 (conj A3 (conj A4 (conj A5 (conj A6 (conj A7 (conj eq_refl (conj A9 A10))))))))).
Qed.

(** reading a file as the documentation says gives something else *)
Theorem C110_documented_refuted : exists H h pw data c, hashes_ok H /\ sealed H h pw data c /\ no_empty_block h /\ lenN data <= digest_len (h_hmode h) /\
  let D := hash_of H (h_hmode h) in let n := digest_len (h_hmode h) in let key := key_of H h pw in let body := dropN (hdr_len h) c in
  spec_dec D n key (h_salt h) body = data /\
  forall salt, documented key (h_salt h) salt -> spec_dec D n key salt body <> data /\ doc_unblock key salt body <> data.
Proof.
  exists ex_hashes, ex_head, ex_pw, (takeN 9 (bdata ex_data)), (ser (hdr_len ex_head + 9) ex_head ++ cipher_of ex_hashes ex_head ex_pw (takeN 9 (bdata ex_data))).
  split; [exact ex_hashes_ok|]. split; [split; [exact (proj1 ex_head_ok)|split; [exact (proj1 (proj2 (proj2 ex_head_ok)))|reflexivity]]|]. split; [exact (proj1 (proj2 ex_head_ok))|].
  split; [vm_compute; discriminate|]. cbv zeta. split; [vm_compute; reflexivity|]. intros salt [|]; (split; [vm_compute; discriminate|vm_compute; discriminate]).
Qed.
Print Assumptions C110_documented_refuted.

(** had the cipher been made as documented, the first block could be read without the password *)
Theorem C110_documented_subtraction_reveals : forall key stored p, lenN key = lenN stored -> lenN p = lenN stored ->
  bdiff (doc_block key (bdiff stored key) p) stored = p.
Proof. exact doc_reveals. Qed.
Print Assumptions C110_documented_subtraction_reveals.
Theorem C110_documented_xor_reveals : forall key stored p, lenN key = lenN stored -> lenN p = lenN stored ->
  map (fun b => b2n b mod 2) (bdiff (doc_block key (bxor stored key) p) stored) = map (fun b => b2n b mod 2) p.
Proof. exact doc_parity. Qed.
Print Assumptions C110_documented_xor_reveals.
(** the cipher in use does not do that *)
Example C110_ex_in_use : let body := dropN (hdr_len ex_head) ex_file in
  bdiff body (h_salt ex_head) <> bdata ex_data /\ map (fun b => b2n b mod 2) (bdiff body (h_salt ex_head)) <> map (fun b => b2n b mod 2) (bdata ex_data) /\
  doc_unblock ex_key (bdiff (h_salt ex_head) ex_key) (doc_block ex_key (bdiff (h_salt ex_head) ex_key) (salt_in ex_file)) = salt_in ex_file.
Proof. vm_compute. split; [discriminate|]. split; [discriminate|reflexivity]. Qed.
