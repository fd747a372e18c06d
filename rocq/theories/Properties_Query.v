(** C106: no program can check guessed passwords with fewer digests than the password check itself.
    C107: nor test how the decrypted data begin with fewer than it1 + 3.
    C108: without these digests every content of the same length is still possible *)
From Verif Require Import Base BytesModel PwModel PwSpec ChModel ChSpec HeaderModel HeaderSpec FileModel ApiModel ApiSpec WorkModel WorkSpec CipherSpec LeakSpec CworkSpec SecSpec QuerySpec QueryFacts2 QueryFacts4 QueryFacts6.
From Verif Require Import Properties_Header Properties_Ch Properties_Api.
Open Scope N_scope.
Open Scope list_scope.

(** whatever the digest function is: a program that is right for every digest function has asked for every digest of both chain hashes *)
Theorem C106_asks : forall h, header_ok h -> forall gs p, decides h gs p -> forall H, hashes_ok H -> lenN (asked (hash_of H (h_hmode h)) p) < 2 ^ 200 ->
  forall g t, In g gs -> In t (first_texts H h g ++ second_texts H h g) -> In t (asked (hash_of H (h_hmode h)) p).
Proof. exact decides_asks. Qed.
Print Assumptions C106_asks.
(** no discount for many guesses: for some digest function each costs as much as a password check *)
Theorem C106_cost : forall h, header_ok h -> forall gs p, decides h gs p -> NoDup gs -> lenN gs <= 2 ^ 64 -> forall H0, hashes_ok H0 ->
  exists H, hashes_ok H /\ lenN gs * check_rounds h <= lenN (asked (hash_of H (h_hmode h)) p).
Proof. exact guesses_cost. Qed.
Print Assumptions C106_cost.
(** that many are enough *)
Theorem C106_enough : forall h gs, header_ok h -> exists p, decides h gs p /\ forall H, lenN (asked (hash_of H (h_hmode h)) p) = lenN gs * check_rounds h.
Proof. exact best_check. Qed.
Print Assumptions C106_enough.
(** the password hash, which encrypts the data, cannot be had without every digest of the first chain hash *)
Theorem C106_key : forall h, header_ok h -> forall pw p, computes_key h pw p -> forall H, hashes_ok H -> lenN (asked (hash_of H (h_hmode h)) p) < 2 ^ 200 ->
  forall t, In t (first_texts H h pw) -> In t (asked (hash_of H (h_hmode h)) p).
Proof. exact key_asks. Qed.
Print Assumptions C106_key.

(** testing whether the decrypted data begin with known bytes takes the digests of the first chain hash and three more: those of the attack of C101 *)
Theorem C107_asks : forall h, header_ok h -> forall body known g p, decides_start h body known g p -> known <> [] -> lenN known <= digest_len (h_hmode h) -> lenN known <= lenN body ->
  forall H, hashes_ok H -> lenN (asked (hash_of H (h_hmode h)) p) < 2 ^ 200 ->
  forall t, In t (fst (probe_file H h body known g)) -> In t (asked (hash_of H (h_hmode h)) p).
Proof. exact start_asks. Qed.
Print Assumptions C107_asks.
Theorem C107_cost : forall h, header_ok h -> forall body known g p, decides_start h body known g p -> known <> [] -> lenN known <= digest_len (h_hmode h) -> lenN known <= lenN body ->
  forall H0, hashes_ok H0 -> exists H, hashes_ok H /\ iterations (h_ch1 h) + 3 <= lenN (asked (hash_of H (h_hmode h)) p).
Proof. exact start_cost. Qed.
Print Assumptions C107_cost.
Theorem C107_enough : forall h, header_ok h -> forall body known g, lenN known <= digest_len (h_hmode h) -> lenN known <= lenN body ->
  exists p, decides_start h body known g p /\ forall H, lenN (asked (hash_of H (h_hmode h)) p) = iterations (h_ch1 h) + 3.
Proof. exact best_start. Qed.
Print Assumptions C107_enough.
(** decrypting anything at all takes at least these digests *)
Theorem C107_decrypt : forall h, header_ok h -> forall body g p, decrypts h body g p -> body <> [] ->
  forall H, hashes_ok H -> lenN (asked (hash_of H (h_hmode h)) p) < 2 ^ 200 ->
  forall t, In t (fst (probe_file H h body [] g)) -> In t (asked (hash_of H (h_hmode h)) p).
Proof. exact decrypt_asks. Qed.
Print Assumptions C107_decrypt.

(** someone who has not asked for every digest of the first chain hash of [pw] cannot exclude that the file holds [data], protected by [pw] *)
Theorem C108_possible : forall h, header_ok h -> h_salt h <> zeros h \/ salt_at (salts (h_ch2 h)) 0 <> [] ->
  forall H, hashes_ok H -> forall Q pw data body, lenN Q < 2 ^ 200 -> lenN data < 2 ^ 64 -> lenN body = lenN data ->
  (exists t, In t (first_texts H h pw) /\ ~ In t Q /\ ~ In t (blocks (digest_len (h_hmode h)) data)) ->
  (forall b, In b (removelast (blocks (digest_len (h_hmode h)) data)) -> hash_of H (h_hmode h) b <> zeros h) ->
  exists H', hashes_ok H' /\ (forall x, In x Q -> hash_of H' (h_hmode h) x = hash_of H (h_hmode h) x) /\ sealed H' h pw data (ser (hdr_len h + lenN data) h ++ body).
Proof. exact still_possible. Qed.
Print Assumptions C108_possible.
(** so no program without these digests can tell: it gives the same answer *)
Theorem C108_program : forall h, header_ok h -> h_salt h <> zeros h \/ salt_at (salts (h_ch2 h)) 0 <> [] ->
  forall (A : Type) (p : program A) H, hashes_ok H -> lenN (asked (hash_of H (h_hmode h)) p) < 2 ^ 200 ->
  forall pw data body, lenN data < 2 ^ 64 -> lenN body = lenN data ->
  (exists t, In t (first_texts H h pw) /\ ~ In t (asked (hash_of H (h_hmode h)) p) /\ ~ In t (blocks (digest_len (h_hmode h)) data)) ->
  (forall b, In b (removelast (blocks (digest_len (h_hmode h)) data)) -> hash_of H (h_hmode h) b <> zeros h) ->
  exists H', hashes_ok H' /\ answer (hash_of H' (h_hmode h)) p = answer (hash_of H (h_hmode h)) p /\
    sealed H' h pw data (ser (hdr_len h + lenN data) h ++ body).
Proof. exact program_blind. Qed.
Print Assumptions C108_program.

(** the example header with two and three iterations, and two guesses *)
Example C106_ex : header_ok ex_head /\ check_rounds ex_head = 5 /\ NoDup [ex_pw; ex_pw2] /\
  decides ex_head [ex_pw; ex_pw2] (plain_check ex_head [ex_pw; ex_pw2] []) /\
  answer (hash_of ex_hashes 1) (plain_check ex_head [ex_pw; ex_pw2] []) = [true; false] /\
  map lenN (asked (hash_of ex_hashes 1) (plain_check ex_head [ex_pw; ex_pw2] [])) = [24; 50; 40; 40; 40; 23; 50; 40; 40; 40].
Proof.
  split; [apply ex_head_ok|]. split; [reflexivity|]. split.
  { constructor; [|constructor; [intros []|constructor]]. intros [E|[]]. discriminate E. }
  split; [apply plain_check_decides, ex_head_ok|]. split; vm_compute; reflexivity.
Qed.
(** a program that stops after the first digest is wrong for some digest function *)
Definition lazy_check : program (list bool) := Ask (ex_pw ++ salt_at (salts (h_ch1 ex_head)) 0) (fun _ => Answer [true]).
Example C106_lazy : answer (hash_of ex_hashes 1) lazy_check = [true] /\ opens ex_hashes ex_head ex_pw /\ ~ decides ex_head [ex_pw] lazy_check.
Proof.
  split; [reflexivity|]. split; [apply ex_head_ok|]. intros Dc.
  pose proof (C106_asks ex_head (proj1 ex_head_ok) [ex_pw] lazy_check Dc ex_hashes ex_hashes_ok ltac:(vm_compute; reflexivity) ex_pw
    (input (hash_of ex_hashes 1) (salts (h_ch1 ex_head)) ex_pw 1) ltac:(left; reflexivity) ltac:(right; left; reflexivity)) as I.
  destruct I as [E|[]]. apply (f_equal lenN) in E. vm_compute in E. discriminate E.
Qed.
(** the data of the example file, of which the attacker knows eight bytes *)
Definition ex_body : bytes := dropN (hdr_len ex_head) ex_file.
Definition ex_known : bytes := takeN 8 (bdata ex_data).
Example C107_ex : decides_start ex_head ex_body ex_known ex_pw (probe_program ex_head ex_body ex_known ex_pw) /\
  ex_known <> [] /\ lenN ex_known = 8 /\ lenN ex_body = 67 /\
  map lenN (asked (hash_of ex_hashes 1) (probe_program ex_head ex_body ex_known ex_pw)) = [24; 50; 32; 32; 32] /\
  map (fun g => answer (hash_of ex_hashes 1) (probe_program ex_head ex_body ex_known g)) [ex_pw; ex_pw2] = [true; false].
Proof.
  split; [|repeat split; vm_compute; solve [reflexivity|discriminate]].
  intros H HH. pose proof (f_equal snd (probe_program_is ex_head ex_body ex_known ex_pw H)) as E. cbn [snd] in E. rewrite E.
  apply CworkFacts4.probe_says; [exact HH|apply ex_head_ok|vm_compute; discriminate|vm_compute; discriminate].
Qed.
(** no program can do with the first digest alone *)
Definition lazy_start (b : bool) : program bool := Ask (ex_pw ++ salt_at (salts (h_ch1 ex_head)) 0) (fun _ => Answer b).
Example C107_lazy : forall b, ~ decides_start ex_head ex_body ex_known ex_pw (lazy_start b).
Proof.
  intros b Dc. pose proof (C107_asks ex_head (proj1 ex_head_ok) ex_body ex_known ex_pw (lazy_start b) Dc ltac:(discriminate) ltac:(vm_compute; discriminate) ltac:(vm_compute; discriminate)
    ex_hashes ex_hashes_ok ltac:(vm_compute; reflexivity) (nth 1 (fst (probe_file ex_hashes ex_head ex_body ex_known ex_pw)) []) ltac:(apply nth_In; vm_compute; lia)) as I.
  destruct I as [E|[]]. apply (f_equal lenN) in E. vm_compute in E. discriminate E.
Qed.
(** the example file after its own password was checked: it may also hold 67 letters B under another password *)
Example C108_ex : exists H', hashes_ok H' /\
  answer (hash_of H' 1) (plain_check ex_head [ex_pw] []) = [true] /\
  sealed H' ex_head ex_pw2 (repeat x42 67) ex_file.
Proof.
  assert (ex_file = ser (hdr_len ex_head + lenN (repeat x42 67)) ex_head ++ ex_body) as -> by (vm_compute; reflexivity).
  destruct (C108_program ex_head (proj1 ex_head_ok) ltac:(right; vm_compute; discriminate) _ (plain_check ex_head [ex_pw] []) ex_hashes ex_hashes_ok ltac:(vm_compute; reflexivity)
    ex_pw2 (repeat x42 67) ex_body ltac:(vm_compute; reflexivity) ltac:(vm_compute; reflexivity)) as (H' & HH & E & S).
  - exists (input (hash_of ex_hashes 1) (salts (h_ch1 ex_head)) ex_pw2 0). split; [left; reflexivity|].
    split; intros I; apply (in_map lenN) in I; vm_compute in I; intuition discriminate.
  - apply all_differ. vm_compute. reflexivity.
  - exists H'. split; [exact HH|]. split; [|exact S]. change (h_hmode ex_head) with 1 in E. rewrite E. vm_compute. reflexivity.
Qed.
