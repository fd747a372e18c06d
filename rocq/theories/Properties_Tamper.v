(** Property C96: which changes to a header the password check notices. *)
From Coq Require Import Strings.String.
From Verif Require Import Base BaseFacts BytesModel BytesSpec MiscModel CipherModel CipherSpec PwModel PwSpec ChModel ChSpec HeaderModel HeaderSpec Toy FileModel ApiModel ApiSpec SecSpec RefSpec LeakSpec
  WorkModel WorkSpec TamperSpec TamperFacts ApiFacts9 Properties_Header Properties_File Properties_Api Properties_Leak.
Open Scope N_scope.
Open Scope list_scope.

(** data blocks, encrypted data blocks and the salt can be replaced: the password is still the right one, and with the old salt the data are the old ones *)
Theorem C96_unnoticed : forall H, hashes_ok H -> forall bd h h' pw data c, sealed H h pw data c -> no_empty_block h -> lenN data < 2 ^ 31 -> header_ok h' -> same_check h h' ->
  exists c' data', reheaded bd c h' = Some c' /\ sealed H h' pw data' c' /\ lenN data' = lenN data /\ (h_salt h' = h_salt h -> data' = data).
Proof. exact rehead. Qed.
Print Assumptions C96_unnoticed.
(** the second chain hash can be given any larger number of rounds, from the file alone *)
Theorem C96_slower : forall H, hashes_ok H -> forall bd n h pw data c, sealed H h pw data c -> no_empty_block h -> lenN data < 2 ^ 31 -> iterations (h_ch2 h) <= n <= 1000000000 ->
  exists c', slow_down bd H n c = Some c' /\ sealed H (slowed H n h) pw data c' /\ lenN c' = lenN c.
Proof. exact slow_sealed. Qed.
Print Assumptions C96_slower.
(** the owner of the file gets the data as before, or ERR_TIMEOUT from now on *)
Theorem C96_slow_session : forall H, hashes_ok H -> forall bd ws p l f n h pw data c c' t, (forall i, at_hand bd H (ws i) p l) -> enc_path p ->
  sealed H h pw data c -> no_empty_block h -> lenN data < 2 ^ 31 -> iterations (h_ch2 h) <= n <= 1000000000 -> slow_down bd H n c = Some c' -> f l = Some c' -> t < 2 ^ 64 ->
  (verify_in_time (ws 1%nat) t (iterations (h_ch1 h)) n -> patient (ws 2%nat) (lenN data) ->
    exists b a', calls [(ws 0%nat, OSelect p); (ws 1%nat, OVerify pw t); (ws 2%nat, ODecrypt)] (fresh 1) f = Some ([ROk; ROk; RData (mkFD (Some 1) (Some b))], a', f) /\ bdata b = data) /\
  (~ verify_in_time (ws 1%nat) t (iterations (h_ch1 h)) n ->
    exists a', calls [(ws 0%nat, OSelect p); (ws 1%nat, OVerify pw t)] (fresh 1) f = Some ([ROk; RErr TIMEOUT ERR_TIMEOUT], a', f)).
Proof. exact slow_session. Qed.
Print Assumptions C96_slow_session.
(** every check then takes that many digests *)
Theorem C96_slow_work : forall H, hashes_ok H -> forall bd mode tr a w f p n h pw data c c' pw' t, history bd H mode tr a -> world_ok bd H w -> t < 2 ^ 64 -> a_state a = FILE_SELECTED ->
  sealed H h pw data c -> no_empty_block h -> lenN data < 2 ^ 31 -> iterations (h_ch2 h) <= n <= 1000000000 -> slow_down bd H n c = Some c' -> selected tr = Some (p, c') ->
  verify_in_time w t (iterations (h_ch1 h)) n -> digests (fst (step_w w a f (OVerify pw' t))) = iterations (h_ch1 h) + n.
Proof. exact slow_work. Qed.
Print Assumptions C96_slow_work.
(** if the chain hashes are changed in any way and the check value is kept, a password is accepted only if there is a collision or the one check is the end of the other *)
Theorem C96_accepted_after_change : forall H, hashes_ok H -> forall bd mode tr a w f p c' hsz l1 l2 h' rest h pw pw' t f' a', history bd H mode tr a -> world_ok bd H w -> t < 2 ^ 64 ->
  selected tr = Some (p, c') -> written_as c' hsz l1 l2 h' rest -> header_ok h -> opens H h pw -> h_hmode h' = h_hmode h -> h_valid h' = h_valid h ->
  step w a f (OVerify pw' t) = (f', Ret (a', ROk)) ->
  (check_rounds h <= check_rounds h' -> collide2 H h pw h' pw' \/ end_of H h pw h' pw') /\
  (check_rounds h' <= check_rounds h -> collide2 H h' pw' h pw \/ end_of H h' pw' h pw).
Proof. exact accepted_after_change. Qed.
Print Assumptions C96_accepted_after_change.

(** another block, and another salt *)
Definition head_with (bs : list (N * bytes)) (s : bytes) (h : header) : header := mkHeader (h_fmode h) (h_hmode h) bs (h_ch1 h) (h_ch2 h) (h_valid h) s (h_encs h).
Definition shown (c : option bytes) : option bytes :=
  match c with
  | Some c => match calls (map (pair ex_world) opening) (fresh 1) (one_file c) with Some ([ROk; ROk; RData (mkFD _ (Some b))], _, _) => Some (bdata b) | _ => None end
  | None => None
  end.
Example C96_unnoticed_ex : header_ok (head_with [(9, str "planted"); (10, str "block")] (h_salt ex_head) ex_head) /\ same_check ex_head (head_with [(9, str "planted"); (10, str "block")] (h_salt ex_head) ex_head) /\
  shown (reheaded Release ex_file (head_with [(9, str "planted"); (10, str "block")] (h_salt ex_head) ex_head)) = Some (bdata ex_data) /\
  match shown (reheaded Release ex_file (head_with [] (repeat x01 32) ex_head)) with Some x => lenN x = lenN (bdata ex_data) /\ eqb_bytes x (bdata ex_data) = false | None => False end.
Proof. split; [unfold head_with, ex_head; header_tac|]. split; [repeat split|]. vm_compute. auto. Qed.
Example C96_slow_ex : sealed ex_hashes ex_head ex_pw (bdata ex_data) ex_file /\ iterations (h_ch2 ex_head) = 3 /\ shown (slow_down Release ex_hashes 40 ex_file) = Some (bdata ex_data) /\
  match slow_down Release ex_hashes 2 ex_file with None => True | Some _ => False end.
Proof. split; [exact ex_file_ok|]. vm_compute. auto. Qed.
(** without salts a round can be moved from one chain hash to the other; the password is accepted and the key is another *)
Definition moved_head : header := let h := plain_head ex_pw 2 3 in mkHeader 1 1 (h_blocks h) (1, 3, []) (1, 2, []) (h_valid h) (h_salt h) [].
Example C96_moved_ex : (let h := plain_head ex_pw 2 3 in header_ok h /\ header_ok moved_head /\ opens ex_hashes h ex_pw /\ h_hmode moved_head = h_hmode h /\ h_valid moved_head = h_valid h /\
    check_rounds h = check_rounds moved_head) /\
  match shown (reheaded Release old_file moved_head) with Some x => eqb_bytes x (str "old") = false | None => False end /\
  end_of ex_hashes (plain_head ex_pw 2 3) ex_pw moved_head ex_pw.
Proof.
  split; [cbv zeta; split; [apply plain_ok|]; split; [unfold moved_head, plain_head; header_tac|]; split; [apply plain_ok|]; repeat split|].
  split; [vm_compute; auto|]. intros k Lk. change (check_rounds (plain_head ex_pw 2 3)) with 5 in Lk. change (check_rounds moved_head - check_rounds (plain_head ex_pw 2 3)) with 0.
  do 5 (destruct k as [|k]; [vm_compute; reflexivity|]). lia.
Qed.
