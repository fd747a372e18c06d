(** Property C109. *)
From Coq Require Import Strings.String.
From Verif Require Import Base BaseFacts BytesModel BytesSpec MiscModel CipherModel CipherSpec PwModel PwSpec ChModel ChSpec HeaderModel HeaderSpec Toy FileModel ApiModel ApiSpec ApiSpec2
  SecSpec RefSpec WorkModel WorkSpec QuerySpec SysSpec StolenSpec ApiFacts9 SysFacts StolenFacts Properties_Header Properties_File Properties_Api Properties_Sys.
Open Scope N_scope.
Open Scope list_scope.

(** C109 *)
Theorem C109_headers : forall H, hashes_ok H -> forall bd loc f0 tr os f l c hsz l1 l2 h rest, system bd H loc f0 tr os f -> f l = Some c -> written_as c hsz l1 l2 h rest ->
  exists h0 s, first_header H f0 tr h0 /\ h = with_salt s h0.
Proof. exact header_origin. Qed.
Print Assumptions C109_headers.
Theorem C109_stolen : forall H, hashes_ok H -> forall bd loc f0 tr os f l v older, system bd H loc f0 tr os f -> Forall (fun v => full_blocks (v_op v)) tr ->
  newest loc tr l = Some (v, older) -> saves v l ->
  exists h0 s pw data c, first_header H f0 tr h0 /\ password (own (v_obj v) older) = Some pw /\ encrypted (own (v_obj v) older) = Some data /\
    f l = Some c /\ sealed H (with_salt s h0) pw data c /\
    forall pw0, opens H h0 pw0 -> answer (hash_of H (h_hmode h0)) (thief (key_of H h0 pw0) c) = Some data \/ collide H h0 pw0 pw.
Proof. exact stolen. Qed.
Print Assumptions C109_stolen.
Theorem C109_one_file : forall H, hashes_ok H -> forall bd loc f0 tr os f l v older l0 h0 pw0 data0 c0, system bd H loc f0 tr os f ->
  Forall (fun v => full_blocks (v_op v) /\ same_headers v) tr ->
  f0 l0 = Some c0 -> sealed H h0 pw0 data0 c0 -> no_empty_block h0 -> lenN data0 < 2 ^ 31 -> (forall l1 c, f0 l1 = Some c -> l1 = l0 \/ c = []) ->
  newest loc tr l = Some (v, older) -> saves v l ->
  exists pw data c, password (own (v_obj v) older) = Some pw /\ encrypted (own (v_obj v) older) = Some data /\ f l = Some c /\
    (answer (hash_of H (h_hmode h0)) (thief (key_of H h0 pw0) c) = Some data \/ collide H h0 pw0 pw).
Proof. exact StolenFacts.one_file. Qed.
Print Assumptions C109_one_file.
Theorem C109_cost : forall D key c, lenN c < 2 ^ 64 -> 8 * lenN (asked D (thief key c)) <= lenN c.
Proof. exact thief_cost. Qed.
Print Assumptions C109_cost.
(** two objects save the file, one of them with a new salt; the password hash of the file at the beginning gives the new data *)
Definition renewing (k : nat) (d : Bytes) : list (nat * world * op * fate) :=
  map (turn k) [OSelect a_enc_path; OVerify ex_pw 0; ODecrypt] ++ [(k, with_ones, OSalt, Lives)] ++ map (turn k) [OEncrypt (text d); OWrite].
Definition ex_key : bytes := key_of ex_hashes ex_head ex_pw.
Definition final (l : list (nat * world * op * fate)) : bytes :=
  match sys_play l [] (fun _ => fresh 1) ex_files with Some (_, _, f) => content f (ex_loc a_enc_path) | None => [] end.
Definition keeps_header (o : op) : Prop := full_blocks o /\ match o with OHeader _ _ _ => False | _ => True end.
Example C109_ex_only l1 c : ex_files l1 = Some c -> l1 = ex_loc a_enc_path \/ c = [].
Proof. unfold ex_files, Properties_File.one_file, upd. destruct (N.eqb_spec l1 (ex_loc a_enc_path)); [auto|discriminate]. Qed.
Example C109_ex : exists tr os f, system Release ex_hashes ex_loc ex_files tr os f /\ Forall (fun v => keeps_header (v_op v)) tr /\
  match newest ex_loc tr (ex_loc a_enc_path) with
  | Some (v, older) => saves v (ex_loc a_enc_path) /\ encrypted (own (v_obj v) older) = Some (bdata data2)
  | None => False
  end /\ f (ex_loc a_enc_path) <> ex_files (ex_loc a_enc_path).
Proof.
  apply (sys_example Release ex_hashes ex_loc ex_files (saving 0 data1 ++ renewing 1 data2) keeps_header).
  - exact ex_files_ok.
  - unfold saving, renewing; cbn [map app]; turns_ok.
  - cbn; repeat constructor; discriminate.
  - vm_compute. split; [|discriminate]. split; [|reflexivity]. split; [left; reflexivity|]. split; reflexivity.
Qed.
Example C109_ex_read : let D := hash_of ex_hashes (h_hmode ex_head) in
  answer D (thief ex_key (final (saving 0 data1 ++ renewing 1 data2))) = Some (bdata data2) /\
  answer D (thief ex_key ex_file) = Some (bdata ex_data) /\
  match read_file Release (final (saving 0 data1 ++ renewing 1 data2)) with Gives (h, _) => h_salt h <> h_salt ex_head | _ => False end.
Proof. vm_compute. split; [reflexivity|]. split; [reflexivity|discriminate]. Qed.
(** after a createDataHeader it does not *)
Definition rekeying (k : nat) (d : Bytes) : list (nat * world * op * fate) :=
  map (turn k) [OSelect a_enc_path; OVerify ex_pw 0; ODecrypt] ++ [(k, with_ones, OHeader ex_pw ex_ds 0, Lives)] ++ map (turn k) [OEncrypt (text d); OWrite].
Example C109_ex_rekeyed : answer (hash_of ex_hashes (h_hmode ex_head)) (thief ex_key (final (rekeying 1 data2))) <> Some (bdata data2).
Proof. vm_compute. discriminate. Qed.
