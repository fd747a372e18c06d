(** Witnesses for C119: calls that return each code. *)
From Coq Require Import Strings.String.
From Verif Require Import Base BaseFacts BytesModel BytesSpec MiscModel CipherModel CipherSpec PwModel PwSpec ChModel ChSpec HeaderModel HeaderSpec Toy FileModel ApiModel ApiSpec
  FileFacts ApiFacts9 RefSpec RefSpec2 RefFacts5 Properties_Header Properties_File Properties_Api Properties_Ref CodeSpec CodeFacts.

(** circumstances: whether files can be read and created, what the clocks show *)
Definition cw (bd : build) (rd cr : bool) (clk : N) : world :=
  mkWorld ex_loc (fun _ => true) (fun _ => rd) (fun _ => true) (fun _ => cr) (fun _ => true) (fun _ => Missing) 1000000
    (fun _ k => zrnd k) 0 (fun _ => clk) (fun _ => clk) ex_hashes bd (N.to_nat 3000).
Lemma cw_ok bd rd cr clk : world_ok bd ex_hashes (cw bd rd cr clk).
Proof. split; [reflexivity|]. split; [reflexivity|]. split; [intros i k; apply zrnd_ok|reflexivity]. Qed.
Definition usual (bd : build) : world := cw bd true true 0.
Definition before (bd : build) (f : fs) (l : list op) : list (world * fs * op) := map (fun o => (usual bd, f, o)) l.
Definition runs_to (l : list (world * fs * op)) (w : world) (f : fs) (o : op) : option errcode :=
  match play l [] (fresh 1) with
  | Some (_, a) => match step w a f o with (_, Ret (_, RErr _ e)) => Some e | _ => None end
  | None => None
  end.
Lemma attain bd g l w f o e : fs_ok g -> Forall op_ok l -> world_ok bd ex_hashes w -> fs_ok f -> op_ok o ->
  runs_to (before bd g l) w f o = Some e -> attained bd (kind_of o) e.
Proof.
  intros Hg Fl W Hf Ho E. exists ex_hashes. split; [exact ex_hashes_ok|]. unfold runs_to in E.
  assert (Forall (fun x => world_ok bd ex_hashes (fst (fst x)) /\ fs_ok (snd (fst x)) /\ op_ok (snd x)) (before bd g l)) as F.
  { unfold before. apply Forall_forall. intros x Hx. apply in_map_iff in Hx as (o' & <- & Ho'). cbn [fst snd]. split; [apply cw_ok|]. split; [exact Hg|].
    rewrite Forall_forall in Fl. apply Fl, Ho'. }
  destruct (play (before bd g l) [] (fresh 1)) as [[tr a]|] eqn:Ep; [|discriminate].
  destruct (step w a f o) as [f' [[a' y]| | |]] eqn:Es; try discriminate. destruct y; try discriminate. injection E as <-.
  exists tr, a, w, f, o, f', a', s. split; [|split; [exact W|split; [exact Hf|split; [exact Ho|split; [reflexivity|exact Es]]]]].
  eapply play_history; [|exact F|exact Ep]. apply hist_new. reflexivity.
Qed.
Definition no_files : fs := fun _ => None.
Lemma no_files_ok : fs_ok no_files.
Proof. intros l c E. discriminate. Qed.
Definition blank : fs := one_file [].
Lemma blank_ok : fs_ok blank.
Proof. apply one_file_ok. reflexivity. Qed.
(** a header without its last byte, and two sizes that fit the rest *)
Definition ex_short : bytes := u64 123 ++ u64 110 ++ takeN 107 (dropN 16 ex_file).
Definition none_set : dhsettings := mkSet None None None None None None [] [].
Definition many_blocks : dhsettings := mkSet (Some 1) (Some 1) (Some 3) (Some 2) (Some 2) (Some 3) (repeat ex_block (N.to_nat 256)) [].
Lemma many_made : settings_made many_blocks.
Proof.
  destruct (proj1 ex_ds_ok) as (_ & Fb & _). split; [exists [SFile 1; SHash 1; SCh1 3; SCh2 2; SN1 2; SN2 3]; reflexivity|]. split; [|constructor].
  apply Forall_forall. intros b Hb. apply repeat_spec in Hb. subst b. inversion Fb; assumption.
Qed.
Lemma none_made : settings_made none_set.
Proof. split; [exists []; reflexivity|]. split; constructor. Qed.
Ltac fs_tac := first [exact ex_files_ok | exact no_files_ok | exact blank_ok | apply one_file_ok; vm_compute; reflexivity].
Ltac o_tac := cbn [op_ok text fd_data];
  lazymatch goal with
  | |- True => exact I
  | |- forall _, _ => intros ? [= <-]; vm_compute; reflexivity
  | |- _ /\ _ => split; [first [exact many_made|exact none_made|apply ex_ds_ok]|vm_compute; reflexivity]
  | |- _ => vm_compute; reflexivity
  end.
Ltac go g l w f o := apply (attain _ g l w f o); [fs_tac|unfold opening; cbn [app]; repeat (apply Forall_cons; [o_tac|]); apply Forall_nil|apply cw_ok|fs_tac|o_tac|];
  match goal with |- _ = Some _ => match goal with bd : build |- _ => destruct bd end; vm_compute; reflexivity end.
Definition sel : list op := [OSelect a_enc_path].
Definition sealing : list op := [OSelect a_enc_path; OVerify ex_pw 0; ODecrypt; OEncrypt (text ex_data)].
Definition other : bytes := str "other.enc".

Lemma at_list bd e : In e (codes KList) -> attained bd KList e.
Proof.
  cbn. intros [<-|[<-|[<-|[]]]].
  - go ex_files [OSelect a_enc_path] (usual bd) ex_files (OList other).
  - go ex_files (@nil op) (usual bd) ex_files (OList []).
  - go ex_files (@nil op) (usual bd) ex_files (OList other).
Qed.
Lemma at_create bd e : In e (codes KCreate) -> attained bd KCreate e.
Proof.
  cbn. intros [<-|[<-|[<-|[<-|[<-|[]]]]]].
  - go ex_files [OSelect a_enc_path] (usual bd) ex_files (OCreate other).
  - go ex_files (@nil op) (usual bd) ex_files (OCreate []).
  - go ex_files (@nil op) (usual bd) ex_files (OCreate (str "a.txt")).
  - go ex_files (@nil op) (usual bd) ex_files (OCreate a_enc_path).
  - go ex_files (@nil op) (cw bd true false 0) no_files (OCreate a_enc_path).
Qed.
Lemma at_select bd e : In e (codes KSelect) -> attained bd KSelect e.
Proof.
  cbn. intros [<-|[<-|[<-|[<-|[<-|[<-|[<-|[<-|[<-|[<-|[<-|[<-|[<-|[]]]]]]]]]]]]]].
  - go ex_files [OSelect a_enc_path] (usual bd) ex_files (OSelect a_enc_path).
  - go ex_files (@nil op) (usual bd) ex_files (OSelect []).
  - go ex_files (@nil op) (usual bd) ex_files (OSelect (str "a.txt")).
  - go ex_files (@nil op) (usual bd) no_files (OSelect a_enc_path).
  - go ex_files (@nil op) (cw bd false true 0) ex_files (OSelect a_enc_path).
  - go ex_files (@nil op) (usual bd) (one_file (takeN 100 ex_file)) (OSelect a_enc_path).
  - go ex_files (@nil op) (usual bd) (one_file (put 50 xff ex_file)) (OSelect a_enc_path).
  - go ex_files (@nil op) (usual bd) (one_file (put 17 x04 ex_file)) (OSelect a_enc_path).
  - go ex_files (@nil op) (usual bd) (one_file (put 16 x02 ex_file)) (OSelect a_enc_path).
  - go ex_files (@nil op) (usual bd) (one_file (put 23 x09 ex_file)) (OSelect a_enc_path).
  - go ex_files (@nil op) (usual bd) (one_file (put 31 x00 ex_file)) (OSelect a_enc_path).
  - go ex_files (@nil op) (usual bd) (one_file (put 49 x00 ex_file)) (OSelect a_enc_path).
  - go ex_files (@nil op) (usual bd) (one_file ex_short) (OSelect a_enc_path).
Qed.
Lemma at_empty bd e : In e (codes KIsEmpty) -> attained bd KIsEmpty e.
Proof. cbn. intros [<-|[]]. go ex_files (@nil op) (usual bd) ex_files OIsEmpty. Qed.
Lemma at_unselect bd e : In e (codes KUnselect) -> attained bd KUnselect e.
Proof. cbn. intros [<-|[]]. go ex_files (@nil op) (usual bd) ex_files OUnselect. Qed.
Lemma at_salt bd e : In e (codes KSalt) -> attained bd KSalt e.
Proof. cbn. intros [<-|[]]. go ex_files (@nil op) (usual bd) ex_files OSalt. Qed.
Lemma at_delete bd e : In e (codes KDelete) -> attained bd KDelete e.
Proof.
  cbn. intros [<-|[<-|[]]].
  - go ex_files (@nil op) (usual bd) ex_files ODelete.
  - go ex_files [OSelect a_enc_path] (usual bd) no_files ODelete.
Qed.
Lemma at_content bd e : In e (codes KContent) -> attained bd KContent e.
Proof.
  cbn. intros [<-|[<-|[]]].
  - go ex_files (@nil op) (usual bd) ex_files OContent.
  - go ex_files [OSelect a_enc_path] (usual bd) no_files OContent.
Qed.
Lemma at_verify bd e : In e (codes KVerify) -> attained bd KVerify e.
Proof.
  cbn. intros [<-|[<-|[<-|[]]]].
  - go ex_files (@nil op) (usual bd) ex_files (OVerify ex_pw 0).
  - go ex_files [OSelect a_enc_path] (cw bd true true 9) ex_files (OVerify ex_pw 5).
  - go ex_files [OSelect a_enc_path] (usual bd) ex_files (OVerify ex_pw2 0).
Qed.
Lemma at_header bd e : In e (codes KHeader) -> attained bd KHeader e.
Proof.
  cbn. intros [<-|[<-|[<-|[<-|[]]]]].
  - go ex_files (@nil op) (usual bd) ex_files (OHeader ex_pw ex_ds 0).
  - go ex_files (@nil op) (usual bd) ex_files (OHeader ex_pw none_set 0).
  - go blank [OSelect a_enc_path] (cw bd true true 9) blank (OHeader ex_pw ex_ds 5).
  - go blank [OSelect a_enc_path] (usual bd) blank (OHeader ex_pw many_blocks 0).
Qed.
Lemma at_time bd e : In e (codes KHeaderTime) -> attained bd KHeaderTime e.
Proof.
  cbn. intros [<-|[<-|[]]].
  - go ex_files (@nil op) (usual bd) ex_files (OHeaderTime ex_pw ex_ds).
  - go ex_files (@nil op) (usual bd) ex_files (OHeaderTime ex_pw none_set).
Qed.
Lemma at_decrypt bd e : In e (codes KDecrypt) -> attained bd KDecrypt e.
Proof.
  cbn. intros [<-|[<-|[]]].
  - go ex_files (@nil op) (usual bd) ex_files ODecrypt.
  - go ex_files [OSelect a_enc_path; OVerify ex_pw 0] (usual bd) (one_file (takeN 190 ex_file)) ODecrypt.
Qed.
Lemma at_get bd e : In e (codes KGetData) -> attained bd KGetData e.
Proof.
  cbn. intros [<-|[<-|[]]].
  - go ex_files (@nil op) (usual bd) ex_files OGetData.
  - go ex_files [OSelect a_enc_path; OVerify ex_pw 0; ODecrypt] (usual bd) ex_files OGetData.
Qed.
Lemma at_write bd e : In e (codes KWrite) -> attained bd KWrite e.
Proof.
  cbn. intros [<-|[<-|[<-|[]]]].
  - go ex_files (@nil op) (usual bd) ex_files OWrite.
  - go ex_files [OSelect a_enc_path; OVerify ex_pw 0; ODecrypt; OEncrypt (text ex_data)] (usual bd) no_files OWrite.
  - go ex_files [OSelect a_enc_path; OVerify ex_pw 0; ODecrypt; OEncrypt (text ex_data)] (cw bd false true 0) ex_files OWrite.
Qed.
Lemma at_write_to bd e : In e (codes KWriteTo) -> attained bd KWriteTo e.
Proof.
  cbn. intros [<-|[<-|[<-|[<-|[<-|[<-|[<-|[]]]]]]]].
  - go ex_files (@nil op) (usual bd) ex_files (OWriteTo other).
  - go ex_files [OSelect a_enc_path; OVerify ex_pw 0; ODecrypt; OEncrypt (text ex_data)] (usual bd) ex_files (OWriteTo []).
  - go ex_files [OSelect a_enc_path; OVerify ex_pw 0; ODecrypt; OEncrypt (text ex_data)] (usual bd) ex_files (OWriteTo (str "a.txt")).
  - go ex_files [OSelect a_enc_path; OVerify ex_pw 0; ODecrypt; OEncrypt (text ex_data)] (usual bd) no_files (OWriteTo a_enc_path).
  - go ex_files [OSelect a_enc_path; OVerify ex_pw 0; ODecrypt; OEncrypt (text ex_data)] (cw bd false true 0) blank (OWriteTo a_enc_path).
  - go ex_files [OSelect a_enc_path; OVerify ex_pw 0; ODecrypt; OEncrypt (text ex_data)] (usual bd) (one_file [x00]) (OWriteTo a_enc_path).
  - go ex_files [OSelect a_enc_path; OVerify ex_pw 0; ODecrypt; OEncrypt (text ex_data)] (usual bd) ex_files (OWriteTo a_enc_path).
Qed.
(** 2^31 bytes are too much for encryptData *)
Definition patient_world (bd : build) (n : N) : world :=
  mkWorld ex_loc (fun _ => true) (fun _ => true) (fun _ => true) (fun _ => true) (fun _ => true) (fun _ => Missing) 1000000
    (fun _ k => zrnd k) 0 (fun _ => 0) (fun _ => 0) ex_hashes bd (N.to_nat n + 2).
Lemma patient_world_ok bd n : world_ok bd ex_hashes (patient_world bd n).
Proof. split; [reflexivity|]. split; [reflexivity|]. split; [intros i k; apply zrnd_ok|reflexivity]. Qed.
Lemma patient_fuel bd n : w_fuel (patient_world bd n) = (N.to_nat n + 2)%nat.
Proof. reflexivity. Qed.
Lemma opened_object bd : exists tr a, history bd ex_hashes 1 tr a /\ a_state a = DECRYPTED.
Proof.
  apply (play_example bd ex_hashes (before bd ex_files opening)); [|destruct bd; vm_compute; reflexivity].
  unfold before, opening. cbn [map]. repeat (apply Forall_cons; [split; [apply cw_ok|split; [exact ex_files_ok|op_tac]]|]). apply Forall_nil.
Qed.
Lemma too_long bd b : lenN (bdata b) = 2 ^ 31 -> attained bd KEncrypt ERR.
Proof.
  intros L. destruct (opened_object bd) as (tr & a & Hh & Es).
  assert (lenN (bdata b) < 2 ^ 63) as L' by (rewrite L; reflexivity).
  destruct (encrypt_length ex_hashes ex_hashes_ok bd 1 tr a (patient_world bd (lenN (bdata b))) ex_files b Hh (patient_world_ok _ _) ex_files_ok L' Es) as (_ & _ & R).
  destruct R as (a' & R & _); [rewrite L; discriminate|rewrite L; intros [X _]; apply X; reflexivity|rewrite patient_fuel; apply Nat.le_refl|].
  exists ex_hashes. split; [exact ex_hashes_ok|].
  exists tr, a, (patient_world bd (lenN (bdata b))), ex_files, (OEncrypt (Some (mkFD (Some 1) (Some b)))), ex_files, a', FAIL.
  split; [exact Hh|]. split; [apply patient_world_ok|]. split; [exact ex_files_ok|]. split; [intros x [= <-]; exact L'|]. split; [reflexivity|exact R].
Qed.
Lemma at_encrypt bd e : In e (codes KEncrypt) -> attained bd KEncrypt e.
Proof.
  cbn. intros [<-|[<-|[<-|[<-|[]]]]].
  - go ex_files (@nil op) (usual bd) ex_files (OEncrypt (text ex_data)).
  - go ex_files [OSelect a_enc_path; OVerify ex_pw 0; ODecrypt] (usual bd) ex_files (OEncrypt (Some (mkFD None (Some ex_data)))).
  - go ex_files [OSelect a_enc_path; OVerify ex_pw 0; ODecrypt] (usual bd) ex_files (OEncrypt (Some (mkFD (Some 2) (Some ex_data)))).
  - apply (too_long bd (mkBytes (zeros (2 ^ 31)) (2 ^ 31))). exact (zeros_len (2 ^ 31)).
Qed.
Lemma all_attained bd k e : In e (codes k) -> attained bd k e.
Proof.
  destruct k; first [apply at_list|apply at_create|apply at_select|apply at_empty|apply at_unselect|apply at_delete|apply at_content|apply at_verify|apply at_header
    |apply at_time|apply at_salt|apply at_decrypt|apply at_get|apply at_encrypt|apply at_write|apply at_write_to|intros []].
Qed.
Lemma never_exact e : In e never <-> forall bd k, ~ attained bd k e.
Proof.
  split.
  - intros Hn bd k (H & HH & tr & a & w & f & o & f' & a' & st & Hh & W & Hf & Ho & _ & E). exact (api_never H HH bd _ _ _ _ _ _ _ _ _ _ Hh W Hf Ho E Hn).
  - intros Hn. assert (forall k, ~ In e (codes k)) as X by (intros k I; exact (Hn Release k (all_attained Release k e I))).
    pose proof (X KSelect) as X1. pose proof (X KCreate) as X2. pose proof (X KVerify) as X3. pose proof (X KHeader) as X4. pose proof (X KList) as X5.
    pose proof (X KDelete) as X6. pose proof (X KContent) as X7. pose proof (X KGetData) as X8. pose proof (X KEncrypt) as X9. pose proof (X KWriteTo) as X10. clear X Hn.
    destruct e; first [solve [cbn; tauto] | exfalso; first [apply X1; cbn; tauto|apply X2; cbn; tauto|apply X3; cbn; tauto|apply X4; cbn; tauto|apply X5; cbn; tauto
      |apply X6; cbn; tauto|apply X7; cbn; tauto|apply X8; cbn; tauto|apply X9; cbn; tauto|apply X10; cbn; tauto]].
Qed.
