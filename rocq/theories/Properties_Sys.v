(** Properties C77-C79. *)
From Coq Require Import Strings.String.
From Verif Require Import Base BaseFacts BytesModel BytesSpec MiscModel CipherModel CipherSpec PwModel PwSpec ChModel ChSpec HeaderModel HeaderSpec Toy FileModel ApiModel ApiSpec ApiSpec2
  SecSpec SysSpec ApiFacts9 SysFacts EmptyFacts Properties_Header Properties_File Properties_Api.

(** worlds with some room, and with some random numbers *)
Definition with_room (n : N) : world :=
  mkWorld (w_loc ex_world) (w_stat ex_world) (w_read ex_world) (w_write ex_world) (w_create ex_world) (w_remove ex_world) (w_dir ex_world) n
    (w_rnd ex_world) (w_elapsed ex_world) (w_clk1 ex_world) (w_clk2 ex_world) (w_hashes ex_world) (w_build ex_world) (w_fuel ex_world).
Definition ones (n : N) : bytes := repeat x01 (N.to_nat n).
Definition with_ones : world :=
  mkWorld (w_loc ex_world) (w_stat ex_world) (w_read ex_world) (w_write ex_world) (w_create ex_world) (w_remove ex_world) (w_dir ex_world) (w_room ex_world)
    (fun _ => ones) (w_elapsed ex_world) (w_clk1 ex_world) (w_clk2 ex_world) (w_hashes ex_world) (w_build ex_world) (w_fuel ex_world).
Example with_room_ok n : world_ok Release ex_hashes (with_room n).
Proof. split; [reflexivity|]. split; [reflexivity|]. split; [intros i k; apply zrnd_ok|reflexivity]. Qed.
Example with_ones_ok : world_ok Release ex_hashes with_ones.
Proof. split; [reflexivity|]. split; [reflexivity|]. split; [intros i k; cbn [with_ones w_rnd]; unfold ones; rewrite lenN_repeat; apply N2Nat.id|reflexivity]. Qed.
Definition turn (k : nat) (o : op) : nat * world * op * fate := (k, with_room 1000, o, Lives).
Definition data1 : Bytes := fromArray (str "one").
Definition data2 : Bytes := fromArray (str "two, and some more").
Definition saving (k : nat) (d : Bytes) : list (nat * world * op * fate) :=
  map (turn k) [OSelect a_enc_path; OVerify ex_pw 0; ODecrypt; OEncrypt (text d); OWrite].
Ltac turns_ok := unfold turn; repeat (apply Forall_cons; [split; [first [apply with_room_ok|exact with_ones_ok]|split; [reflexivity|op_tac]]|]); apply Forall_nil.
Ltac system_of l := apply (sys_example Release ex_hashes ex_loc ex_files l full_blocks);
  [exact ex_files_ok|unfold saving; cbn [map app]; turns_ok|cbn; repeat constructor; discriminate|vm_compute].

(** C77 *)
Theorem C77_files_as_left : forall H, hashes_ok H -> forall bd loc f0 tr os f l, system bd H loc f0 tr os f -> as_left H loc f0 tr l (f l).
Proof. exact last_left. Qed.
Print Assumptions C77_files_as_left.
Theorem C77_last_save_is_read : forall H, hashes_ok H -> forall bd loc f0 tr os f p v older,
  system bd H loc f0 tr os f -> Forall (fun v => full_blocks (v_op v)) tr -> newest loc tr (loc p) = Some (v, older) -> saves v (loc p) ->
  exists h pw data, password (own (v_obj v) older) = Some pw /\ encrypted (own (v_obj v) older) = Some data /\ current H (own (v_obj v) older) h /\
    forall ws t, (forall i, at_hand bd H (ws i) p (loc p)) -> enc_path p -> t < 2 ^ 64 ->
      verify_in_time (ws 1%nat) t (iterations (h_ch1 h)) (iterations (h_ch2 h)) -> patient (ws 2%nat) (lenN data) ->
      exists b a', calls [(ws 0%nat, OSelect p); (ws 1%nat, OVerify pw t); (ws 2%nat, ODecrypt)] (fresh 1) f = Some ([ROk; ROk; RData (mkFD (Some 1) (Some b))], a', f) /\ bdata b = data.
Proof. exact reopened. Qed.
Print Assumptions C77_last_save_is_read.
(** two objects save the file, a third one is killed while it works on it *)
Example C77_ex : exists tr os f, system Release ex_hashes ex_loc ex_files tr os f /\ Forall (fun v => full_blocks (v_op v)) tr /\
  match newest ex_loc tr (ex_loc a_enc_path) with
  | Some (v, older) => saves v (ex_loc a_enc_path) /\ v_obj v = 1%nat /\ encrypted (own (v_obj v) older) = Some (bdata data2)
  | None => False
  end.
Proof.
  system_of (saving 0 data1 ++ saving 1 data2 ++ [turn 2 (OSelect a_enc_path); turn 2 (OVerify ex_pw 0); (2%nat, with_room 0, ODecrypt, Dies_after); turn 2 (OSelect a_enc_path)]).
  split; [|auto]. split; [left; reflexivity|]. split; reflexivity.
Qed.

(** C78 *)
Theorem C78_undisturbed_read_is_last_save : forall H, hashes_ok H -> forall bd loc f0 tr os f k w f' a' x p c v older,
  system bd H loc f0 tr os f -> Forall (fun v => full_blocks (v_op v)) tr -> newest loc tr (loc p) = Some (v, older) -> saves v (loc p) ->
  world_ok bd H w -> (forall q, w_loc w q = loc q) -> step w (os k) f ODecrypt = (f', Ret (a', RData x)) ->
  selected (own k tr) = Some (p, c) -> undisturbed loc k p tr = true ->
  exists h pw pw' data b, current H (own (v_obj v) older) h /\ password (own (v_obj v) older) = Some pw /\ encrypted (own (v_obj v) older) = Some data /\
    verified (own k tr) = Some pw' /\ x = mkFD (Some 1) (Some b) /\ (pw' = pw -> bdata b = data) /\ (pw' = pw \/ collide H h pw pw').
Proof. exact fresh_read. Qed.
Print Assumptions C78_undisturbed_read_is_last_save.
Theorem C78_undisturbed_read_was_saved : forall H, hashes_ok H -> forall bd loc f0 tr os f k w f' a' x p c,
  system bd H loc f0 tr os f -> Forall (fun v => full_blocks (v_op v)) tr -> f0 (loc p) = None \/ f0 (loc p) = Some [] ->
  world_ok bd H w -> (forall q, w_loc w q = loc q) -> step w (os k) f ODecrypt = (f', Ret (a', RData x)) ->
  selected (own k tr) = Some (p, c) -> undisturbed loc k p tr = true ->
  exists newer v older h pw pw' data b, tr = (newer ++ v :: older)%list /\ touches loc v older (loc p) = true /\ (v_op v = OWrite \/ exists q, v_op v = OWriteTo q) /\
    current H (own (v_obj v) older) h /\ password (own (v_obj v) older) = Some pw /\ encrypted (own (v_obj v) older) = Some data /\
    verified (own k tr) = Some pw' /\ x = mkFD (Some 1) (Some b) /\ (pw' = pw -> bdata b = data) /\ (pw' = pw \/ collide H h pw pw').
Proof. exact read_was_saved. Qed.
Print Assumptions C78_undisturbed_read_was_saved.
(** one object makes the file and saves; a second one is killed before its save; a third one is killed in the middle of
    its save, and the first saves again; a fourth one reads *)
Definition reading (k : nat) : list (nat * world * op * fate) := map (turn k) [OSelect a_enc_path; OVerify ex_pw 0].
Example C78_ex : exists tr os f, system Release ex_hashes ex_loc (fun _ => None) tr os f /\ Forall (fun v => full_blocks (v_op v)) tr /\
  match newest ex_loc tr (ex_loc a_enc_path) with Some (v, older) => saves v (ex_loc a_enc_path) /\ v_obj v = 4%nat | None => False end /\
  option_map fst (selected (own 3 tr)) = Some a_enc_path /\ undisturbed ex_loc 3 a_enc_path tr = true /\
  match step (with_room 1000) (os 3%nat) f ODecrypt with (_, Ret (_, RData (mkFD _ (Some b)))) => bdata b = bdata data1 | _ => False end.
Proof.
  apply (sys_example Release ex_hashes ex_loc (fun _ => None)
    (map (turn 0) [OCreate a_enc_path; OSelect a_enc_path; OHeader ex_pw ex_ds 0; OEncrypt (text ex_data); OWrite] ++
     reading 4 ++ [turn 4 ODecrypt; turn 4 (OEncrypt (text data1))] ++
     reading 1 ++ [turn 1 ODecrypt; turn 1 (OEncrypt (text data2)); (1%nat, with_room 1000, OWrite, Dies_before)] ++
     reading 2 ++ [turn 2 ODecrypt; turn 2 (OEncrypt (text data2)); (2%nat, with_room 130, OWrite, Dies_after); turn 4 OWrite] ++ reading 3) full_blocks).
  - discriminate.
  - unfold reading; cbn [map app]; turns_ok.
  - cbn; repeat constructor; discriminate.
  - vm_compute. split; [|auto]. split; [|reflexivity]. split; [left; reflexivity|]. split; reflexivity.
Qed.
(** without the condition it is false: another object changes the salt between verifyPassword and getDecryptedData *)
Definition stale_run : list (nat * world * op * fate) :=
  reading 0 ++ reading 1 ++ [turn 1 ODecrypt; (1%nat, with_ones, OSalt, Lives); turn 1 (OEncrypt (text ex_data)); turn 1 OWrite].
Definition stale_data : bytes :=
  match sys_play stale_run [] (fun _ => fresh 1) ex_files with
  | Some (_, os, f) => match step (with_room 1000) (os 0%nat) f ODecrypt with (_, Ret (_, RData (mkFD _ (Some b)))) => bdata b | _ => [] end
  | None => []
  end.
Definition not_encrypted (x : bytes) (o : op) : Prop := match o with OEncrypt (Some (mkFD _ (Some b))) => bdata b <> x | _ => True end.
Theorem C78_stale_read_refuted : exists H, hashes_ok H /\ exists bd loc f0 tr os f k p pw, system bd H loc f0 tr os f /\
  (exists b, Forall (fun v => not_encrypted b (v_op v) /\ full_blocks (v_op v)) tr /\
    (exists h c data, f0 (loc p) = Some c /\ sealed H h pw data c /\ data <> b) /\
    option_map fst (selected (own k tr)) = Some p /\ verified (own k tr) = Some pw /\
    (exists v older, newest loc tr (loc p) = Some (v, older) /\ saves v (loc p) /\ password (own (v_obj v) older) = Some pw) /\
    exists w f' a' m y, world_ok bd H w /\ (forall q, w_loc w q = loc q) /\ step w (os k) f ODecrypt = (f', Ret (a', RData (mkFD m (Some y)))) /\ bdata y = b).
Proof.
  exists ex_hashes. split; [exact ex_hashes_ok|]. exists Release, ex_loc, ex_files.
  assert (exists tr os f, system Release ex_hashes ex_loc ex_files tr os f /\ Forall (fun v => not_encrypted stale_data (v_op v) /\ full_blocks (v_op v)) tr /\
    (option_map fst (selected (own 0 tr)) = Some a_enc_path /\ verified (own 0 tr) = Some ex_pw /\
    match newest ex_loc tr (ex_loc a_enc_path) with Some (v, older) => saves v (ex_loc a_enc_path) /\ password (own (v_obj v) older) = Some ex_pw | None => False end /\
    match step (with_room 1000) (os 0%nat) f ODecrypt with (_, Ret (_, RData (mkFD _ (Some b)))) => bdata b = stale_data | _ => False end)) as (tr & os & f & S & F & A & B & C & D).
  { apply (sys_example Release ex_hashes ex_loc ex_files stale_run (fun o => not_encrypted stale_data o /\ full_blocks o)).
    - exact ex_files_ok.
    - unfold stale_run, reading; cbn [map app]; turns_ok.
    - unfold stale_run, reading; cbn [map app]; unfold turn. repeat apply Forall_cons; try apply Forall_nil; (split; [|exact I]); try exact I. vm_compute. discriminate.
    - vm_compute. split; [reflexivity|]. split; [reflexivity|]. split; [|reflexivity]. split; [|reflexivity]. split; [left; reflexivity|]. split; reflexivity. }
  exists tr, os, f, 0%nat, a_enc_path, ex_pw. split; [exact S|]. exists stale_data. split; [exact F|].
  split; [exists ex_head, ex_file, (bdata ex_data); split; [reflexivity|split; [exact ex_file_ok|vm_compute; discriminate]]|].
  split; [exact A|]. split; [exact B|]. split.
  - destruct (newest ex_loc tr (ex_loc a_enc_path)) as [[v older]|]; [|contradiction]. exists v, older. split; [reflexivity|exact C].
  - exists (with_room 1000). destruct (step (with_room 1000) (os 0%nat) f ODecrypt) as [f' [[a' [| | | |[m [y|]]| |]]| | |]]; try contradiction.
    exists f', a', m, y. split; [apply with_room_ok|]. split; [reflexivity|]. split; [reflexivity|exact D].
Qed.
Print Assumptions C78_stale_read_refuted.

(** C79 *)
Theorem C79_empty_block_written : forall H, hashes_ok H -> forall bd mode tr a w f o p f' a',
  history bd H mode tr a -> world_ok bd H w -> fs_ok f -> (o = OWrite \/ o = OWriteTo p) -> step w a f o = (f', Ret (a', ROk)) ->
  exists q h c, target tr o = Some q /\ current H tr h /\ f' (w_loc w q) = Some (takeN (w_room w) c) /\
    (~ no_empty_block h -> lenN c <= w_room w -> forall w2, world_ok bd H w2 -> w_loc w2 q = w_loc w q -> enc_path q -> w_stat w2 q = true -> w_read w2 q = true ->
       step w2 (fresh 1) f' (OSelect q) = (f', Crash Terminate) /\
       forall dir l1 n l2 k, dir <> [] -> w_dir w2 dir = Entries (l1 ++ (n, true) :: l2) -> enc_path n -> join dir n = q ->
         looked_at_in l1 k -> k < 2 ^ 31 -> harmless w2 f' dir l1 -> step w2 (fresh 1) f' (OList dir) = (f', Crash Terminate)).
Proof. exact empty_block_written. Qed.
Print Assumptions C79_empty_block_written.
Theorem C79_new_file_with_empty_block : forall H, hashes_ok H -> forall bd ws p l f ds pw data t it1 it2,
  (forall i, at_hand bd H (ws i) p l) -> enc_path p -> w_create (ws 0%nat) p = true -> fs_ok f -> f l = None ->
  settings_made ds -> settings_complete ds -> lenN (s_dec ds) <= 255 -> lenN (s_enc ds) <= 255 -> Exists (fun b => bdata (db_data b) = []) (s_dec ds) ->
  s_n1 ds = Some it1 -> s_n2 ds = Some it2 -> t < 2 ^ 64 -> create_in_time (ws 2%nat) t it1 it2 ->
  getLen data < 2 ^ 31 -> patient (ws 3%nat) (getLen data) -> (forall h, created H (ws 2%nat) ds pw h -> hdr_len h + getLen data <= w_room (ws 4%nat)) ->
  exists a' f', calls [(ws 0%nat, OCreate p); (ws 1%nat, OSelect p); (ws 2%nat, OHeader pw ds t); (ws 3%nat, OEncrypt (text data)); (ws 4%nat, OWrite)] (fresh 1) f =
      Some ([ROk; ROk; ROk; ROk; ROk], a', f') /\ step (ws 5%nat) (fresh 1) f' (OSelect p) = (f', Crash Terminate).
Proof. exact vault_lost. Qed.
Print Assumptions C79_new_file_with_empty_block.
(** a block that was never given any data *)
Definition empty_ds : dhsettings := mkSet (Some 1) (Some 1) (Some 3) (Some 2) (Some 2) (Some 3) [ex_block; db_default] [].
Example C79_ex : settings_made empty_ds /\ settings_complete empty_ds /\ Exists (fun b => bdata (db_data b) = []) (s_dec empty_ds) /\ create_in_time (with_room 1000) 0 2 3 /\
  (forall h, created ex_hashes (with_room 1000) empty_ds ex_pw h -> hdr_len h + getLen ex_data <= w_room (with_room 1000)) /\
  (exists tr a, history Release ex_hashes 1 tr a /\
    match step (with_room 1000) a ex_files OWrite with
    | (f', Ret (_, ROk)) => f' (ex_loc a_enc_path) <> None /\ match step ex_world (fresh 1) f' (OSelect a_enc_path) with (_, Crash Terminate) => True | _ => False end
    | _ => False
    end).
Proof.
  assert (settings_made empty_ds) as Sm.
  { split; [exists [SFile 1; SHash 1; SCh1 3; SCh2 2; SN1 2; SN2 3]; reflexivity|]. split; [|constructor]. constructor; [|constructor; [apply bm_default|constructor]].
    apply (bm_new 7 (mkBytes [x61; x62] 2)); [reflexivity|vm_compute; reflexivity]. }
  split; [exact Sm|]. split; [unfold settings_complete; cbn; repeat split; discriminate|]. split; [right; left; reflexivity|]. split; [|split].
  - split; [|split]; [intros (X & _); apply X; reflexivity|congruence|intros (X & _); apply X; reflexivity].
  - intros h (A & B & (m & n & X1 & X2 & X3) & (m' & n' & Y1 & Y2 & Y3) & S & Bl & En & O). injection B as B. injection X1 as <-. injection X2 as <-. injection Y1 as <-. injection Y2 as <-.
    unfold hdr_len. rewrite X3, Y3, Bl, En, <- B. vm_compute. discriminate.
  - apply (play_example Release ex_hashes (ex_calls (opening ++ [OHeader ex_pw2 empty_ds 0; OEncrypt (text ex_data)]))).
    + unfold ex_calls, opening; cbn [map app].
      repeat (apply Forall_cons; [split; [exact ex_world_ok|split; [exact ex_files_ok|first [split; [exact Sm|vm_compute; reflexivity]|op_tac]]]|]); apply Forall_nil.
    + vm_compute. split; [discriminate|exact I].
Qed.
