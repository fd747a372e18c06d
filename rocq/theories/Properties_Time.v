(** C112: what time-based header creation would do if the statement that kills it were mended. *)
From Coq Require Import Strings.Byte Lia.
From Verif Require Import Base BytesModel CipherModel ChModel HeaderModel HeaderSpec FileModel ApiModel ApiSpec TimeModel TimeSpec TimeFacts Properties_Header Properties_File Properties_Api.

(** no header comes out, whatever the settings and clocks *)
Theorem C112_no_header : forall w clks1 clks2 fuel mode pw ds x, headerTimeRest w clks1 clks2 fuel mode pw ds <> dret x.
Proof. exact rest_no_header. Qed.
Print Assumptions C112_no_header.
(** the second chain hash is not reached: its clock makes no difference *)
Theorem C112_second_unused : forall w clks1 clks2 fuel mode pw ds clks3,
  headerTimeRest w clks1 clks2 fuel mode pw ds = headerTimeRest w clks1 clks3 fuel mode pw ds.
Proof. exact rest_second. Qed.
Print Assumptions C112_second_unused.
(** the only reported error is that of an object for another kind of file *)
Theorem C112_other_mode : forall w clks1 clks2 fuel mode pw ds, time_settings_made ds -> settings_complete ds -> mode <> 1 ->
  headerTimeRest w clks1 clks2 fuel mode pw ds = dfail ERR_FILEMODE_INVALID.
Proof. exact rest_mode. Qed.
Print Assumptions C112_other_mode.
(** otherwise the first chain hash ends the process or goes on *)
Theorem C112_outcome : forall w clks1 clks2 fuel, hashes_ok (w_hashes w) -> (forall i k, lenN (w_rnd w i k) = k) ->
  forall pw ds, time_settings_made ds -> settings_complete ds ->
  headerTimeRest w clks1 clks2 fuel 1 pw ds = Crash Terminate \/ headerTimeRest w clks1 clks2 fuel 1 pw ds = OutOfFuel.
Proof. exact rest_outcome. Qed.
Print Assumptions C112_outcome.
(** and it ends the process once the chosen time has run out *)
Theorem C112_kills : forall w clks1 clks2 fuel, hashes_ok (w_hashes w) -> (forall i k, lenN (w_rnd w i k) = k) ->
  forall pw ds t k, time_settings_made ds -> settings_complete ds -> s_n1 ds = Some t -> (forall j, runs_out (clks1 j) t k) ->
  1000 * (N.of_nat k + 1) <= N.of_nat fuel -> 1000 * (N.of_nat k + 1) < 2 ^ 64 ->
  headerTimeRest w clks1 clks2 fuel 1 pw ds = Crash Terminate.
Proof. exact rest_kills. Qed.
Print Assumptions C112_kills.

Definition ex_time : dhsettings := set_run 86400000 [SFile 1; SHash 2; SCh1 4; SCh2 1; SN1 86400001; SN1 2; SN2 86400000].
Example ex_time_ok : time_settings_made ex_time /\ settings_complete ex_time /\ s_n1 ex_time = Some 2.
Proof. split; [eexists; reflexivity|]. split; [repeat split; discriminate|reflexivity]. Qed.
Example C112_ex_mode : headerTimeRest ex_world (fun _ _ => 0) (fun _ _ => 0) 0 2 [x70] ex_time = dfail ERR_FILEMODE_INVALID.
Proof. apply C112_other_mode; [apply ex_time_ok|apply ex_time_ok|discriminate]. Qed.
Example C112_ex_kills : headerTimeRest ex_world (fun _ p => N.of_nat p) (fun _ _ => 0) (N.to_nat 3000) 1 [x70] ex_time = Crash Terminate.
Proof.
  apply (C112_kills ex_world _ _ _ ex_hashes_ok) with (t := 2) (k := 2%nat).
  - intros i k. apply zrnd_ok.
  - apply ex_time_ok.
  - apply ex_time_ok.
  - reflexivity.
  - intros j. split; [reflexivity|]. intros q Hq. lia.
  - rewrite N2Nat.id. reflexivity.
  - reflexivity.
Qed.
Example C112_ex_second : headerTimeRest ex_world (fun _ p => N.of_nat p) (fun _ p => 7 * N.of_nat p) (N.to_nat 3000) 1 [x70] ex_time = Crash Terminate.
Proof. rewrite (C112_second_unused _ _ _ _ _ _ _ (fun _ _ => 0)). exact C112_ex_kills. Qed.
(** with a clock that stands still it goes on for ever *)
Example C112_ex_runs : headerTimeRest ex_world (fun _ _ => 0) (fun _ _ => 0) (N.to_nat 20) 1 [x70] ex_time = OutOfFuel.
Proof. vm_compute. reflexivity. Qed.
