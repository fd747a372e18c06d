(** Lemmas for C97: the lines that show a check value are below Info. *)
From Coq Require Import Strings.String.
From Coq Require Import Lia.
From Verif Require Import Base BytesModel MiscModel CipherModel PwModel ChModel HeaderModel HeaderSpec FileModel ApiModel ApiSpec LogModel LogSpec LogFacts1 LogFacts4.
Open Scope N_scope.
Open Scope list_scope.

(** ** Every line of a call has a property *)
Definition emits {A} (P : line -> Prop) (m : logm A) : Prop := Forall P (fst m).
Section Emits.
  Context (P : line -> Prop).
  Lemma em_silent {A} (m : outcome A) : emits P (silent m).
  Proof. constructor. Qed.
  Lemma em_bind {A B} (m : logm A) (k : A -> logm B) : emits P m -> (forall x, emits P (k x)) -> emits P (bindl m k).
  Proof. intros M K. unfold emits, bindl. destruct (snd m); cbn; auto. apply Forall_app. split; [exact M | apply K]. Qed.
  Lemma em_say l : P l -> emits P (say l).
  Proof. intro H. constructor; [exact H | constructor]. Qed.
  Lemma em_noexcept {A} (m : logm A) : emits P m -> emits P (noexcept_l m).
  Proof. exact (fun H => H). Qed.
  Lemma em_lift {A} (m : logm A) : emits P m -> emits P (lift_l m).
  Proof. exact (fun H => H). Qed.
  Lemma em_ok {A} (x : A) : emits P (ok x).
  Proof. constructor. Qed.
  Lemma em_err {A} ls e : Forall P ls -> emits P (A := lerr + A) (err ls e).
  Proof. exact (fun H => H). Qed.
  Lemma em_bindr {A B} (m : lres A) (k : A -> lres B) : emits P m -> (forall x, emits P (k x)) -> emits P (bindr m k).
  Proof. intros M K. apply em_bind; [exact M | ]. intros [e|x]; [apply em_err; constructor | apply K]. Qed.
  Lemma em_try {A} h (m : logm A) : emits P m -> (forall e ls r, h e = Some (ls, r) -> Forall P ls) -> emits P (try_l h m).
  Proof. intros M H. unfold emits, try_l. destruct (snd m); cbn; auto. destruct (h e) as [[ls r]|] eqn:E; cbn; auto. apply Forall_app. eauto. Qed.
  Lemma em_catch {A} h (m : lres A) : emits P m -> (forall e ls r, h e = Some (ls, r) -> Forall P ls) -> emits P (catch_l h m).
  Proof. intros M H. unfold emits, catch_l. destruct (snd m); cbn; auto. destruct (h e) as [[ls r]|] eqn:E; cbn; auto. apply Forall_app. eauto. Qed.
  Lemma em_onerr {A} g (m : lres A) : emits P m -> (forall e, Forall P (g e)) -> emits P (onerr g m).
  Proof. intros M H. unfold emits, onerr. destruct (snd m) as [[e|x]| | |]; cbn; auto. apply Forall_app. auto. Qed.
  Lemma em_std ls c i e l r : (forall e, Forall P (ls e)) -> handle_std ls c i e = Some (l, r) -> Forall P l.
  Proof. intros H E. destruct e; cbn in E; try discriminate; injection E as <- <-; apply H. Qed.
  Lemma em_inv ls c i e l r : (forall e, Forall P (ls e)) -> handle_invalid ls c i e = Some (l, r) -> Forall P l.
  Proof. intros H E. destruct e; cbn in E; try discriminate; injection E as <- <-; apply H. Qed.
  Lemma em_inv_or ls c i ls' c' e l r : (forall e, Forall P (ls e)) -> (forall e, Forall P (ls' e)) -> handle_invalid_or ls c i ls' c' e = Some (l, r) -> Forall P l.
  Proof. intros H H' E. destruct e; cbn in E; try discriminate; injection E as <- <-; first [apply H | apply H']. Qed.
End Emits.

Lemma safe_low e : safe (low e).
Proof. intro H; discriminate. Qed.
Lemma safe_lines {A} (m : outcome A) : Forall safe (low_lines m).
Proof. destruct m; cbn; repeat constructor. apply safe_low. Qed.
Ltac sf := match goal with |- safe _ => let H := fresh in intro H; first [discriminate H | reflexivity] end.
Ltac el := repeat first [ apply safe_lines | apply safe_low | assumption
  | match goal with |- Forall _ [] => constructor | |- Forall _ (_ :: _) => constructor | |- Forall _ (_ ++ _) => apply Forall_app; split
    | |- Forall _ (fst _) => cbn [fst] | |- Forall _ (if ?b then _ else _) => destruct b | |- Forall _ (match ?x with _ => _ end) => destruct x | |- safe _ => sf end ].
Lemma sa_trouble {A} (m : outcome A) : emits safe (trouble m).
Proof. apply safe_lines. Qed.
Lemma sa_getHash H m : emits safe (getHash_l H m).
Proof. unfold emits, getHash_l; cbn [fst]; el. Qed.
Lemma sa_newFormat m : emits safe (newFormat_l m).
Proof. unfold emits, newFormat_l; el. Qed.
Lemma sa_validate m d i : Forall safe (validate_lines m d i).
Proof. unfold validate_lines; el. Qed.
Lemma sa_newChainHash m i d : emits safe (newChainHash_l m i d).
Proof. unfold emits, newChainHash_l; el; apply sa_validate. Qed.
Lemma sa_assign c d : emits safe (ch_assign_l c d).
Proof. unfold emits, ch_assign_l; el; apply sa_validate. Qed.
Lemma sa_perform n c t wn r : (forall m, safe (wn m)) -> Forall safe (perform_lines n c t wn r).
Proof. intro W. unfold perform_lines; el; apply W. Qed.
Lemma sa_perform_s h clk c x t : emits safe (performChainHash_sl h clk c x t).
Proof. apply sa_perform. intro m. sf. Qed.
Lemma sa_perform_b h clk c x t : emits safe (performChainHash_bl h clk c x t).
Proof. apply sa_perform. intro m. sf. Qed.
Lemma sa_complete d : Forall safe (complete_lines d).
Proof. unfold complete_lines; el. Qed.
Lemma sa_setHashMode m p : emits safe (p_setHashMode_l m p).
Proof. unfold emits, p_setHashMode_l; el. Qed.
Lemma sa_newDataHeader r m : emits safe (newDataHeader_l r m).
Proof. unfold emits, newDataHeader_l; el. Qed.
Lemma sa_ch1 c d : emits safe (setChainHash1_l c d).
Proof. unfold emits, setChainHash1_l, set_chain_lines; cbn [fst]. constructor; [sf | ]. destruct (ch_val c); [apply sa_assign | el]. Qed.
Lemma sa_ch2 c d : emits safe (setChainHash2_l c d).
Proof. unfold emits, setChainHash2_l, set_chain_lines; cbn [fst]. constructor; [sf | ]. destruct (ch_val c); [apply sa_assign | el]. Qed.
Lemma sa_setFileMode m d : emits safe (d_setFileDataMode_l m d).
Proof. unfold emits, d_setFileDataMode_l; el. Qed.
Lemma sa_setValid b d : emits safe (setValid_l b d).
Proof. unfold emits, setValid_l; el. Qed.
Lemma sa_setSalt b d : emits safe (d_setEncSalt_l b d).
Proof. unfold emits, d_setEncSalt_l; el. Qed.
Lemma sa_setFileSize n d : emits safe (setFileSize_l n d).
Proof. unfold emits, setFileSize_l; el; apply sa_complete. Qed.
Lemma sa_setDataSize n d : emits safe (setDataSize_l n d).
Proof. unfold emits, setDataSize_l; el; apply sa_complete. Qed.
Lemma sa_calc d r : Forall safe (calc_lines d r).
Proof. unfold calc_lines; el; apply sa_complete. Qed.
Lemma sa_calc_plain d : emits safe (calc_plain_l d).
Proof. apply sa_calc. Qed.
Lemma sa_parts d : emits safe (getDataHeaderParts_l d).
Proof. unfold emits, getDataHeaderParts_l; el; apply sa_complete. Qed.
Ltac hd := intros ? ? ?; first [apply em_std | apply em_inv | apply em_inv_or]; intros; el.
Ltac em1 := match goal with
  | |- emits _ (silent _) => apply em_silent | |- emits _ (noexcept_l _) => apply em_noexcept | |- emits _ (ok _) => apply em_ok
  | |- emits _ (trouble _) => apply sa_trouble | |- emits _ (lift_l _) => apply em_lift | |- emits _ (say _) => apply em_say; sf
  | |- emits _ (err _ _) => apply em_err; el
  | |- emits _ (try_l _ _) => apply em_try; [ | hd] | |- emits _ (catch_l _ _) => apply em_catch; [ | hd]
  | |- emits _ (onerr _ _) => apply em_onerr; [ | intros; el]
  | |- emits _ (bindr _ _) => apply em_bindr; [ | intro] | |- emits _ (bindl _ _) => apply em_bind; [ | intro]
  | |- emits _ (if ?b then _ else _) => destruct b | |- emits _ (match ?x with _ => _ end) => destruct x | |- emits _ (_, Ret _) => unfold emits; el
  | |- _ => first [ apply sa_getHash | apply sa_newFormat | apply sa_newChainHash | apply sa_assign | apply sa_perform_s | apply sa_perform_b
    | apply sa_setHashMode | apply sa_newDataHeader | apply sa_ch1 | apply sa_ch2 | apply sa_setFileMode | apply sa_setValid | apply sa_setSalt
    | apply sa_setFileSize | apply sa_setDataSize | apply sa_calc_plain | apply sa_parts ] end.
Ltac em := repeat (cbv beta zeta; em1).
Lemma sa_setParts r p : emits safe (setHeaderParts_l r p).
Proof. unfold setHeaderParts_l. em. Qed.

Lemma sa_site n fs : n <> 74 -> safe (dh_error n fs).
Proof. intros D H. unfold shows_check in H. cbn [dh_error l_src l_no] in H. exfalso. apply D. destruct n as [|p]; [discriminate | ]. do 8 (try (destruct p; try discriminate)). reflexivity. Qed.
Lemma sa_read1 n s : n <> 74 -> emits safe (read1_l n s).
Proof. intro D. unfold read1_l. destruct (read1 s); [apply em_ok | apply em_err]. constructor; [sf | ]. constructor; [apply sa_site, D | constructor]. Qed.
Lemma sa_readBytes n c k s : n <> 74 -> emits safe (readBytes_l n c k s).
Proof. intro D. unfold readBytes_l. destruct (readBytes c k s); [apply em_ok | apply em_err]. constructor; [sf | ]. constructor; [apply sa_site, D | constructor]. Qed.
Lemma sa_read8 n s : n <> 74 -> emits safe (read8_l n s).
Proof. intro D. unfold read8_l. apply em_bindr; [apply sa_readBytes, D | intros [b r]]. em. Qed.
Ltac rd := first [apply sa_read1 | apply sa_readBytes | apply sa_read8]; first [discriminate | assumption].
Ltac emr := repeat (cbv beta zeta; first [rd | em1]).
Lemma sa_blocks k : forall d s, emits safe (s_blocks_l k d s).
Proof. induction k as [|k IH]; intros d s; cbn [s_blocks_l]; [apply em_ok | ]. repeat (cbv beta zeta; first [apply IH | rd | em1]). Qed.
Lemma sa_encs k : forall d s, emits safe (s_encs_l k d s).
Proof. induction k as [|k IH]; intros d s; cbn [s_encs_l]; [apply em_ok | ]. repeat (cbv beta zeta; first [apply IH | rd | em1]). Qed.
Definition sites_ok (cs : chain_sites) : Prop :=
  cs_mode cs <> 74 /\ cs_format cs <> 74 /\ cs_format_other cs <> 74 /\ cs_iters cs <> 74 /\ cs_blocklen cs <> 74 /\
  cs_short cs <> 74 /\ cs_part_invalid cs <> 74 /\ cs_part_done cs <> 74 /\ cs_part_other cs <> 74 /\ cs_invalid cs <> 74 /\ cs_other cs <> 74.
Lemma sa_short cs : sites_ok cs -> Forall safe (fst (short_end cs)).
Proof. intro S. constructor; [apply sa_site, S | constructor]. Qed.
Lemma sa_handler cs t e ls r : sites_ok cs -> part_handler_l cs t e = Some (ls, r) -> Forall safe ls.
Proof.
  intros S H. destruct e; cbn in H; try discriminate; injection H as <- <-; try (constructor; [apply sa_site, S | constructor]).
Qed.
Lemma sa_readPart cs k s : sites_ok cs -> emits safe (readPart_l cs k s).
Proof. intro S. unfold readPart_l. destruct (readBytes 255 k s); [apply em_ok | apply em_err]. constructor; [sf | apply sa_short, S]. Qed.
Lemma sa_partsl bd cs nls : sites_ok cs -> forall lb n c s, emits safe (s_parts_l bd cs nls lb n c s).
Proof.
  intro S. induction nls as [|[nm len] r IH]; intros lb n c s; cbn [s_parts_l]; [apply em_ok | ].
  destruct (negb _); (apply em_bindr; [apply sa_readPart, S | intros [b s']]; apply em_bindr; [apply em_try; [apply sa_trouble | intros e ls q; apply sa_handler, S] | intro c']); [apply IH | apply em_ok].
Qed.
Lemma sa_assertl bd b : emits safe (assert_l bd b).
Proof. constructor. Qed.
Ltac one := constructor; [apply sa_site; tauto | constructor].
Lemma sa_chain bd cs code set d s : sites_ok cs -> (forall c d, emits safe (set c d)) -> emits safe (s_chain_l bd cs code set d s).
Proof.
  intros S SET. pose proof S as (S1 & S2 & S3 & S4 & S5 & S6 & S7 & S8 & S9 & S10 & S11). unfold s_chain_l.
  apply em_bindr; [apply sa_read1; assumption | intros [m s1]].
  apply em_bindr; [apply em_try; [apply sa_newFormat | intros ? ? ?; apply em_inv_or; intro; one] | intro f].
  apply em_bindr; [apply sa_read8; assumption | intros [it s2]].
  apply em_bindr; [apply sa_read1; assumption | intros [lb s3]].
  apply em_bindr; [apply sa_partsl, S | intros [[dl c] s4]].
  do 2 (apply em_bindr; [apply sa_assertl | intro]).
  apply em_bindr; [apply em_try; [apply em_bind; [apply sa_newChainHash | intro; apply SET] | intros ? ? ?; apply em_inv_or; intro; one] | intro d1]. apply em_ok.
Qed.
Lemma ok1 : sites_ok sites1. Proof. repeat split; discriminate. Qed.
Lemma ok2 : sites_ok sites2. Proof. repeat split; discriminate. Qed.
Lemma sa_decode bd rnd file : emits safe (decode_stream_l bd rnd file).
Proof.
  unfold decode_stream_l.
  repeat (cbv beta zeta; first [apply sa_blocks | apply sa_encs | apply sa_chain; [apply ok1 | intros; apply sa_ch1] | apply sa_chain; [apply ok2 | intros; apply sa_ch2] | apply sa_assertl | rd | em1]).
Qed.
Lemma sa_path w f p b : emits safe (isValidPath_l w f p b).
Proof. unfold emits, isValidPath_l. cbn [fst]. el. Qed.
Lemma sa_create w f p : Forall safe (createFile_lines w f p).
Proof. unfold createFile_lines. cbv zeta. constructor; [sf | ]. apply Forall_app. split; [apply sa_path | el]. Qed.
Lemma sa_update c : Forall safe (update_lines c).
Proof. unfold update_lines. cbv zeta. el. Qed.
Lemma sa_newHandler w f p : emits safe (newFileHandler_l w f p).
Proof. unfold emits, newFileHandler_l. cbv zeta. cbn [fst]. apply Forall_app. split; [apply sa_path | ]. el. apply sa_update. Qed.
Lemma sa_getHeader w f i h : emits safe (fh_getDataHeader_l w f i h).
Proof. unfold fh_getDataHeader_l. apply em_noexcept, em_bindr; [apply sa_decode | intros [d s]; apply em_ok]. Qed.
Lemma sa_isHeader w f i m h : emits safe (fh_isDataHeader_l w f i m h).
Proof. unfold fh_isDataHeader_l. repeat (cbv beta zeta; first [apply sa_getHeader | em1]). Qed.
Lemma sa_write w f h : emits safe (write_stream_l w f h).
Proof. unfold emits, write_stream_l. cbv zeta. cbn [fst]. constructor; [sf | ]. apply Forall_app. split; [apply sa_path | el]. Qed.
Lemma sa_write_empty w f h : emits safe (write_stream_empty_l w f h).
Proof. unfold write_stream_empty_l. destruct (fh_empty h); [apply sa_write | em]. Qed.
Lemma sa_allBytes w f h : emits safe (getAllBytes_l w f h).
Proof. unfold emits, getAllBytes_l. cbn [fst]. el. Qed.
Lemma sa_getFileHandler w f p : emits safe (getFileHandler_l w f p).
Proof. unfold getFileHandler_l. repeat (cbv beta zeta; first [apply sa_path | apply sa_newHandler | em1]). Qed.
Lemma sa_chains w ds : emits safe (newChains_l w ds).
Proof. unfold newChains_l. em. Qed.
Lemma sa_createHeader w m pw ds t : emits safe (createHeaderIters_l w m pw ds t).
Proof. unfold createHeaderIters_l. repeat (cbv beta zeta; first [apply sa_chains | apply sa_setParts | em1]). Qed.
Lemma sa_check w d pw t : emits safe (checkPassword_l w d pw t).
Proof. unfold checkPassword_l. em. Qed.
Lemma sa_verify w a pw t : emits safe (verifyPassword_l w a pw t).
Proof. unfold verifyPassword_l. repeat (cbv beta zeta; first [apply sa_check | em1]). Qed.
Lemma sa_state s : safe (state_line s).
Proof. sf. Qed.
Lemma sa_select w a f p : emits safe (selectFile_l w a f p).
Proof. unfold selectFile_l. repeat (cbv beta zeta; first [apply sa_getFileHandler | apply sa_getHeader | em1]). Qed.
Lemma sa_loop w f m dir ns : forall i ret, emits safe (relevant_loop_l w f i m dir ns ret).
Proof.
  induction ns as [|n ns IH]; intros i ret; cbn [relevant_loop_l]; [apply em_silent | ].
  assert (forall i r, emits safe (count_up_l i (relevant_loop_l w f (S i) m dir ns r))) as IH' by (intros i0 r0; unfold count_up_l; destruct (N.of_nat i0 =? INT_MAX); [apply em_silent | apply IH]).
  repeat (cbv beta zeta; first [apply IH' | apply sa_getFileHandler | apply sa_isHeader | em1]).
Qed.
Lemma sa_names w f m dir : emits safe (getRelevantFileNames_l w f m dir).
Proof.
  unfold getRelevantFileNames_l. repeat (cbv beta zeta; first [apply sa_loop | em1]).
  unfold emits, getAllEncFileNames_l. cbv zeta. cbn [fst]. el.
Qed.
Lemma sa_headerEmpty a r : emits safe r -> emits safe (headerEmpty_l a r).
Proof. intro R. unfold headerEmpty_l. repeat (cbv beta zeta; first [exact R | em1]). Qed.
Lemma sa_headerDecrypted a r : emits safe r -> emits safe (headerDecrypted_l a r).
Proof. intro R. unfold headerDecrypted_l. repeat (cbv beta zeta; first [exact R | em1]). Qed.
Lemma sa_newchain k h x s : emits safe (new_chain_l k h x s).
Proof. unfold emits, new_chain_l. cbn [fst]. destruct (new_chain k h x s) eqn:E; cbn; repeat constructor; destruct k; sf. Qed.
Lemma sa_add n r : emits safe (add_l n r).
Proof. unfold emits, add_l. cbn [fst]. el. Qed.
Lemma sa_getResult c : emits safe (getResult_l c).
Proof. unfold emits, getResult_l. cbn [fst]. el. Qed.
Lemma sa_decrypt w a f : emits safe (getDecryptedData_l w a f).
Proof. unfold getDecryptedData_l, decryptBody_l. repeat (cbv beta zeta; first [apply sa_newchain | apply sa_add | apply sa_getResult | em1]). Qed.
Lemma sa_encrypt w a x : emits safe (encryptData_l w a x).
Proof. unfold encryptData_l, encryptBody_l. repeat (cbv beta zeta; first [apply sa_newchain | apply sa_add | apply sa_getResult | apply sa_calc | em1]). Qed.
Lemma sa_salt w a : emits safe (changeSalt_l w a).
Proof. unfold changeSalt_l. repeat (cbv beta zeta; first [apply sa_setParts | em1]). Qed.
Lemma sa_finish a : Forall safe (finish_lines a).
Proof. unfold finish_lines. el. Qed.
Lemma sa_writePath w a f p : Forall safe (writeToPath_lines w a f p).
Proof.
  unfold writeToPath_lines. cbv zeta. constructor; [sf | ]. apply Forall_app. split; [apply sa_getFileHandler | ].
  destruct (snd (getFileHandler_l w f p)) as [[e|h]| | |]; el; [apply sa_write_empty | apply sa_finish].
Qed.
Lemma sa_writeFile w a f : Forall safe (writeToFile_lines w a f).
Proof. unfold writeToFile_lines. destruct (a_file a) as [h|]; [ | constructor]. cbv zeta. constructor; [sf | ]. apply Forall_app. split; [apply sa_write | ]. el. apply sa_finish. Qed.
Lemma sa_content w a f : emits safe (getFileContent_l w a f).
Proof. unfold getFileContent_l. repeat (cbv beta zeta; first [apply sa_allBytes | em1]). Qed.
Lemma sa_unselect n a : Forall safe (unselect_lines n a).
Proof. unfold unselect_lines. el. Qed.
Lemma sa_delete w n m a f : Forall safe (delete_lines w n m a f).
Proof. unfold delete_lines. el. apply sa_unselect. Qed.
Theorem lines_safe w a f o : Forall safe (lines_of w a f o).
Proof.
  destruct o; cbn [lines_of]; unfold fileData_lines, time_lines; el;
    first [apply sa_names | apply sa_create | apply sa_select | apply sa_unselect | apply sa_delete | apply sa_content | apply sa_verify
          | apply sa_headerEmpty, sa_createHeader | apply sa_headerDecrypted, sa_createHeader | apply sa_salt | apply sa_decrypt | apply sa_encrypt | apply sa_writeFile | apply sa_writePath].
Qed.
Lemma session_safe calls : forall a ls rs b, session calls a = Some (ls, rs, b) -> Forall safe ls.
Proof.
  induction calls as [|[[w f] o] r IH]; intros a ls rs b S; cbn [session] in S; [injection S as <- _ _; constructor | ].
  destruct (snd (step w a f o)) as [[a' x]| | |]; try discriminate. destruct (session r a') as [[[l2 x2] c]|] eqn:Q; try discriminate.
  injection S as <- _ _. apply Forall_app. split; [apply lines_safe | eapply IH, Q].
Qed.
Theorem info_hides calls calls' a b ls rs a1 ls' rs' b1 : Forall2 calls_like calls calls' -> api_like a b ->
  Forall (fun c => hashes_ok (w_hashes (fst (fst c)))) calls ->
  session calls a = Some (ls, rs, a1) -> session calls' b = Some (ls', rs', b1) -> Forall2 reply_like rs rs' ->
  filter (at_least SInfo) ls = filter (at_least SInfo) ls'.
Proof.
  intros F L HO S1 S2 R. rewrite <- (visible_hide ls), <- (visible_hide ls'); [ | eapply session_safe, S2 | eapply session_safe, S1].
  f_equal. exact (proj1 (session_hides _ _ _ _ _ _ _ _ _ _ F L HO S1 S2 R)).
Qed.
