(** Lemmas for C97: what the calls that succeed log about the header. *)
From Coq Require Import Strings.String.
From Coq Require Import Lia.
From Verif Require Import Base BytesModel MiscModel CipherModel PwModel ChModel HeaderModel HeaderSpec HeaderFacts HeaderFacts2 FileModel ApiModel ApiSpec LogModel LogSpec LogFacts1.
Open Scope N_scope.
Open Scope list_scope.

(** ** Calls that succeed *)
Lemma bindl_inv {A B} (m : logm A) (k : A -> logm B) ls y : bindl m k = (ls, Ret y) -> exists l1 x l2, m = (l1, Ret x) /\ k x = (l2, Ret y) /\ ls = l1 ++ l2.
Proof.
  destruct m as [l [x|e|c|]]; unfold bindl; cbn; try discriminate. destruct (k x) as [l2 r] eqn:E. cbn. intro Q. injection Q as <- ->. eauto 6.
Qed.
Lemma bindr_inv {A B} (m : lres A) (k : A -> lres B) ls y : bindr m k = (ls, Ret (inr y)) -> exists l1 x l2, m = (l1, Ret (inr x)) /\ k x = (l2, Ret (inr y)) /\ ls = l1 ++ l2.
Proof. intro E. apply bindl_inv in E as (l1 & [e|x] & l2 & E1 & E2 & ->); [discriminate | eauto 6]. Qed.
Lemma try_inv {A} h (m : logm A) ls y : try_l h m = (ls, Ret (inr y)) -> m = (ls, Ret y).
Proof. destruct m as [l [x|e|c|]]; unfold try_l; cbn; try discriminate; [intro Q; injection Q as <- <-; reflexivity | destruct (h e) as [[? ?]|]; discriminate]. Qed.
Lemma catch_inv {A} h (m : lres A) ls y : catch_l h m = (ls, Ret (inr y)) -> m = (ls, Ret (inr y)).
Proof. destruct m as [l [x|e|c|]]; unfold catch_l; cbn; auto; destruct (h e) as [[? ?]|]; discriminate. Qed.
Lemma onerr_inv {A} g (m : lres A) ls y : onerr g m = (ls, Ret (inr y)) -> m = (ls, Ret (inr y)).
Proof. destruct m as [l [[e|x]|e|c|]]; unfold onerr; cbn; auto; discriminate. Qed.
Lemma lift_inv {A} (m : logm A) ls y : lift_l m = (ls, Ret (inr y)) -> m = (ls, Ret y).
Proof. destruct m as [l [x|e|c|]]; unfold lift_l; cbn; try discriminate. intro Q; injection Q as <- <-; reflexivity. Qed.
Lemma noexcept_l_inv {A} (m : logm A) ls y : noexcept_l m = (ls, Ret y) -> m = (ls, Ret y).
Proof. destruct m as [l [x|e|c|]]; unfold noexcept_l; cbn; try discriminate; auto. Qed.
Lemma trouble_inv {A} (m : outcome A) ls y : trouble m = (ls, Ret y) -> m = Ret y /\ ls = [].
Proof. destruct m; unfold trouble; cbn; intro Q; inversion Q; auto. Qed.
Lemma silent_inv {A} (m : outcome A) ls y : silent m = (ls, Ret y) -> m = Ret y /\ ls = [].
Proof. unfold silent. intro Q; inversion Q; auto. Qed.
Lemma ok_inv {A} (x : A) ls y : ok x = (ls, Ret (inr y)) -> x = y /\ ls = [].
Proof. unfold ok. intro Q; inversion Q; auto. Qed.
Lemma err_inv {A} l e ls (y : A) : err l e = (ls, Ret (inr y)) -> False.
Proof. discriminate. Qed.

Lemma check_quiet m d i : ch_check m d i = true -> validate_lines m d i = [].
Proof. unfold ch_check, validate_lines. destruct m, d; try discriminate. destruct (negb _); [discriminate | ]. destruct (negb _); [discriminate | ]. destruct (_ <? _); [discriminate | reflexivity]. Qed.
Lemma check_complete m d i : ch_check m (Some d) i = true -> cd_complete d = true.
Proof. unfold ch_check. destruct m; try discriminate. destruct (negb _); [discriminate | ]. unfold cd_completedFormat. destruct (cd_complete d); [reflexivity | ]. rewrite Bool.andb_false_r. discriminate. Qed.
(** what an assignment makes of a chain hash, if the result is valid *)
Lemma assign_inv this c c' x : ch_assign this c = Ret c' -> chain_of c' = Some x -> ch_val c = true -> fst (ch_assign_l this c) = [] /\ chain_fields c = chain_shown x.
Proof.
  intros E C V. unfold ch_assign_l. cbn [fst]. rewrite E. unfold ch_assign, ch_getMode, ch_getIters in E.
  destruct c as [m d i v]. cbn in V. subst v. cbn in E. destruct m as [m|]; [ | discriminate]. cbn in E.
  destruct (ch_mode_valid m); [ | discriminate]. cbn in E. injection E as <-. unfold chain_of, ch_revalidate in *. cbn [ch_val ch_mode ch_data ch_iters] in *.
  destruct (ch_check (Some m) d i) eqn:K; [ | discriminate]. split; [apply check_quiet, K | ].
  destruct d as [d|]; [ | discriminate]. injection C as <-. unfold chain_fields, chain_shown. cbn. rewrite (check_complete _ _ _ K). reflexivity.
Qed.
Lemma set1_inv c d ls d' : setChainHash1_l c d = (ls, Ret d') -> exists c', d_parts d' = p_setCh1 c' (d_parts d) /\
  forall x, chain_of c' = Some x -> ls = [dh 43 (chain_shown x)].
Proof.
  unfold setChainHash1_l, setChainHash1, set_chain_lines. destruct (ch_val c) eqn:V; [ | intro Q; inversion Q]. cbn [negb].
  destruct (ch_assign (p_ch1 (d_parts d)) c) as [c'| | |] eqn:A; cbn [bind]; try (intro Q; inversion Q; fail). intro Q. pose proof (f_equal snd Q) as Q2. apply (f_equal fst) in Q. cbn [fst snd] in Q, Q2. injection Q2 as <-. rewrite <- Q.
  exists c'. split; [reflexivity | ]. intros x C. destruct (assign_inv _ _ _ _ A C V) as [-> ->]. reflexivity.
Qed.
Lemma set2_inv c d ls d' : setChainHash2_l c d = (ls, Ret d') -> exists c', d_parts d' = p_setCh2 c' (d_parts d) /\
  forall x, chain_of c' = Some x -> ls = [dh 55 (chain_shown x)].
Proof.
  unfold setChainHash2_l, setChainHash2, set_chain_lines. destruct (ch_val c) eqn:V; [ | intro Q; inversion Q]. cbn [negb].
  destruct (ch_assign (p_ch2 (d_parts d)) c) as [c'| | |] eqn:A; cbn [bind]; try (intro Q; inversion Q; fail). intro Q. pose proof (f_equal snd Q) as Q2. apply (f_equal fst) in Q. cbn [fst snd] in Q, Q2. injection Q2 as <-. rewrite <- Q.
  exists c'. split; [reflexivity | ]. intros x C. destruct (assign_inv _ _ _ _ A C V) as [-> ->]. reflexivity.
Qed.
Lemma new_inv rnd m ls d : newDataHeader_l rnd m = (ls, Ret d) -> p_hmode (d_parts d) = Some m /\ ls = [dh 11 [Num m]; lookup m; lookup m].
Proof.
  unfold newDataHeader_l. intro Q. injection Q as <- E. rewrite E. unfold newDataHeader, p_setHashMode in E.
  destruct (hash_mode_valid m); [ | discriminate]. cbn [bind] in E. split; [ | reflexivity].
  destruct (fillrandom _ _) as [s| | |]; try discriminate. cbn [bind] in E. unfold p_setSalt in E. destruct (p_getHashSize _) as [n| | |]; try discriminate. cbn [bind] in E.
  destruct (n =? getLen s); [ | discriminate]. cbn in E. injection E as <-. reflexivity.
Qed.
Lemma setMode_inv m d ls d' : d_setFileDataMode_l m d = (ls, Ret d') -> d_parts d' = mkParts (p_hmode (d_parts d)) (Some m) (p_valid (d_parts d)) (p_salt (d_parts d)) (p_dec (d_parts d)) (p_enc (d_parts d)) (p_ch1 (d_parts d)) (p_ch2 (d_parts d)) /\ ls = [dh 67 [Num m]].
Proof.
  unfold d_setFileDataMode_l, d_setFileDataMode, p_setFileDataMode. destruct (file_mode_valid m); cbn; intro Q; inversion Q. auto.
Qed.
Lemma setValid_inv b d ls d' : setValid_l b d = (ls, Ret d') -> d_parts d' = mkParts (p_hmode (d_parts d)) (p_fmode (d_parts d)) (Some (copyBytes b)) (p_salt (d_parts d)) (p_dec (d_parts d)) (p_enc (d_parts d)) (p_ch1 (d_parts d)) (p_ch2 (d_parts d)) /\ ls = [dh 74 [Hex (bdata b)]].
Proof.
  unfold setValid_l. intro Q. injection Q as <- E. rewrite E. unfold setValidPasswordHashBytes, p_setValid in E. destruct (p_getHashSize _) as [n| | |]; try discriminate. cbn [bind] in E.
  destruct (n =? getLen b); [ | discriminate]. cbn in E. injection E as <-. auto.
Qed.
Lemma setSalt_inv b d ls d' : d_setEncSalt_l b d = (ls, Ret d') -> d_parts d' = mkParts (p_hmode (d_parts d)) (p_fmode (d_parts d)) (p_valid (d_parts d)) (Some (copyBytes b)) (p_dec (d_parts d)) (p_enc (d_parts d)) (p_ch1 (d_parts d)) (p_ch2 (d_parts d)) /\ ls = [dh 145 [Hex (bdata b)]].
Proof.
  unfold d_setEncSalt_l. intro Q. injection Q as <- E. rewrite E. unfold d_setEncSalt, p_setSalt in E. destruct (p_getHashSize _) as [n| | |]; try discriminate. cbn [bind] in E.
  destruct (n =? getLen b); [ | discriminate]. cbn in E. injection E as <-. auto.
Qed.
(** the six values that the lines show *)
Definition six (d : dheader) := (p_hmode (d_parts d), p_fmode (d_parts d), p_valid (d_parts d), p_salt (d_parts d), p_ch1 (d_parts d), p_ch2 (d_parts d)).
Lemma addAll_six l : forall d d', addAll l d = Ret d' -> six d' = six d.
Proof.
  induction l as [|b l IH]; intros d d' E; cbn in E; [injection E as <-; reflexivity | ]. unfold addDataBlock in E. destruct (_ <=? _); [discriminate | ]. cbn [bind] in E. rewrite (IH _ _ E). reflexivity.
Qed.
Lemma addAllEnc_six l : forall d d', addAllEnc l d = Ret d' -> six d' = six d.
Proof.
  induction l as [|b l IH]; intros d d' E; cbn in E; [injection E as <-; reflexivity | ]. unfold addEncDataBlock in E. destruct (_ <=? _); [discriminate | ]. cbn [bind] in E. rewrite (IH _ _ E). reflexivity.
Qed.
Ltac bl E := let l1 := fresh "ls" in let x := fresh "x" in let l2 := fresh "ls" in let E1 := fresh "E" in apply bindl_inv in E as (l1 & x & l2 & E1 & E & ->).
Ltac br E := let l1 := fresh "ls" in let x := fresh "x" in let l2 := fresh "ls" in let E1 := fresh "E" in apply bindr_inv in E as (l1 & x & l2 & E1 & E & ->).
Lemma setParts_log rnd p ls d h : setHeaderParts_l rnd p = (ls, Ret (inr d)) -> contents d = Some h -> ls = built_log h.
Proof.
  intros E C. unfold setHeaderParts_l in E. apply noexcept_l_inv, try_inv in E.
  apply bindl_inv in E as (? & hm & ? & E1 & E & ->). apply trouble_inv in E1 as [_ ->].
  apply bindl_inv in E as (? & d1 & ? & E1 & E & ->). apply new_inv in E1 as [P1 ->].
  apply bindl_inv in E as (? & fm & ? & E1 & E & ->). apply trouble_inv in E1 as [_ ->].
  apply bindl_inv in E as (? & d2 & ? & E1 & E & ->). apply setMode_inv in E1 as [P2 ->].
  apply bindl_inv in E as (? & d3 & ? & E1 & E & ->). apply set1_inv in E1 as (c1 & P3 & L1).
  apply bindl_inv in E as (? & d4 & ? & E1 & E & ->). apply set2_inv in E1 as (c2 & P4 & L2).
  apply bindl_inv in E as (? & v & ? & E1 & E & ->). apply trouble_inv in E1 as [_ ->].
  apply bindl_inv in E as (? & d5 & ? & E1 & E & ->). apply setValid_inv in E1 as [P5 ->].
  apply bindl_inv in E as (? & s & ? & E1 & E & ->). apply trouble_inv in E1 as [_ ->].
  apply bindl_inv in E as (? & d6 & ? & E1 & E & ->). apply setSalt_inv in E1 as [P6 ->].
  apply bindl_inv in E as (? & d7 & ? & E1 & E & ->). apply trouble_inv in E1 as [P7 ->]. apply trouble_inv in E as [P8 ->].
  apply addAll_six in P7. apply addAllEnc_six in P8. rewrite P7 in P8. unfold six in P8.
  destruct (contents_parts d h C) as (v' & s' & Ef & Eh & C1 & C2 & Ev & Bv & Es & Bs & _ & _).
  rewrite Ef, Eh, Ev, Es, P6, P5, P4, P3, P2 in P8. cbn in P8. rewrite P1 in P8. injection P8 as Q1 Q2 Q3 Q4 Q5 Q6.
  rewrite Q5 in C1. rewrite Q6 in C2. rewrite (L1 _ C1), (L2 _ C2). unfold built_log. rewrite <- Bv, <- Bs, Q3, Q4, <- Q1, <- Q2. reflexivity.
Qed.

(** ** The decoder *)
Lemma read1_inv n s ls x : read1_l n s = (ls, Ret (inr x)) -> ls = [].
Proof. unfold read1_l. destruct (read1 s); intro Q; inversion Q; reflexivity. Qed.
Lemma readBytes_inv n c k s ls x : readBytes_l n c k s = (ls, Ret (inr x)) -> ls = [].
Proof. unfold readBytes_l. destruct (readBytes c k s); intro Q; inversion Q; reflexivity. Qed.
Lemma readPart_inv cs k s ls x : readPart_l cs k s = (ls, Ret (inr x)) -> ls = [].
Proof. unfold readPart_l. destruct (readBytes 255 k s); intro Q; inversion Q; reflexivity. Qed.
Lemma read8_inv n s ls x : read8_l n s = (ls, Ret (inr x)) -> ls = [].
Proof.
  unfold read8_l. intro E. apply bindr_inv in E as (? & [b s1] & ? & E1 & E & ->). apply readBytes_inv in E1 as ->.
  apply bindr_inv in E as (? & k & ? & E1 & E & ->). apply lift_inv, trouble_inv in E1 as [_ ->]. apply ok_inv in E as [_ ->]. reflexivity.
Qed.
Lemma assertl_inv bd b ls x : assert_l bd b = (ls, Ret (inr x)) -> ls = [].
Proof. unfold assert_l. intro Q; inversion Q; reflexivity. Qed.
Lemma blocks_inv k : forall d s ls d' s', s_blocks_l k d s = (ls, Ret (inr (d', s'))) -> ls = [] /\ six d' = six d.
Proof.
  induction k as [|k IH]; intros d s ls d' s' E; cbn [s_blocks_l] in E; [apply ok_inv in E as [E ->]; injection E as <- <-; auto | ].
  apply bindr_inv in E as (? & [ty s1] & ? & E1 & E & ->). apply read1_inv in E1 as ->.
  apply bindr_inv in E as (? & [len s2] & ? & E1 & E & ->). apply read1_inv in E1 as ->.
  apply bindr_inv in E as (? & [data s3] & ? & E1 & E & ->). apply readBytes_inv in E1 as ->.
  apply bindr_inv in E as (? & d1 & ? & E1 & E & ->). apply lift_inv, trouble_inv in E1 as [E1 ->].
  destruct (IH _ _ _ _ _ E) as [-> S]. split; [reflexivity | ]. rewrite S. destruct (newDataBlock ty (mkBytes data len)); try discriminate. cbn [bind] in E1. exact (addAll_six [a] d d1 ltac:(cbn [addAll]; rewrite E1; reflexivity)).
Qed.
Lemma encs_inv k : forall d s ls d' s', s_encs_l k d s = (ls, Ret (inr (d', s'))) -> ls = [] /\ six d' = six d /\ d_fsize d' = d_fsize d.
Proof.
  induction k as [|k IH]; intros d s ls d' s' E; cbn [s_encs_l] in E; [apply ok_inv in E as [E ->]; injection E as <- <-; auto | ].
  apply bindr_inv in E as (? & [ty s1] & ? & E1 & E & ->). apply read1_inv in E1 as ->.
  apply bindr_inv in E as (? & [len s2] & ? & E1 & E & ->). apply read1_inv in E1 as ->.
  apply bindr_inv in E as (? & [data s3] & ? & E1 & E & ->). apply readBytes_inv in E1 as ->.
  apply bindr_inv in E as (? & d1 & ? & E1 & E & ->). apply lift_inv, trouble_inv in E1 as [E1 ->].
  destruct (IH _ _ _ _ _ E) as (-> & S & F). split; [reflexivity | ]. rewrite S, F. destruct (createEncBlock ty (mkBytes data 255) len); try discriminate. cbn [bind] in E1.
  unfold addEncDataBlock in E1. destruct (_ <=? _); [discriminate | ]. injection E1 as <-. auto.
Qed.
Lemma parts_inv bd cs nls : forall lb n c s ls x, s_parts_l bd cs nls lb n c s = (ls, Ret (inr x)) -> ls = [].
Proof.
  induction nls as [|[nm len] r IH]; intros lb n c s ls x E; cbn [s_parts_l] in E; [apply ok_inv in E as [_ ->]; reflexivity | ].
  destruct (negb _); apply bindr_inv in E as (? & [b s1] & ? & E1 & E & ->); apply readPart_inv in E1 as ->;
    apply bindr_inv in E as (? & c1 & ? & E1 & E & ->); apply try_inv, trouble_inv in E1 as [_ ->]; [apply IH in E as ->; reflexivity | apply ok_inv in E as [_ ->]; reflexivity].
Qed.
Lemma format_inv m ls x : newFormat_l m = (ls, Ret x) -> ls = [].
Proof. unfold newFormat_l, newFormat. destruct (ch_mode_valid m); intro Q; inversion Q; reflexivity. Qed.
(** a chain hash that is valid was made without complaints *)
Lemma newChain_inv m i d ls c : newChainHash_l m i d = (ls, Ret c) -> ch_val c = true -> ls = [].
Proof.
  unfold newChainHash_l, newChainHash. destruct (ch_mode_valid m); intro Q; [ | inversion Q].
  pose proof (f_equal snd Q) as Q2. apply (f_equal fst) in Q. cbn [fst snd] in Q, Q2. injection Q2 as <-. rewrite <- Q. apply check_quiet.
Qed.
Lemma chain_inv bd cs code set d s ls d' s' : s_chain_l bd cs code set d s = (ls, Ret (inr (d', s'))) ->
  (forall c d ls d', set c d = (ls, Ret d') -> ch_val c = true) -> exists c, set c d = (ls, Ret d').
Proof.
  intros E V. unfold s_chain_l in E.
  apply bindr_inv in E as (? & [m s1] & ? & E1 & E & ->). apply read1_inv in E1 as ->.
  apply bindr_inv in E as (? & f & ? & E1 & E & ->). apply try_inv, format_inv in E1 as ->.
  apply bindr_inv in E as (? & [it s2] & ? & E1 & E & ->). apply read8_inv in E1 as ->.
  apply bindr_inv in E as (? & [lb s3] & ? & E1 & E & ->). apply read1_inv in E1 as ->.
  apply bindr_inv in E as (? & [[dl c] s4] & ? & E1 & E & ->). apply parts_inv in E1 as ->.
  apply bindr_inv in E as (? & [] & ? & E1 & E & ->). apply assertl_inv in E1 as ->.
  apply bindr_inv in E as (? & [] & ? & E1 & E & ->). apply assertl_inv in E1 as ->.
  apply bindr_inv in E as (? & d1 & ? & E1 & E & ->). apply ok_inv in E as [E ->]. injection E as -> _. apply try_inv in E1.
  apply bindl_inv in E1 as (l1 & ch & l2 & E2 & E1 & ->). pose proof (V _ _ _ _ E1) as Vc. apply newChain_inv in E2; [ | exact Vc]. subst l1.
  exists ch. cbn [app]. rewrite app_nil_r. exact E1.
Qed.
Lemma set1_val c d ls d' : setChainHash1_l c d = (ls, Ret d') -> ch_val c = true.
Proof. unfold setChainHash1_l, setChainHash1. destruct (ch_val c); [reflexivity | intro Q; inversion Q]. Qed.
Lemma set2_val c d ls d' : setChainHash2_l c d = (ls, Ret d') -> ch_val c = true.
Proof. unfold setChainHash2_l, setChainHash2. destruct (ch_val c); [reflexivity | intro Q; inversion Q]. Qed.
Lemma setFileSize_inv n d ls d' : setFileSize_l n d = (ls, Ret d') -> six d' = six d /\ ls = [dh 114 [Num n]].
Proof.
  unfold setFileSize_l. intro Q. injection Q as <- E. unfold setFileSize in E. destruct (d_isComplete d); [ | discriminate]. cbn [negb] in E.
  destruct (getHeaderLength d) as [l| | |]; try discriminate. cbn [bind] in E. destruct (n <? l); [discriminate | ]. injection E as <-. auto.
Qed.
Lemma calc_inv d ls d' : calc_plain_l d = (ls, Ret d') -> six d' = six d /\ ls = [dh 168 [Flag false]].
Proof.
  unfold calc_plain_l. intro Q. injection Q as <- E. rewrite E. cbn [bind]. unfold calc_plain in E. destruct (calcHeaderBytes _ _ _ d) as [d1 r] eqn:K.
  destruct r as [[]| | |]; try discriminate. injection E as <-. unfold calcHeaderBytes in K. unfold calc_lines.
  destruct (d_isComplete d); [ | discriminate]. cbn [negb] in K. destruct (d_fsize d) as [n|]; [ | discriminate].
  destruct (getHeaderLength d) as [l| | |]; try discriminate. cbn [bind] in K. destruct (n <? l); [discriminate | ]. cbn [bind checkPwHash isEmpty getLen bdata] in K.
  unfold checkPwHash in K. change (isEmpty (mkBytes [] 0)) with true in K. cbn [bind] in K.
  destruct (getHeaderLength _) as [l2| | |]; try discriminate.
  destruct (calcBody n l2 (d_parts d)) as [t|e|c|]; [ | destruct e; inversion K | inversion K | inversion K].
  destruct (negb _); [inversion K | ]. injection K as <-. auto.
Qed.
Lemma decode_log bd rnd file ls d s h : decode_stream_l bd rnd file = (ls, Ret (inr (d, s))) -> contents d = Some h -> ls = read_log (lenN file) h.
Proof.
  intros E C. unfold decode_stream_l in E. apply noexcept_l_inv in E.
  apply bindr_inv in E as (? & [fs s1] & ? & E1 & E & ->). apply read8_inv in E1 as ->.
  apply bindr_inv in E as (? & [hs s2] & ? & E1 & E & ->). apply read8_inv in E1 as ->.
  destruct (lenN file =? fs) eqn:Fs; cbn [negb] in E; [ | discriminate]. apply N.eqb_eq in Fs. subst fs. destruct (_ <? _); [discriminate | ].
  apply bindr_inv in E as (? & [fm s3] & ? & E1 & E & ->). apply read1_inv in E1 as ->.
  apply bindr_inv in E as (? & [hm s4] & ? & E1 & E & ->). apply read1_inv in E1 as ->.
  apply bindr_inv in E as (? & d1 & ? & E1 & E & ->). apply try_inv, new_inv in E1 as [P1 ->].
  apply bindr_inv in E as (? & d2 & ? & E1 & E & ->). apply try_inv, setMode_inv in E1 as [P2 ->].
  apply bindr_inv in E as (? & [cnt s5] & ? & E1 & E & ->). apply read1_inv in E1 as ->.
  apply bindr_inv in E as (? & [d3 s6] & ? & E1 & E & ->). apply blocks_inv in E1 as [-> P3].
  apply bindr_inv in E as (? & [d4 s7] & ? & E1 & E & ->). apply chain_inv in E1 as [c1 E1]; [ | exact set1_val]. apply set1_inv in E1 as (k1 & P4 & L1).
  apply bindr_inv in E as (? & [d5 s8] & ? & E1 & E & ->). apply chain_inv in E1 as [c2 E1]; [ | exact set2_val]. apply set2_inv in E1 as (k2 & P5 & L2).
  apply bindr_inv in E as (? & [v s9] & ? & E1 & E & ->). apply readBytes_inv in E1 as ->.
  apply bindr_inv in E as (? & d6 & ? & E1 & E & ->). apply try_inv, setValid_inv in E1 as [P6 ->].
  apply bindr_inv in E as (? & [sa s10] & ? & E1 & E & ->). apply readBytes_inv in E1 as ->.
  apply bindr_inv in E as (? & d7 & ? & E1 & E & ->). apply try_inv, setSalt_inv in E1 as [P7 ->].
  apply bindr_inv in E as (? & d8 & ? & E1 & E & ->). apply try_inv, setFileSize_inv in E1 as [P8 ->].
  apply bindr_inv in E as (? & [cnt2 s11] & ? & E1 & E & ->). apply read1_inv in E1 as ->.
  apply bindr_inv in E as (? & [d9 s12] & ? & E1 & E & ->). apply encs_inv in E1 as (-> & P9 & _).
  apply bindr_inv in E as (? & d10 & ? & E1 & E & ->). apply try_inv, calc_inv in E1 as [P10 ->].
  apply bindr_inv in E as (? & l & ? & E1 & E & ->). apply lift_inv, silent_inv in E1 as [_ ->].
  apply bindr_inv in E as (? & [] & ? & E1 & E & ->). apply assertl_inv in E1 as ->.
  apply bindr_inv in E as (? & [] & ? & E1 & E & ->). apply assertl_inv in E1 as ->.
  apply ok_inv in E as [E ->]. injection E as <- <-.
  destruct (contents_parts d10 h C) as (v' & s' & Ef & Eh & C1 & C2 & Ev & Bv & Es & Bs & _ & _).
  rewrite P9, P8 in P10. unfold six in P3, P10. rewrite Ef, Eh, Ev, Es, P7 in P10. cbn in P10. rewrite P6 in P10. cbn in P10. rewrite P5 in P10. cbn in P10. rewrite P4 in P10. cbn in P10.
  rewrite P2 in P3. cbn in P3. rewrite P1 in P3. injection P3 as R1 R2 R3 R4 R5 R6. rewrite R1, R2 in P10. injection P10 as Q1 Q2 Q3 Q4 Q5 Q6.
  rewrite Q5 in C1. rewrite Q6 in C2. rewrite (L1 _ C1), (L2 _ C2). unfold read_log, built_log. rewrite <- Bv, <- Bs, Q3, Q4, <- Q1, <- Q2. reflexivity.
Qed.
