(** A random generator that may fail: calls and histories. *)
From Coq Require Import Strings.Byte.
From Verif Require Import Base BaseFacts BytesModel BytesSpec BytesFacts MiscModel MiscFacts CipherModel CipherSpec CipherFacts CipherFacts2 PwModel PwSpec PwFacts ChModel ChSpec ChFacts ChFacts2
  HeaderModel HeaderSpec HeaderFacts HeaderFacts2 HeaderFacts3 HeaderFacts4 HeaderFacts5 HeaderFacts8 HeaderFacts9 FileModel ApiModel ApiSpec ApiSpec2 FileFacts ApiFacts ApiFacts2 ApiFacts3 ApiFacts4 ApiFacts5 ApiFacts6 ApiFacts7 ApiFacts9 ApiFacts10 ApiFacts11 ApiFacts12
  RefSpec RefFacts RefSpec2 RefFacts2 RefFacts3 RefFacts4 RndSpec RndFacts.
Ltac Zify.zify_post_hook ::= Z.div_mod_to_equations.

Section Any.
  Variable H : hashes.
  Hypothesis HH : hashes_ok H.
  Variable bd : build.
  Lemma salt_any w a d h : a_dh a = Some d -> holds d h ->
    if delivers w 0 (digest_len (h_hmode h)) && delivers w 1 (digest_len (h_hmode h)) then changeSalt w a = changeSalt (working w) a else changeSalt w a = Crash Terminate.
  Proof.
    intros Ea Hd. pose proof (holds_ok d h Hd) as Hok. assert (1 <= h_hmode h <= 3) as V by apply Hok. destruct (holds_good d h Hd) as (v & s & G & _).
    pose proof (holds_parts d h Hd) as P. unfold changeSalt. rewrite Ea. cbn [ptr bind]. rewrite P. cbn [bind]. unfold p_getSalt. rewrite (g_salt _ _ _ _ G). cbn [bind].
    unfold newBytes. destruct (Z.ltb_spec (Z.of_N (getLen (copyBytes s))) 0); [lia|]. cbn [bind]. rewrite N2Z.id. change (getLen (copyBytes s)) with (getLen s). rewrite (g_slen _ _ _ _ G).
    set (n := digest_len (h_hmode h)) in *. pose proof (digest_small _ V) as Ld. fold n in Ld. assert (getLen (mkBytes [] n) = 0) as L0 by reflexivity. unfold delivers.
    change (w_rnd (working w) 0) with (mended (w_rnd w 0)). change (w_rnd (working w) 1) with (mended (w_rnd w 1)).
    destruct (lenN (w_rnd w 0 n) =? n) eqn:D; cbn [andb].
    - rewrite fill_mended by (cbn [bmax]; rewrite L0, N.sub_0_r; exact D).
      rewrite fillrandom_ok by (first [apply mended_len | cbn [bmax]; lia]). cbn [bind]. unfold p_setSalt, p_getHashSize. rewrite (g_hmode _ _ _ _ G). cbn [bind].
      change (hash_size_of (h_hmode h)) with n. rewrite fillrandom_len by (first [apply mended_len | apply N.le_0_l]). cbn [bmax]. rewrite N.eqb_refl. cbn [bind].
      match goal with |- context [setHeaderParts _ ?q] => pose proof (parts_any (w_rnd w 1) q (h_hmode h)) as Q; set (p' := q) in * end.
      specialize (Q eq_refl V). fold n in Q. destruct (lenN (w_rnd w 1 n) =? n); rewrite Q; reflexivity.
    - rewrite fill_fails by (cbn [bmax]; rewrite ?L0, ?N.sub_0_r; exact D || lia). reflexivity.
  Qed.
  Lemma made_any w ds pw t : header_fault w ds t = None -> new_header w ds pw t = new_header (working w) ds pw t.
  Proof.
    unfold header_fault, data_fault. destruct (delivers w 0 _) eqn:D0; [|discriminate]. destruct (delivers w 1 _) eqn:D1; [|discriminate].
    unfold new_header. change (create_timely (working w)) with (create_timely w).
    destruct (create_timely w t (value (s_n1 ds)) (value (s_n2 ds))); cbn [andb negb]; [|reflexivity].
    destruct (delivers w 2 _) eqn:D2; cbn [andb negb]; [|discriminate]. intros _.
    assert (made w ds pw = made (working w) ds pw) as ->; [|reflexivity]. unfold made.
    change (w_rnd (working w)) with (fun i => mended (w_rnd w i)). cbv beta. rewrite !mended_same by assumption. reflexivity.
  Qed.

  Lemma look_all_working w f dir l : forall i, look_all (working w) f dir i l = look_all w f dir i l.
  Proof. induction l as [|[n b] l IH]; intros i; [reflexivity|]. cbn [look_all]. rewrite !IH. reflexivity. Qed.
  Lemma list_working w s f dir : act w s f (OList dir) = act (working w) s f (OList dir).
  Proof.
    destruct s; try reflexivity. cbn [act]. unfold listed. change (w_dir (working w)) with (w_dir w). destruct dir as [|x dir]; [reflexivity|].
    destruct (w_dir w (x :: dir)) as [| |l]; [reflexivity|reflexivity|]. rewrite look_all_working. reflexivity.
  Qed.
  (** ** one call *)
  Lemma step_any w s f o a : rel H s a -> world_any bd H w -> fs_ok f -> op_ok o ->
    match fault_of w s f o with
    | Some Fatal => step w a f o = (f, Crash Terminate)
    | Some Reported => step w a f o = (f, Ret (a, RErr FAIL ERR)) /\ exists pw ds t, o = OHeader pw ds t
    | None => step w a f o = step (working w) a f o /\ act w s f o = act (working w) s f o
    end.
  Proof.
    intros R W Hf Ho. pose proof (rel_state _ _ _ R) as S. pose proof (rel_mode _ _ _ R) as M.
    destruct o as [dir|p|p| | | | |pw t|pw ds t|pw ds| | | |x| |p| |m].
    - (* list *)
      destruct s; cbn [fault_of state_of] in *; try (cbn [step act]; rewrite S; split; reflexivity).
      destruct (w_dir w dir) as [| |l] eqn:D.
      + split; [|apply list_working]. cbn [step]. rewrite S, M. unfold getRelevantFileNames, getAllEncFileNames. change (w_dir (working w)) with (w_dir w). rewrite D. destruct (lenN dir =? 0); reflexivity.
      + split; [|apply list_working]. cbn [step]. rewrite S, M. unfold getRelevantFileNames, getAllEncFileNames. change (w_dir (working w)) with (w_dir w). rewrite D. destruct (lenN dir =? 0); reflexivity.
      + pose proof (loop_any H bd w f dir W Hf l 0%nat eq_refl) as Q. cbn [step]. rewrite S, M. unfold getRelevantFileNames, getAllEncFileNames. change (w_dir (working w)) with (w_dir w). rewrite D.
        destruct (lenN dir =? 0); cbn [negb andb]; [split; [reflexivity|apply list_working]|].
        change (filter (fun e => snd e && eqb_bytes (extension (fst e)) enc_extension) l) with (filter keep l). cbn [dret dbind bind].
        destruct (list_fault w f 0 dir l); rewrite Q; [reflexivity|split; [reflexivity|apply list_working]].
    - cbn [fault_of]. assert (fault_of w s f (OCreate p) = None) as -> by (destruct s; reflexivity). split; reflexivity.
    - (* select *)
      destruct s; cbn [fault_of state_of] in *; try (cbn [step act]; rewrite S; split; reflexivity).
      pose proof (select_any w f p a Hf) as Q. cbn [step]. rewrite S. destruct (file_fault w f 0 p); rewrite Q; [reflexivity|split; reflexivity].
    - assert (fault_of w s f OIsEmpty = None) as -> by (destruct s; reflexivity). split; reflexivity.
    - assert (fault_of w s f OUnselect = None) as -> by (destruct s; reflexivity). split; reflexivity.
    - assert (fault_of w s f ODelete = None) as -> by (destruct s; reflexivity). split; reflexivity.
    - assert (fault_of w s f OContent = None) as -> by (destruct s; reflexivity). split; reflexivity.
    - assert (fault_of w s f (OVerify pw t) = None) as -> by (destruct s; reflexivity). split; reflexivity.
    - (* header *)
      destruct Ho as [Sm Lt]. cbn [step]. rewrite <- all_set_complete, S, M.
      destruct (all_set ds) eqn:C.
      2:{ assert (fault_of w s f (OHeader pw ds t) = None) as -> by (destruct s; cbn [fault_of]; rewrite ?C; reflexivity). cbn [act]. rewrite C. cbn [negb]. split; reflexivity. }
      pose proof (create_any H HH bd w pw ds t W Sm Lt C) as Q.
      assert (forall w', act w' s f (OHeader pw ds t) = match s with
           | Empty p => settle s f (new_header w' ds pw t) (fun h => (f, Done (Open p h pw true) Ok))
           | Open p _ _ b => settle s f (new_header w' ds pw t) (fun h => (f, Done (Open p h pw b) Ok))
           | _ => (f, Done s (Err ERR_API_STATE_INVALID)) end) as A by (intros w'; cbn [act]; rewrite C; reflexivity).
      rewrite !A. destruct s; cbn [fault_of state_of negb]; try (split; reflexivity); rewrite C.
      all: pose proof (made_any w ds pw t) as Q2; destruct (header_fault w ds t) as [[|]|]; rewrite Q.
      all: try (rewrite <- (Q2 eq_refl); split; reflexivity).
      all: try reflexivity.
      all: split; [reflexivity|eauto].
    - assert (fault_of w s f (OHeaderTime pw ds) = None) as -> by (destruct s; reflexivity). split; reflexivity.
    - (* salt *)
      destruct s; cbn [fault_of state_of] in *; try (cbn [step act]; rewrite S; split; reflexivity).
      pose proof R as R0. cbn [rel] in R. destruct R as (Ep & k & d & fh & K & Hd & Pf & Ea). assert (a_dh a = Some d) as Ed by (rewrite Ea; reflexivity).
      pose proof (salt_any w a d h Ed Hd) as Q. cbn [step act]. rewrite S. destruct (delivers w 0 (digest_len (h_hmode h))) eqn:D; cbn [andb] in Q |- *; [|rewrite Q; reflexivity].
      destruct (delivers w 1 (digest_len (h_hmode h))); rewrite Q; [|reflexivity]. split; [reflexivity|].
      change (w_rnd (working w) 0) with (mended (w_rnd w 0)). rewrite (mended_same _ _ D). reflexivity.
    - assert (fault_of w s f ODecrypt = None) as -> by (destruct s; reflexivity). split; reflexivity.
    - assert (fault_of w s f OGetData = None) as -> by (destruct s; reflexivity). split; reflexivity.
    - assert (fault_of w s f (OEncrypt x) = None) as -> by (destruct s; reflexivity). split; reflexivity.
    - assert (fault_of w s f OWrite = None) as -> by (destruct s; reflexivity). split; reflexivity.
    - assert (fault_of w s f (OWriteTo p) = None) as -> by (destruct s; reflexivity). split; reflexivity.
    - assert (fault_of w s f OLogout = None) as -> by (destruct s; reflexivity). split; reflexivity.
    - assert (fault_of w s f (OLogoutMode m) = None) as -> by (destruct s; reflexivity). split; reflexivity.
  Qed.
  Definition agrees_any (w : world) (s : session) (f : fs) (o : op) (r : fs * outcome (api * reply)) : Prop :=
    match act_any w s f o, r with
    | (g, Done s' x), (f', Ret (a', y)) => same f' g /\ seen y = Some x /\ rel H s' a'
    | (g, Ends c), (f', Crash c') => same f' g /\ c' = c
    | (g, Hangs), (f', OutOfFuel) => same f' g
    | _, _ => False
    end.
  Lemma sim_any w s f o a : rel H s a -> world_any bd H w -> fs_ok f -> op_ok o ->
    (step w a f o = (f, OutOfFuel) /\ (w_fuel w < rounds s o)%nat) \/ agrees_any w s f o (step w a f o).
  Proof.
    intros R W Hf Ho. pose proof (step_any w s f o a R W Hf Ho) as Q. unfold agrees_any, act_any. destruct (fault_of w s f o) as [[|]|].
    - right. rewrite Q. split; [apply same_refl|reflexivity].
    - right. destruct Q as [-> _]. split; [apply same_refl|]. split; [reflexivity|exact R].
    - destruct Q as [-> ->]. destruct (sim_step H HH bd (working w) s f o a R (working_ok H bd w W) Hf Ho) as [X|X]; [left; exact X|right; exact X].
  Qed.
  Lemma sim_history_any mode tr a : history_any bd H mode tr a -> exists s, follow_any tr = Some s /\ rel H s a /\ answered_any tr.
  Proof.
    induction 1 as [a E|tr a w f o f' a' r Hh IH W Hf Ho E].
    - exists Idle. unfold newAPI in E. destruct (file_mode_valid mode) eqn:V; [|discriminate]. injection E as <-. cbn. spl; try exact I; try reflexivity.
      cbn [rel]. f_equal. unfold file_mode_valid in V. rewrite andb_true_iff, !N.leb_le in V. lia.
    - destruct IH as (s & Fs & R & An). pose proof (sim_any w s f o a R W Hf Ho) as [[X _]|X]; [congruence|]. rewrite E in X. unfold agrees_any in X.
      destruct (act_any w s f o) as [g [s' x|c|]] eqn:A; try contradiction. destruct X as (X1 & X2 & X3).
      exists s'. cbn [follow_any e_world e_before e_op]. rewrite Fs, A. spl; try reflexivity; try assumption.
      cbn [answered_any e_world e_before e_op e_after e_reply]. split; [exact An|]. exists s, g, s', x. auto.
  Qed.
  Lemma machine_any mode tr a w f o : history_any bd H mode tr a -> world_any bd H w -> fs_ok f -> op_ok o ->
    answered_any tr /\ exists s, follow_any tr = Some s /\
      (matches_any w s f o (step w a f o) \/ step w a f o = (f, OutOfFuel) /\ (w_fuel w < rounds s o)%nat).
  Proof.
    intros Hh W Hf Ho. destruct (sim_history_any _ _ _ Hh) as (s & Fs & R & An). split; [exact An|]. exists s. split; [exact Fs|].
    destruct (sim_any w s f o a R W Hf Ho) as [X|X]; [right; exact X|left]. unfold agrees_any, matches_any in *.
    destruct (act_any w s f o) as [g [s' x|c|]], (step w a f o) as [f' [[a' y]| | |]]; tauto.
  Qed.
  Lemma history_mended mode tr a : history_any bd H mode tr a -> exists tr', history bd H mode tr' a /\ mends tr tr' /\ follow_any tr = follow tr'.
  Proof.
    induction 1 as [a E|tr a w f o f' a' r Hh IH W Hf Ho E].
    - exists []. spl; try constructor. exact E.
    - destruct IH as (tr' & Hh' & M & Fo). destruct (sim_history_any _ _ _ Hh) as (s & Fs & R & An).
      pose proof (step_any w s f o a R W Hf Ho) as Q. cbn [follow_any e_world e_before e_op]. rewrite Fs. unfold act_any. destruct (fault_of w s f o) as [[|]|].
      + congruence.
      + destruct Q as [Q (pw & ds & t & ->)]. rewrite Q in E. injection E as <- <- <-. exists tr'. spl; try assumption; [constructor; exact M|]. rewrite <- Fo. symmetry. exact Fs.
      + destruct Q as [Q1 Q2]. rewrite Q1 in E. exists (mkEntry (working w) f o r f' :: tr'). split; [|split].
        * eapply hist_call; try eassumption. apply working_ok, W.
        * constructor. exact M.
        * cbn [follow e_world e_before e_op]. rewrite <- Fo, Fs, Q2. reflexivity.
  Qed.

  (** ** a generator that never delivers *)
  Lemma dead_undelivered w i k : dead w -> delivers w i k = false.
  Proof. intros D. apply N.eqb_neq, D. Qed.
  Lemma dead_calls mode tr a w f : history_any bd H mode tr a -> world_any bd H w -> fs_ok f -> dead w ->
    (a_state a = DECRYPTED -> step w a f OSalt = (f, Crash Terminate)) /\
    (forall pw ds t, op_ok (OHeader pw ds t) -> all_set ds = true -> a_state a = EMPTY_FILE_SELECTED \/ a_state a = DECRYPTED ->
       step w a f (OHeader pw ds t) =
         (f, if (value (s_ch1 ds) =? 2) || (value (s_ch1 ds) =? 4) then Crash Terminate else Ret (a, RErr FAIL ERR))) /\
    (forall p c, a_state a = INIT -> enc_path p -> w_stat w p = true -> w_read w p = true -> f (w_loc w p) = Some c -> (exists hsz, hsz < 2 ^ 64 /\ sizes_fit c hsz) ->
       1 <= hash_byte c <= 3 -> step w a f (OSelect p) = (f, Crash Terminate)).
  Proof.
    intros Hh W Hf D. destruct (sim_history_any _ _ _ Hh) as (s & Fs & R & An). pose proof (rel_state _ _ _ R) as S. split; [|split].
    - intros St. pose proof (step_any w s f OSalt a R W Hf I) as Q. destruct s; rewrite S in St; try discriminate. cbn [fault_of] in Q. rewrite (dead_undelivered w 0 _ D) in Q. exact Q.
    - intros pw ds t Ho C St. pose proof (step_any w s f _ a R W Hf Ho) as Q.
      assert (fault_of w s f (OHeader pw ds t) = header_fault w ds t) as E.
      { rewrite S in St. destruct s; destruct St as [St|St]; try discriminate; cbn [fault_of]; rewrite C; reflexivity. }
      rewrite E in Q. unfold header_fault, data_fault in Q. rewrite (dead_undelivered w 0 _ D) in Q. destruct (_ || _); [exact Q|apply Q].
    - intros p c St Ep Ss Sr Fc (hsz & Lh & Sf) V. assert (lenN c <> 0) as Nz by (destruct Sf as (r & _ & Sf); lia). pose proof (step_any w s f (OSelect p) a R W Hf I) as Q. rewrite S in St. destruct s; try discriminate.
      cbn [fault_of] in Q. assert (file_fault w f 0 p = true) as E; [|rewrite E in Q; exact Q].
      unfold file_fault. assert (opened_sized w f p = Gives c) as ->.
      { unfold opened_sized. assert (opened w f p = Gives c) as -> by (apply opened_gives; unfold openable; auto). cbn [also].
        assert (lenN c < two64) as L by (apply lt63_two64, (Hf _ _ Fc)). destruct (sizes_sized c L) as [A B]; [intros ->; apply Nz; reflexivity|].
        destruct (B hsz Lh Sf) as [-> _]. reflexivity. }
      rewrite (dead_undelivered w 0 _ D). apply N.eqb_neq in Nz. rewrite Nz. cbn [negb andb]. rewrite !andb_true_r, andb_true_iff, !N.leb_le. exact V.
  Qed.
  Lemma history_is_any mode tr a : history bd H mode tr a -> history_any bd H mode tr a.
  Proof. induction 1 as [a E|tr a w f o f' a' r Hh IH (A & B & _ & C) Hf Ho E]; [constructor; exact E|]. eapply any_call; try eassumption. repeat split; assumption. Qed.
End Any.
(** a history with a computable property *)
Lemma play_history_any bd H mode l : forall tr a tr' a', history_any bd H mode tr a ->
  Forall (fun x => world_any bd H (fst (fst x)) /\ fs_ok (snd (fst x)) /\ op_ok (snd x)) l -> play l tr a = Some (tr', a') -> history_any bd H mode tr' a'.
Proof.
  induction l as [|[[w f] o] l IH]; intros tr a tr' a' Hh F E; cbn [play] in E.
  - injection E as <- <-. exact Hh.
  - inversion F as [|? ? (W & Hf & Ho) F']; subst. cbn [fst snd] in *. destruct (step w a f o) as [f' [[a1 x]| | |]] eqn:Es; try discriminate E.
    eapply IH; [|exact F'|exact E]. eapply any_call; eassumption.
Qed.
Lemma play_any bd H l (P : list entry -> api -> Prop) :
  Forall (fun x => world_any bd H (fst (fst x)) /\ fs_ok (snd (fst x)) /\ op_ok (snd x)) l ->
  match play l [] (fresh 1) with Some (tr, a) => P tr a | None => False end -> exists tr a, history_any bd H 1 tr a /\ P tr a.
Proof.
  intros F E. destruct (play l [] (fresh 1)) as [[tr a]|] eqn:Ep; [|contradiction]. exists tr, a. split; [|exact E].
  eapply play_history_any; [|exact F|exact Ep]. apply any_new. reflexivity.
Qed.
