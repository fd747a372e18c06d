(** Lemmas for C121. *)
From Verif Require Import Base BaseFacts BytesModel BytesSpec BytesFacts MiscModel CipherModel CipherSpec PwModel PwSpec ChModel ChSpec HeaderModel HeaderSpec HeaderFacts3 HeaderFacts5 HeaderFacts11 FileModel FileFacts
  ApiModel ApiSpec ApiSpec2 ApiFacts4 ApiFacts6 ApiFacts7 ApiFacts8 ApiFacts9 ApiFacts11 EmptyFacts BuildSpec.

(** the first ends at an assertion, or both are the same *)
Definition stop_or {A} (x y : outcome A) : Prop := x = Crash AssertFail \/ x = y.
Lemma so_refl {A} (x : outcome A) : stop_or x x.
Proof. right. reflexivity. Qed.
Lemma so_bind {A B} (x y : outcome A) (k l : A -> outcome B) : stop_or x y -> (forall v, stop_or (k v) (l v)) -> stop_or (bind x k) (bind y l).
Proof. intros [-> | ->] Q; [left; reflexivity|]. destruct y; cbn [bind]; [apply Q|right; reflexivity..]. Qed.
Lemma so_dbind {A B} (x y : dres A) (k l : A -> dres B) : stop_or x y -> (forall v, stop_or (k v) (l v)) -> stop_or (dbind x k) (dbind y l).
Proof. intros [-> | ->] Q; [left; reflexivity|]. destruct y as [[e|v]| | |]; cbn [dbind]; [right; reflexivity|apply Q|right; reflexivity..]. Qed.
Lemma so_noexcept {A} (x y : outcome A) : stop_or x y -> stop_or (noexcept x) (noexcept y).
Proof. intros [-> | ->]; [left|right]; reflexivity. Qed.
Lemma so_try {A} h (x y : outcome A) : stop_or x y -> stop_or (try_ h x) (try_ h y).
Proof. intros [-> | ->]; [left|right]; reflexivity. Qed.
Lemma so_assert {A} b (k : outcome A) : stop_or (assertC Debug b k) (assertC Release b k).
Proof. destruct b; [right|left]; reflexivity. Qed.
Lemma so_addBytes b d : stop_or (cd_addBytes Debug b d) (cd_addBytes Release b d).
Proof.
  unfold cd_addBytes. destruct (cd_complete d); [apply so_refl|]. destruct (nth_error _ _) as [[nm len]|]; [|apply so_refl].
  destruct (_ && _); [apply so_refl|]. destruct (addcopyToBytes _ _) as [blk|e| |]; try apply so_refl; [apply so_assert|].
  destruct e; try apply so_refl. apply so_assert.
Qed.
Lemma so_parts nls : forall lb dl c s, stop_or (s_parts Debug nls lb dl c s) (s_parts Release nls lb dl c s).
Proof.
  induction nls as [|[nm len] r IH]; intros lb dl c s; cbn [s_parts]; [apply so_refl|].
  destruct (negb _); (apply so_dbind; [apply so_refl|intros [b s1]; apply so_dbind; [apply so_try, so_addBytes|intros c1]]); [apply IH|apply so_refl].
Qed.
Lemma so_chain code set d s : stop_or (s_chain Debug code set d s) (s_chain Release code set d s).
Proof.
  unfold s_chain. apply so_dbind; [apply so_refl|intros [m s1]]. apply so_dbind; [apply so_refl|intros fm]. apply so_dbind; [apply so_refl|intros [it s2]].
  apply so_dbind; [apply so_refl|intros [lb s3]]. apply so_dbind; [apply so_parts|intros [[dl c] s4]].
  apply so_dbind; [apply so_assert|intros _]. apply so_dbind; [apply so_assert|intros _]. apply so_refl.
Qed.
Lemma so_decode rnd s : stop_or (decode_stream Debug rnd s) (decode_stream Release rnd s).
Proof.
  unfold decode_stream. apply so_noexcept. apply so_dbind; [apply so_refl|intros [fsz s1]]. apply so_dbind; [apply so_refl|intros [hsz s2]].
  destruct (negb _); [apply so_refl|]. destruct (_ <? _); [apply so_refl|].
  apply so_dbind; [apply so_refl|intros [fm s3]]. apply so_dbind; [apply so_refl|intros [hm s4]]. apply so_dbind; [apply so_refl|intros d1]. apply so_dbind; [apply so_refl|intros d2].
  apply so_dbind; [apply so_refl|intros [n s5]]. apply so_dbind; [apply so_refl|intros [d3 s6]]. apply so_dbind; [apply so_chain|intros [d4 s7]]. apply so_dbind; [apply so_chain|intros [d5 s8]].
  apply so_dbind; [apply so_refl|intros [v s9]]. apply so_dbind; [apply so_refl|intros d6]. apply so_dbind; [apply so_refl|intros [sa s10]]. apply so_dbind; [apply so_refl|intros d7].
  apply so_dbind; [apply so_refl|intros d8]. apply so_dbind; [apply so_refl|intros [n2 s11]]. apply so_dbind; [apply so_refl|intros [d9 s12]]. apply so_dbind; [apply so_refl|intros d10].
  apply so_dbind; [apply so_refl|intros l]. apply so_dbind; [apply so_assert|intros _]. apply so_dbind; [apply so_assert|intros _]. apply so_refl.
Qed.

(** ** The calls *)
Lemma so_header w f i h : stop_or (fh_getDataHeader (built Debug w) f i h) (fh_getDataHeader (built Release w) f i h).
Proof. unfold fh_getDataHeader. apply so_noexcept, so_dbind; [apply so_decode|intros [d s]; apply so_refl]. Qed.
Lemma so_isHeader w f i m h : stop_or (fh_isDataHeader (built Debug w) f i m h) (fh_isDataHeader (built Release w) f i m h).
Proof. unfold fh_isDataHeader. apply so_noexcept, so_dbind; [apply so_header|intros d; apply so_refl]. Qed.
Lemma so_select w a f p : stop_or (selectFile (built Debug w) a f p) (selectFile (built Release w) a f p).
Proof.
  unfold selectFile. apply so_noexcept, so_bind; [right; reflexivity|intros [c|h]; [apply so_refl|]]. destruct (fh_empty h); [apply so_refl|].
  apply so_bind; [apply so_header|intros r; apply so_refl].
Qed.
Lemma so_loop w f m dir names : forall i ret, stop_or (relevant_loop (built Debug w) f i m dir names ret) (relevant_loop (built Release w) f i m dir names ret).
Proof.
  induction names as [|n r IH]; intros i ret; cbn [relevant_loop]; [apply so_refl|]. apply so_bind; [right; reflexivity|]. intros [c|h].
  - unfold count_up. destruct (_ =? _); [apply so_refl|apply IH].
  - apply so_bind; [destruct (fh_empty h); [apply so_refl|apply so_bind; [apply so_isHeader|intros x; apply so_refl]]|].
    intros t. cbn zeta. unfold count_up. destruct (_ =? _); [apply so_refl|apply IH].
Qed.
Lemma so_list w f m dir : stop_or (getRelevantFileNames (built Debug w) f m dir) (getRelevantFileNames (built Release w) f m dir).
Proof.
  unfold getRelevantFileNames. apply so_noexcept, so_dbind; [right; reflexivity|intros names]. unfold lift. apply so_bind; [apply so_loop|intros r; apply so_refl].
Qed.
Lemma call_same w a f o : step (built Debug w) a f o = step (built Release w) a f o \/
  step (built Debug w) a f o = (f, Crash AssertFail) /\ a_state a = INIT /\ ((exists p, o = OSelect p) \/ exists dir, o = OList dir).
Proof.
  destruct o; lazymatch goal with |- step _ _ _ (OList _) = _ \/ _ => idtac | |- step _ _ _ (OSelect _) = _ \/ _ => idtac | _ => left; reflexivity end; cbn [step].
  - destruct (a_state a); [|left; reflexivity..]. destruct (so_list w f (a_mode a) dir) as [E|E].
    + right. rewrite E. split; [reflexivity|]. split; [reflexivity|]. right. eauto.
    + left. refine (f_equal (fun x => (f, bind x (fun r => Ret (a, reply_of RNames r)))) E).
  - destruct (a_state a); [|left; reflexivity..]. destruct (so_select w a f p) as [E|E].
    + right. rewrite E. split; [reflexivity|]. split; [reflexivity|]. left. eauto.
    + left. exact (f_equal (fun x => (f, x)) E).
Qed.

(** ** Histories *)
Lemma world_eta w : built (w_build w) w = w.
Proof. destruct w; reflexivity. Qed.
Lemma as_built b H w : world_ok b H w -> built b w = w.
Proof. intros [W _]. rewrite <- W. apply world_eta. Qed.
Lemma built_ok b bd H w : world_ok b H w -> world_ok bd H (built bd w).
Proof. intros (_ & A & B & C). unfold world_ok, built. cbn. auto. Qed.
Lemma to_release H mode tr a : history Debug H mode tr a -> history Release H mode (map (made_in Release) tr) a.
Proof.
  induction 1 as [a E|tr a w f o f' a' r Hh IH W Hf Ho E]; [apply hist_new, E|]. cbn [map]. unfold made_in at 1. cbn [e_world e_before e_op e_reply e_after].
  refine (hist_call Release H mode _ a (built Release w) f o f' a' r IH (built_ok Debug Release H w W) Hf Ho _). pose proof (as_built _ _ _ W) as Wb.
  destruct (call_same w a f o) as [S1|[S1 _]]; rewrite Wb in S1; pose proof (eq_trans (eq_sym S1) E) as E2; [exact E2|discriminate E2].
Qed.
Section H.
  Context (H : hashes) (HH : hashes_ok H).
  Lemma stop_why mode tr a w f o f' : history Debug H mode tr a -> world_ok Debug H w -> fs_ok f -> op_ok o -> step w a f o = (f', Crash AssertFail) ->
    f' = f /\ a_state a = INIT /\ ((exists p, o = OSelect p) \/ exists dir, o = OList dir) /\ (exists l c, f l = Some c /\ misread c).
  Proof using HH.
    intros Hh W Hf Ho E. pose proof (proj1 (dies_iff H HH Debug mode tr a w f o f' AssertFail Hh W Hf Ho) E) as (-> & _ & F). split; [reflexivity|].
    assert (exists l c, f l = Some c /\ misread c) as M.
    { assert (forall p, fatal_file w f p AssertFail -> exists l c, f l = Some c /\ misread c) as Q.
      { intros p (_ & [[E1 _]|(_ & _ & x & hsz & Fx & Sx & [[E1 _]|(_ & _ & B)])]); [discriminate E1|discriminate E1|]. exists (w_loc w p), x. split; [exact Fx|]. split; [eauto|exact B]. }
      destruct o; cbn [fatal] in F; try contradiction; try (destruct F as [F _]; discriminate F).
      - destruct F as [_ F]. destruct (w_dir w dir); [contradiction|discriminate F|]. destruct F as (l1 & l2 & k & _ & _ & _ & [(_ & n & l3 & _ & _ & F)|[_ F]]); [|discriminate F]. exact (Q _ F).
      - exact (Q _ F). }
    pose proof (as_built _ _ _ W) as Wb. destruct (call_same w a f o) as [S1|(_ & S1 & S2)]; [|auto].
    rewrite Wb in S1. pose proof (eq_trans (eq_sym S1) E) as E2. exfalso. pose proof (to_release H mode tr a Hh) as Hr.
    pose proof (proj1 (dies_iff H HH Release mode _ a _ f o f AssertFail Hr (built_ok _ Release _ _ W) Hf Ho) E2) as (_ & _ & F2).
    assert (forall p, fatal_file (built Release w) f p AssertFail -> False) as Q.
    { intros p (_ & [[E1 _]|(_ & _ & x & hsz & Fx & Sx & [[E1 _]|(E1 & _)])]); discriminate E1. }
    destruct o; cbn [fatal] in F2; try contradiction; try (destruct F2 as [F2 _]; discriminate F2).
    - destruct F2 as [_ F2]. destruct (w_dir (built Release w) dir); [contradiction|discriminate F2|]. destruct F2 as (l1 & l2 & k & _ & _ & _ & [(_ & n & l3 & _ & _ & F2)|[_ F2]]); [|discriminate F2]. exact (Q _ F2).
    - exact (Q _ F2).
  Qed.
  Lemma to_debug mode tr a : history Release H mode tr a -> Forall sound_call tr -> history Debug H mode (map (made_in Debug) tr) a.
  Proof using HH.
    induction 1 as [a E|tr a w f o f' a' r Hh IH W Hf Ho E]; intros F; [apply hist_new, E|]. apply Forall_cons_iff in F. destruct F as [Fs F]. specialize (IH F).
    cbn [map]. unfold made_in at 1. cbn [e_world e_before e_op e_reply e_after].
    refine (hist_call Debug H mode _ a (built Debug w) f o f' a' r IH (built_ok Release Debug H w W) Hf Ho _). pose proof (as_built _ _ _ W) as Wb.
    destruct (call_same w a f o) as [S1|(S1 & _ & K)]; [rewrite Wb in S1; exact (eq_trans S1 E)|]. exfalso.
    destruct (stop_why mode _ a _ f o f IH (built_ok _ Debug _ _ W) Hf Ho S1) as (_ & _ & _ & l & c & Fl & M).
    unfold sound_call in Fs. cbn [e_op e_before] in Fs. destruct K as [[p ->]|[dir ->]]; exact (Fs l c Fl M).
  Qed.
  Lemma bad_dies x : lenN x < two64 -> bad_length1 x \/ bad_length2 x \/ bad_size x -> forall rnd, (forall k, lenN (rnd k) = k) -> decode_stream Debug rnd x = Crash AssertFail.
  Proof. intros L B rnd R. apply (decode_crash rnd R Debug x AssertFail L). auto. Qed.
  Lemma select_stop mode tr a w f p : history Debug H mode tr a -> world_ok Debug H w -> fs_ok f -> a_state a = INIT ->
    (step w a f (OSelect p) = (f, Crash AssertFail) <-> enc_path p /\ w_stat w p = true /\ w_read w p = true /\ exists c, f (w_loc w p) = Some c /\ misread c).
  Proof using HH.
    intros Hh W Hf Es. rewrite (dies_iff H HH Debug mode tr a w f (OSelect p) f AssertFail Hh W Hf I), Es. cbn [fatal offered]. unfold fatal_file, misread. split.
    - intros (_ & _ & Ep & [[E _]|(S1 & R1 & x & hsz & Fx & Sx & [[E _]|(_ & _ & B)])]); [discriminate E|discriminate E|]. repeat (split; [assumption|]). exists x. repeat (split; [assumption|]). split; [eauto|exact B].
    - intros (Ep & S1 & R1 & c & Fc & (hsz & Sx) & B). split; [reflexivity|]. split; [reflexivity|]. split; [exact Ep|]. right. repeat (split; [assumption|]). exists c, hsz. split; [exact Fc|]. split; [exact Sx|].
      right. split; [apply W|]. split; [reflexivity|exact B].
  Qed.
  Lemma own_sound bd mode tr a w f o p f' a' : history bd H mode tr a -> world_ok bd H w -> fs_ok f -> (o = OWrite \/ o = OWriteTo p) -> step w a f o = (f', Ret (a', ROk)) ->
    exists q c, target tr o = Some q /\ f' (w_loc w q) = Some c /\ ~ misread c.
  Proof using HH.
    intros Hh W Hf Ho E. destruct (write_history H HH bd mode tr a w f o p f' a' Hh W Hf Ho E) as (q & h & pw & data & c & T & _ & _ & _ & L & Sc & F).
    exists q, (takeN (w_room w) c). split; [exact T|]. split; [exact F|]. intros [[hsz Fit] B].
    destruct (N.lt_ge_cases (w_room w) (lenN c)) as [Lr|Lr].
    - destruct (N.eq_dec (w_room w) 0) as [E0|N0].
      + rewrite E0 in Fit. destruct Fit as (r & _ & K). change (lenN (takeN 0 c)) with 0 in K. lia.
      + assert (0 < w_room w < lenN c) as K by lia. exact (torn H HH h pw data c (w_room w) Sc L K hsz Fit).
    - rewrite takeN_all in B by exact Lr.
      assert (lenN c < two64) as Lc by (destruct (sealed_sizes H HH h pw data c Sc L) as (_ & _ & K); change (2 ^ 32) with 4294967296 in K; unfold two64; lia).
      pose proof (bad_dies c Lc B (w_rnd w 0) (proj1 (proj2 (proj2 W)) 0%nat)) as D.
      assert (no_empty_block h \/ ~ no_empty_block h) as [Ne|Ne].
      { destruct (first_empty (h_blocks h)) as [X|(l1 & ty & l2 & Eb & _)]; [left; exact X|right]. unfold no_empty_block. rewrite Eb. intros X. apply Forall_app, proj2, Forall_cons_iff, proj1 in X. apply X. reflexivity. }
      + destruct (sealed_sizes H HH h pw data c Sc L) as (_ & Lc2 & _). destruct Sc as (Hok & O & Ec). pose proof (cipher_len H HH h pw data Hok) as Lx.
        destruct (accept_any Debug (w_rnd w 0) h (cipher_of H h pw data) (proj1 (proj2 (proj2 W)) 0%nat) Hok Ne ltac:(lia)) as (d & A & _).
        rewrite Lx, <- Ec in A. rewrite A in D. discriminate D.
      + rewrite (decode_zero Debug (w_rnd w 0) c (proj1 (proj2 (proj2 W)) 0%nat) (sealed_zero H HH h pw data c Sc L Ne)) in D. discriminate D.
  Qed.
End H.
