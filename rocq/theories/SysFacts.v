(** Lemmas for several objects on the same files. *)
From Coq Require Import Strings.Byte.
From Verif Require Import Base BaseFacts BytesModel BytesFacts MiscModel MiscFacts CipherModel CipherSpec CipherFacts CipherFacts2 PwModel PwSpec PwFacts ChModel ChSpec ChFacts ChFacts2
  HeaderModel HeaderSpec HeaderFacts HeaderFacts2 HeaderFacts3 HeaderFacts4 HeaderFacts5 HeaderFacts8 HeaderFacts9 FileModel ApiModel ApiSpec ApiSpec2 FileFacts FileFacts2 ApiFacts ApiFacts2 ApiFacts3 ApiFacts4 ApiFacts5 ApiFacts6
  ApiFacts7 ApiFacts9 ApiFacts10 ApiFacts11 ApiFacts12 RefSpec RefSpec2 RefFacts4 SecSpec SecFacts SysSpec.

Section Sys.
  Variable H : hashes.
  Hypothesis HH : hashes_ok H.
  Variable bd : build.
  Variable loc : bytes -> N.
  Variable f0 : fs.

  Lemma own_same v r x : v_reply v = Some x -> own (v_obj v) (v :: r) = mkEntry (v_world v) (v_before v) (v_op v) x (v_after v) :: own (v_obj v) r.
  Proof. intros E. cbn [own]. rewrite Nat.eqb_refl, E. reflexivity. Qed.

  (** the files a call leaves are no longer than files can be *)
  Lemma step_fs_ok mode tr a w f o f' r : history bd H mode tr a -> world_ok bd H w -> fs_ok f -> op_ok o -> step w a f o = (f', r) -> fs_ok f'.
  Proof.
    intros Hh W Hf Ho E l c Ec. destruct (f l) as [c0|] eqn:E0.
    - destruct (list_eq_dec Byte.byte_eq_dec c c0) as [-> | Nc]; [exact (Hf _ _ E0)|].
      assert (f' l <> f l) as Nl by (rewrite Ec, E0; congruence).
      destruct (frame H HH bd _ _ _ _ _ _ _ _ _ Hh W Hf Ho E Nl) as ([a' ->] & p & T & Lp & X).
      assert (o = OWrite \/ o = OWriteTo p) as Hw.
      { destruct o; try contradiction; [destruct X; congruence|destruct X; congruence|left; reflexivity|].
        right. cbn [target] in T. congruence. }
      destruct (write_history H HH bd _ _ _ _ _ _ _ _ _ Hh W Hf Hw E) as (q & h & pw & data & c1 & T' & _ & _ & _ & Ld & S & F').
      assert (q = p) as -> by congruence. rewrite <- Lp in F'. rewrite F' in Ec. injection Ec as <-.
      destruct (sealed_sizes H HH h pw data c1 S Ld) as (_ & _ & Lc). rewrite lenN_takeN.
      change (2 ^ 32) with 4294967296 in Lc. change (2 ^ 63) with 9223372036854775808. lia.
    - assert (f' l <> f l) as Nl by (rewrite Ec, E0; discriminate).
      destruct (frame H HH bd _ _ _ _ _ _ _ _ _ Hh W Hf Ho E Nl) as ([a' ->] & p & T & Lp & X).
      destruct o; try contradiction; destruct X as [X1 X2]; try congruence.
      rewrite X2 in Ec. injection Ec as <-. reflexivity.
  Qed.

  Lemma sys_history tr os f : system bd H loc f0 tr os f -> fs_ok f /\ forall k, history bd H 1 (own k tr) (os k).
  Proof.
    induction 1 as [os Hf Hn|tr os f k w o f' a' r S [Hf IH] W L Ho E|tr os f k w o f' x f2 a S [Hf IH] W L Ho E X Hn].
    - split; [exact Hf|]. intros k. apply hist_new, Hn.
    - split; [exact (step_fs_ok _ _ _ _ _ _ _ _ (IH k) W Hf Ho E)|]. intros j. cbn [own v_obj v_reply v_world v_before v_op v_after]. unfold put_obj.
      rewrite (Nat.eqb_sym k j). destruct (Nat.eqb_spec j k) as [-> | Nj].
      + eapply hist_call; [exact (IH k)|exact W|exact Hf|exact Ho|exact E].
      + apply IH.
    - split; [destruct X as [-> | ->]; [exact Hf|exact (step_fs_ok _ _ _ _ _ _ _ _ (IH k) W Hf Ho E)]|]. intros j. cbn [own v_obj v_reply]. unfold put_obj.
      rewrite (Nat.eqb_sym k j). destruct (Nat.eqb_spec j k) as [-> | Nj].
      + apply hist_new, Hn.
      + apply IH.
  Qed.

  Lemma deleted_file mode tr a w f f' a' p c : history bd H mode tr a -> world_ok bd H w -> fs_ok f ->
    step w a f ODelete = (f', Ret (a', ROk)) -> selected tr = Some (p, c) -> f' (w_loc w p) = None.
  Proof.
    intros Hh W Hf E Es. assert (offered (a_state a) ODelete = true) as Of by (cbn [step] in E; destruct (a_state a); try discriminate E; reflexivity).
    destruct (w_remove w p) eqn:Er.
    - destruct (delete_outcome H HH bd _ _ _ w f p c Hh Of Es Er) as [D1 D2]. destruct (f (w_loc w p)) eqn:Ef.
      + rewrite D2 in E by discriminate. injection E as <- _. unfold upd. rewrite N.eqb_refl. reflexivity.
      + rewrite D1 in E by reflexivity. discriminate E.
    - exfalso. assert (step w a f ODelete = (f, Crash Terminate)) as X; [|congruence].
      apply (dies_iff H HH bd _ _ _ w f ODelete f Terminate Hh W Hf I). split; [reflexivity|]. split; [exact Of|]. split; [reflexivity|]. exists p, c. split; assumption.
  Qed.
  (** a successful call with a target *)
  Lemma targeted mode tr a w f o f' a' p : history bd H mode tr a -> world_ok bd H w -> fs_ok f -> op_ok o -> step w a f o = (f', Ret (a', ROk)) ->
    target tr o = Some p ->
    match o with
    | OCreate _ => f' (w_loc w p) = Some []
    | ODelete => f' (w_loc w p) = None
    | OWrite | OWriteTo _ => exists h pw data c, password tr = Some pw /\ encrypted tr = Some data /\ current H tr h /\ lenN data < 2 ^ 31 /\
        sealed H h pw data c /\ f' (w_loc w p) = Some (takeN (w_room w) c)
    | _ => False
    end.
  Proof.
    intros Hh W Hf Ho E T. destruct (machine H HH bd _ _ _ _ _ _ Hh W Hf Ho) as (_ & s & Fs & [M|[M _]]); [|congruence].
    destruct o; cbn [target] in T; try discriminate T.
    - injection T as ->. unfold matches in M. rewrite E in M. cbn [act] in M. destruct s; try (destruct M as [_ M]; discriminate M).
      unfold settle in M. destruct (named w p) as [u|e|c]; try (destruct M as [_ M]; discriminate M); [|contradiction].
      destruct (f (w_loc w p)) as [x|] eqn:Ef; [destruct M as [_ M]; discriminate M|]. destruct (w_create w p); [|destruct M as [_ M]; discriminate M].
      destruct M as [M _]. rewrite M. unfold upd. rewrite N.eqb_refl. reflexivity.
    - destruct (selected tr) as [[q x]|] eqn:Es; [|discriminate T]. injection T as ->.
      exact (deleted_file _ _ _ _ _ _ _ _ _ Hh W Hf E Es).
    - destruct (selected tr) as [[q x]|] eqn:Es; [|discriminate T]. injection T as ->.
      destruct (write_history H HH bd _ _ _ _ _ OWrite [] _ _ Hh W Hf (or_introl eq_refl) E) as (q & h & pw & data & c & T' & Q).
      cbn [target] in T'. rewrite Es in T'. injection T' as <-. exists h, pw, data, c. exact Q.
    - injection T as ->.
      destruct (write_history H HH bd _ _ _ _ _ _ p _ _ Hh W Hf (or_intror eq_refl) E) as (q & h & pw & data & c & T' & Q).
      cbn [target] in T'. injection T' as <-. exists h, pw, data, c. exact Q.
  Qed.

  (** ** the contents of the files *)
  Lemma same_or (x y : option bytes) : x = y \/ x <> y.
  Proof. destruct x as [x|], y as [y|]; try (right; discriminate); [|left; reflexivity]. destruct (list_eq_dec Byte.byte_eq_dec x y) as [-> | D]; [left; reflexivity|right; congruence]. Qed.
  (** a call that changes a file has it as its target *)
  Lemma changed tr os f k w o f' r l : system bd H loc f0 tr os f -> world_ok bd H w -> (forall p, w_loc w p = loc p) -> op_ok o ->
    step w (os k) f o = (f', r) -> f' l = f l \/ (exists a', r = Ret (a', ROk)) /\ (exists p, target (own k tr) o = Some p /\ loc p = l) /\ forall x f2, written H (mkEvent k w f o x f2) tr (f' l).
  Proof.
    intros S W L Ho E. destruct (sys_history _ _ _ S) as [Hf Hh]. destruct (same_or (f' l) (f l)) as [X|X]; [left; exact X|right].
    destruct (frame H HH bd _ _ _ _ _ _ _ _ _ (Hh k) W Hf Ho E X) as ([a' ->] & p & T & -> & _).
    split; [exists a'; reflexivity|]. split; [exists p; auto|]. intros x f2.
    pose proof (targeted _ _ _ _ _ _ _ _ _ (Hh k) W Hf Ho E T) as Q.
    unfold written. cbn [v_op v_obj v_world]. destruct o; exact Q.
  Qed.
  Lemma unchanged tr os f k w o f' r l : system bd H loc f0 tr os f -> world_ok bd H w -> (forall p, w_loc w p = loc p) -> op_ok o ->
    step w (os k) f o = (f', r) -> (forall a', r <> Ret (a', ROk)) \/ (forall p, target (own k tr) o = Some p -> loc p <> l) -> f' l = f l.
  Proof.
    intros S W L Ho E C. destruct (changed _ _ _ _ _ _ _ _ l S W L Ho E) as [X|([a' X] & (p & T & Lp) & _)]; [exact X|]. destruct C as [C|C]; [destruct (C _ X)|destruct (C _ T Lp)].
  Qed.
  Lemma touches_not k w f o r f' tr l : touches loc (mkEvent k w f o (Some r) f') tr l = false -> r <> ROk \/ (forall p, target (own k tr) o = Some p -> loc p <> l).
  Proof.
    unfold touches. cbn [v_reply v_obj v_op]. destruct r; try (left; discriminate). destruct (target (own k tr) o) as [p|]; [|right; discriminate].
    intros C. apply N.eqb_neq in C. right. intros p' [= <-]. exact C.
  Qed.
  Lemma unchanged_call tr os f k w o f' a' r l : system bd H loc f0 tr os f -> world_ok bd H w -> (forall p, w_loc w p = loc p) -> op_ok o ->
    step w (os k) f o = (f', Ret (a', r)) -> touches loc (mkEvent k w f o (Some r) f') tr l = false -> f' l = f l.
  Proof.
    intros S W L Ho E C. apply (unchanged _ _ _ _ _ _ _ _ l S W L Ho E). destruct (touches_not _ _ _ _ _ _ _ _ C) as [D|D]; [left; congruence|right; exact D].
  Qed.
  Lemma unchanged_end tr os f k w o f' x f2 l : system bd H loc f0 tr os f -> world_ok bd H w -> (forall p, w_loc w p = loc p) -> op_ok o ->
    step w (os k) f o = (f', x) -> f2 = f \/ f2 = f' -> touches loc (mkEvent k w f o None f2) tr l = false -> f2 l = f l.
  Proof.
    intros S W L Ho E [-> | ->] C; [reflexivity|]. apply (unchanged _ _ _ _ _ _ _ _ l S W L Ho E). right. intros p T Lp.
    unfold touches in C. cbn [v_reply v_obj v_op] in C. rewrite T in C. apply N.eqb_neq in C. contradiction.
  Qed.
  Lemma last_left tr os f l : system bd H loc f0 tr os f -> as_left H loc f0 tr l (f l).
  Proof.
    induction 1 as [os Hf Hn|tr os f k w o f' a' r S IH W L Ho E|tr os f k w o f' x f2 a S IH W L Ho E X Hn].
    - reflexivity.
    - cbn [as_left v_reply]. destruct (touches loc _ tr l) eqn:C; [|rewrite (unchanged_call _ _ _ _ _ _ _ _ _ l S W L Ho E C); exact IH].
      unfold touches in C. cbn [v_reply v_obj v_op] in C. destruct r; try discriminate C.
      destruct (target (own k tr) o) as [p|] eqn:T; [|discriminate C]. apply N.eqb_eq in C. subst l.
      destruct (sys_history _ _ _ S) as [Hf Hh]. pose proof (targeted _ _ _ _ _ _ _ _ _ (Hh k) W Hf Ho E T) as Q.
      unfold written. cbn [v_op v_obj v_world]. rewrite <- L. destruct o; exact Q.
    - cbn [as_left v_reply]. destruct (touches loc _ tr l) eqn:C; [|rewrite (unchanged_end _ _ _ _ _ _ _ _ _ l S W L Ho E X C); exact IH].
      destruct X as [-> | ->]; [right; exact IH|]. destruct (changed _ _ _ _ _ _ _ _ l S W L Ho E) as [X|(_ & _ & Q)]; [right; rewrite X; exact IH|left; apply Q].
  Qed.
  Lemma newest_left tr l x v older r : as_left H loc f0 tr l x -> newest loc tr l = Some (v, older) -> v_reply v = Some r -> written H v older x.
  Proof.
    induction tr as [|u tr IH]; intros A E R; cbn [newest as_left] in *; [discriminate E|]. destruct (touches loc u tr l); [injection E as -> ->; rewrite R in A; exact A|auto].
  Qed.
  Lemma newest_none tr l x : as_left H loc f0 tr l x -> newest loc tr l = None -> x = f0 l.
  Proof. induction tr as [|u tr IH]; intros A E; cbn [newest as_left] in *; [exact A|]. destruct (touches loc u tr l); [discriminate E|auto]. Qed.
  Lemma own_full tr k : Forall (fun v => full_blocks (v_op v)) tr -> Forall (fun e => full_blocks (e_op e)) (own k tr).
  Proof.
    induction 1 as [|v r A B IH]; [constructor|]. cbn [own]. destruct (Nat.eqb _ _); [|exact IH]. destruct (v_reply v); [|constructor]. constructor; assumption.
  Qed.
  Lemma current_blocks tr : forall h, Forall (fun e => full_blocks (e_op e)) tr -> current H tr h -> no_empty_block h.
  Proof.
    induction tr as [|e r IH]; intros h F C; cbn [current] in C; [contradiction|]. inversion F as [|? ? F1 F2]; subst.
    destruct (closes e); [contradiction|].
    destruct (e_op e) eqn:Eo; try (apply IH; assumption); destruct (e_reply e); try (apply IH; assumption).
    - destruct C as (hsz & l1 & l2 & rest & W). apply W.
    - destruct C as (_ & _ & _ & _ & _ & B & _). unfold no_empty_block. rewrite B. cbn [full_blocks] in F1. clear -F1.
      induction F1; constructor; assumption.
    - destruct C as (h0 & C & ->). apply (IH h0 F2 C).
  Qed.
  Lemma newest_full tr l v older : Forall (fun v => full_blocks (v_op v)) tr -> newest loc tr l = Some (v, older) -> Forall (fun v => full_blocks (v_op v)) older.
  Proof.
    induction 1 as [|u r A B IH]; intros E; cbn [newest] in E; [discriminate E|]. destruct (touches loc u r l); [injection E as <- <-; exact B|exact (IH E)].
  Qed.
  Lemma newest_after tr os f l v older : system bd H loc f0 tr os f -> newest loc tr l = Some (v, older) -> f l = v_after v l.
  Proof.
    induction 1 as [os Hf Hn|tr os f k w o f' a' r S IH W L Ho E|tr os f k w o f' x f2 a S IH W L Ho E X Hn]; cbn [newest]; intros N1; [discriminate N1| |].
    - destruct (touches loc _ tr l) eqn:C; [injection N1 as <- <-; reflexivity|]. rewrite (unchanged_call _ _ _ _ _ _ _ _ _ l S W L Ho E C). exact (IH N1).
    - destruct (touches loc _ tr l) eqn:C; [injection N1 as <- <-; reflexivity|]. rewrite (unchanged_end _ _ _ _ _ _ _ _ _ l S W L Ho E X C). exact (IH N1).
  Qed.
  Lemma last_write tr os f l v older : system bd H loc f0 tr os f -> Forall (fun v => full_blocks (v_op v)) tr -> newest loc tr l = Some (v, older) -> saves v l ->
    exists h pw data c, password (own (v_obj v) older) = Some pw /\ encrypted (own (v_obj v) older) = Some data /\ current H (own (v_obj v) older) h /\ no_empty_block h /\
      lenN data < 2 ^ 31 /\ sealed H h pw data c /\ f l = Some c.
  Proof.
    intros S F E Wr. destruct Wr as (Wr & Rp & R). pose proof (newest_left _ _ _ _ _ _ (last_left _ _ _ l S) E Rp) as Q.
    assert (exists h pw data c, password (own (v_obj v) older) = Some pw /\ encrypted (own (v_obj v) older) = Some data /\
        current H (own (v_obj v) older) h /\ lenN data < 2 ^ 31 /\ sealed H h pw data c /\ f l = Some (takeN (w_room (v_world v)) c)) as (h & pw & data & c & Q1 & Q2 & Q3 & Q4 & Q5 & Q6).
    { unfold written in Q. destruct Wr as [Wr|[q Wr]]; rewrite Wr in Q; exact Q. }
    exists h, pw, data, c. spl; try assumption.
    - apply (current_blocks (own (v_obj v) older)); [|exact Q3]. apply own_full, (newest_full _ _ _ _ F E).
    - rewrite (newest_after _ _ _ _ _ _ S E) in Q6. unfold content in R. rewrite Q6, lenN_takeN in R. rewrite (newest_after _ _ _ _ _ _ S E), Q6, takeN_all; [reflexivity|]. lia.
  Qed.
  (** what was written last is what opening the file gives *)
  Lemma reopened tr os f p v older : system bd H loc f0 tr os f -> Forall (fun v => full_blocks (v_op v)) tr -> newest loc tr (loc p) = Some (v, older) -> saves v (loc p) ->
    exists h pw data, password (own (v_obj v) older) = Some pw /\ encrypted (own (v_obj v) older) = Some data /\ current H (own (v_obj v) older) h /\
      forall ws t, (forall i, at_hand bd H (ws i) p (loc p)) -> enc_path p -> t < 2 ^ 64 ->
        verify_in_time (ws 1%nat) t (iterations (h_ch1 h)) (iterations (h_ch2 h)) -> patient (ws 2%nat) (lenN data) ->
        exists b a', calls [(ws 0%nat, OSelect p); (ws 1%nat, OVerify pw t); (ws 2%nat, ODecrypt)] (fresh 1) f = Some ([ROk; ROk; RData (mkFD (Some 1) (Some b))], a', f) /\ bdata b = data.
  Proof.
    intros S F E Wr. destruct (last_write _ _ _ _ _ _ S F E Wr) as (h & pw & data & c & Q1 & Q2 & Q3 & Q4 & Q5 & Q6 & Q7).
    exists h, pw, data. spl; try assumption. intros ws t A Ep Lt T P.
    destruct (reopen_data H HH bd ws p (loc p) f h pw data c t A Ep Q7 Q6 Q4 Q5 Lt T P) as (b & a' & X & B & _). exists b, a'. split; assumption.
  Qed.

  (** ** reading while others write *)
  Lemma undisturbed_same tr os f k p c : system bd H loc f0 tr os f -> selected (own k tr) = Some (p, c) -> undisturbed loc k p tr = true -> content f (loc p) = c.
  Proof.
    induction 1 as [os Hf Hn|tr os f j w o f' a' r S IH W L Ho E|tr os f j w o f' x f2 a S IH W L Ho E X Hn]; intros Q U.
    - discriminate U.
    - cbn [own undisturbed v_obj v_op v_reply v_world v_before v_after] in Q, U. destruct (Nat.eqb_spec j k) as [-> | Nj].
      + cbn [selected] in Q. unfold closes in Q. cbn [e_op e_reply e_before e_world] in Q.
        assert ((exists q, o = OSelect q /\ r = ROk) \/ (selected (own k tr) = Some (p, c) /\ negb (touches loc (mkEvent k w f o (Some r) f') tr (loc p)) && undisturbed loc k p tr = true)) as [(q & -> & ->)|[Q' U']].
        { destruct o; try (right; split; [destruct r; (exact Q || discriminate Q)|exact U]; fail). destruct r; try (right; split; [exact Q|exact U]; fail). left. exists p0. auto. }
        * injection Q as <- <-. rewrite L. unfold content. rewrite (unchanged_call _ _ _ _ _ _ _ _ _ (loc q) S W L Ho E); reflexivity.
        * apply andb_true_iff in U'. destruct U' as [U1 U2]. apply negb_true_iff in U1. unfold content. rewrite (unchanged_call _ _ _ _ _ _ _ _ _ (loc p) S W L Ho E U1). apply IH; assumption.
      + assert (negb (touches loc (mkEvent j w f o (Some r) f') tr (loc p)) && undisturbed loc k p tr = true) as U' by exact U.
        apply andb_true_iff in U'. destruct U' as [U1 U2]. apply negb_true_iff in U1. unfold content. rewrite (unchanged_call _ _ _ _ _ _ _ _ _ (loc p) S W L Ho E U1). apply IH; assumption.
    - cbn [own undisturbed v_obj v_op v_reply v_world v_before v_after] in Q, U. destruct (Nat.eqb_spec j k) as [-> | Nj]; [discriminate Q|].
      assert (negb (touches loc (mkEvent j w f o None f2) tr (loc p)) && undisturbed loc k p tr = true) as U' by exact U.
      apply andb_true_iff in U'. destruct U' as [U1 U2]. apply negb_true_iff in U1. unfold content. rewrite (unchanged_end _ _ _ _ _ _ _ _ _ (loc p) S W L Ho E X U1). apply IH; assumption.
  Qed.
  Lemma read_sealed tr a w f f' a' x p c h pw data : history bd H 1 tr a -> world_ok bd H w -> fs_ok f -> step w a f ODecrypt = (f', Ret (a', RData x)) ->
    selected tr = Some (p, c) -> f (w_loc w p) = Some c -> sealed H h pw data c -> no_empty_block h -> lenN data < 2 ^ 31 ->
    exists b pw', x = mkFD (Some 1) (Some b) /\ verified tr = Some pw' /\ (pw' = pw -> bdata b = data) /\ (pw' = pw \/ collide H h pw pw').
  Proof.
    intros Hh W Hf Ed Sel Fc Q6 Q4 Q5.
    destruct (data_reply H HH bd 1 tr a w f ODecrypt f' a' x Hh W Hf I Ed) as [[X _]|(_ & p' & c' & pw' & h' & hsz & l1 & l2 & rest & b & S1 & S2 & S3 & S4 & S5 & S6)]; [discriminate X|].
    rewrite Sel in S1. injection S1 as <- <-.
    destruct (sealed_written H HH h pw data c Q6 Q4 Q5) as (L1 & L2 & L3 & L4 & Wc).
    destruct (written_unique _ _ _ _ _ _ _ _ _ _ _ (lt63_two64 _ L3) Wc S3) as [<- <-].
    assert (hsz = hdr_len h) as ->.
    { destruct (written_size _ _ _ _ _ _ Wc) as [r1 E1]. destruct (written_size _ _ _ _ _ _ S3) as [r2 E2].
      rewrite E1 in E2 at 1. apply app_inv_head in E2. apply u64_inj in E2; [symmetry; apply E2| |];
        [unfold two64; pose proof (hdr_len_small h ltac:(apply Q6)); lia|destruct S3 as (_ & _ & X & _); pose proof (lt63_two64 _ L3); lia]. }
    exists b, pw'. split; [exact S5|]. split; [exact S2|]. split.
    - intros ->. rewrite S6. unfold content. rewrite Fc.
      rewrite takeN_all by (rewrite L2, (cipher_len H HH) by apply Q6; lia). rewrite L2. apply (plain_of_cipher H HH). apply Q6.
    - destruct (list_eq_dec Byte.byte_eq_dec pw' pw) as [D|D]; [left; exact D|right]. destruct Q6 as (Hok & O & _). apply both_open; auto.
  Qed.
  Lemma fresh_read tr os f k w f' a' x p c v older : system bd H loc f0 tr os f -> Forall (fun v => full_blocks (v_op v)) tr -> newest loc tr (loc p) = Some (v, older) -> saves v (loc p) ->
    world_ok bd H w -> (forall q, w_loc w q = loc q) -> step w (os k) f ODecrypt = (f', Ret (a', RData x)) ->
    selected (own k tr) = Some (p, c) -> undisturbed loc k p tr = true ->
    exists h pw pw' data b, current H (own (v_obj v) older) h /\ password (own (v_obj v) older) = Some pw /\ encrypted (own (v_obj v) older) = Some data /\
      verified (own k tr) = Some pw' /\ x = mkFD (Some 1) (Some b) /\ (pw' = pw -> bdata b = data) /\ (pw' = pw \/ collide H h pw pw').
  Proof.
    intros S F E Wr W L Ed Sel U. destruct (last_write _ _ _ _ _ _ S F E Wr) as (h & pw & data & c' & Q1 & Q2 & Q3 & Q4 & Q5 & Q6 & Q7).
    destruct (sys_history _ _ _ S) as [Hf Hh]. pose proof (undisturbed_same _ _ _ _ _ _ S Sel U) as Ec. unfold content in Ec. rewrite Q7 in Ec. subst c'. rewrite <- L in Q7.
    destruct (read_sealed _ _ _ _ _ _ _ _ _ _ _ _ (Hh k) W Hf Ed Sel Q7 Q6 Q4 Q5) as (b & pw' & R1 & R2 & R3 & R4). exists h, pw, pw', data, b. auto 10.
  Qed.
  (** nothing is read that nobody saved *)
  Lemma left_cases tr l x : as_left H loc f0 tr l x -> x = f0 l \/ x = None \/ x = Some [] \/
    exists newer v older, tr = (newer ++ v :: older)%list /\ touches loc v older l = true /\ (v_op v = OWrite \/ exists q, v_op v = OWriteTo q) /\ written H v older x.
  Proof.
    induction tr as [|u tr IH]; cbn [as_left]; intros A; [left; exact A|].
    assert (as_left H loc f0 tr l x \/ (touches loc u tr l = true /\ written H u tr x)) as [B|[T B]].
    { destruct (touches loc u tr l); [destruct (v_reply u); [|destruct A]; auto|auto]. }
    - destruct (IH B) as [C|[C|[C|(newer & v & older & -> & C)]]]; auto. right. right. right. exists (u :: newer), v, older. split; [reflexivity|exact C].
    - pose proof B as B'. unfold written in B. destruct (v_op u) eqn:Eu; try contradiction; auto; right; right; right; exists [], u, tr; (split; [reflexivity|]); (split; [exact T|]); split; try exact B'; eauto.
  Qed.
  Lemma read_was_saved tr os f k w f' a' x p c : system bd H loc f0 tr os f -> Forall (fun v => full_blocks (v_op v)) tr -> f0 (loc p) = None \/ f0 (loc p) = Some [] ->
    world_ok bd H w -> (forall q, w_loc w q = loc q) -> step w (os k) f ODecrypt = (f', Ret (a', RData x)) ->
    selected (own k tr) = Some (p, c) -> undisturbed loc k p tr = true ->
    exists newer v older h pw pw' data b, tr = (newer ++ v :: older)%list /\ touches loc v older (loc p) = true /\ (v_op v = OWrite \/ exists q, v_op v = OWriteTo q) /\
      current H (own (v_obj v) older) h /\ password (own (v_obj v) older) = Some pw /\ encrypted (own (v_obj v) older) = Some data /\
      verified (own k tr) = Some pw' /\ x = mkFD (Some 1) (Some b) /\ (pw' = pw -> bdata b = data) /\ (pw' = pw \/ collide H h pw pw').
  Proof.
    intros S F F0 W L Ed Sel U. destruct (sys_history _ _ _ S) as [Hf Hh]. pose proof (undisturbed_same _ _ _ _ _ _ S Sel U) as Ec. unfold content in Ec.
    destruct (data_reply H HH bd 1 (own k tr) (os k) w f ODecrypt f' a' x (Hh k) W Hf I Ed) as [[X _]|(_ & p' & c' & pw' & h' & hsz & l1 & l2 & rest & b & S1 & S2 & S3 & S4 & S5 & S6)]; [discriminate X|].
    rewrite Sel in S1. injection S1 as <- <-. destruct (written_size _ _ _ _ _ _ S3) as [r2 E2].
    assert (8 <= lenN c) as L8 by (apply (f_equal lenN) in E2; rewrite !lenN_app, !u64_len in E2; lia).
    assert (c <> []) as Nc by (intros ->; apply (f_equal lenN) in E2; rewrite !lenN_app, !u64_len in E2; change (lenN (@nil byte)) with 0 in E2; lia).
    destruct (left_cases _ _ _ (last_left _ _ _ (loc p) S)) as [C|[C|[C|(newer & v & older & Et & T & Wv & C)]]].
    - exfalso. rewrite C in Ec. destruct F0 as [F0|F0]; rewrite F0 in Ec; congruence.
    - exfalso. rewrite C in Ec. congruence.
    - exfalso. rewrite C in Ec. congruence.
    - assert (exists h pw data c0, password (own (v_obj v) older) = Some pw /\ encrypted (own (v_obj v) older) = Some data /\
        current H (own (v_obj v) older) h /\ lenN data < 2 ^ 31 /\ sealed H h pw data c0 /\ f (loc p) = Some (takeN (w_room (v_world v)) c0)) as (h & pw & data & c0 & Q1 & Q2 & Q3 & Q4 & Q5 & Q6).
      { unfold written in C. destruct Wv as [Wv|[q Wv]]; rewrite Wv in C; exact C. }
      rewrite Q6 in Ec.
      assert (no_empty_block h) as Ne. { apply (current_blocks (own (v_obj v) older)); [|exact Q3]. apply own_full. rewrite Et in F. apply Forall_app in F. destruct F as [_ F]. inversion F; assumption. }
      destruct (sealed_written H HH h pw data c0 Q5 Ne Q4) as (L1 & L2 & L3 & L4 & Wc). destruct (written_size _ _ _ _ _ _ Wc) as [r1 E1].
      assert (takeN (w_room (v_world v)) c0 = c0) as Et0.
      { apply takeN_all. rewrite <- Ec in E2. rewrite lenN_takeN in E2. rewrite E1 in E2 at 1.
        rewrite <- Ec, lenN_takeN in L8. rewrite takeN_app_ge in E2 by (rewrite u64_len; lia). apply u64_inj in E2; pose proof (lt63_two64 _ L3); lia. }
      rewrite Et0 in Q6, Ec. subst c0. rewrite <- L in Q6.
      destruct (read_sealed _ _ _ _ _ _ _ _ _ _ _ _ (Hh k) W Hf Ed Sel Q6 Q5 Ne Q4) as (b' & pw2 & R1 & R2 & R3 & R4). exists newer, v, older, h, pw, pw2, data, b'. spl; assumption.
  Qed.
End Sys.

(** ** running several objects; a process is ended in the calls marked so, otherwise it must answer *)
Inductive fate := Lives | Dies_before | Dies_after.
Fixpoint sys_play (l : list (nat * world * op * fate)) (tr : list event) (os : nat -> api) (f : fs) : option (list event * (nat -> api) * fs) :=
  match l with
  | [] => Some (tr, os, f)
  | (k, w, o, d) :: r =>
      match d, step w (os k) f o with
      | Lives, (f', Ret (a', x)) => sys_play r (mkEvent k w f o (Some x) f' :: tr) (put_obj os k a') f'
      | Lives, _ => None
      | Dies_before, _ => sys_play r (mkEvent k w f o None f :: tr) (put_obj os k (fresh 1)) f
      | Dies_after, (f', _) => sys_play r (mkEvent k w f o None f' :: tr) (put_obj os k (fresh 1)) f'
      end
  end.
Definition turn_ok (bd : build) (H : hashes) (loc : bytes -> N) (x : nat * world * op * fate) : Prop :=
  match x with (_, w, o, _) => world_ok bd H w /\ (forall p, w_loc w p = loc p) /\ op_ok o end.
Lemma sys_play_system bd H loc f0 l : forall tr os f tr' os' f', system bd H loc f0 tr os f -> Forall (turn_ok bd H loc) l ->
  sys_play l tr os f = Some (tr', os', f') -> system bd H loc f0 tr' os' f'.
Proof.
  induction l as [|[[[k w] o] d] l IH]; intros tr os f tr' os' f' S F E; cbn [sys_play] in E.
  - injection E as <- <- <-. exact S.
  - inversion F as [|? ? F0 F4]; subst. destruct F0 as (F1 & F2 & F3). destruct (step w (os k) f o) as [f1 r] eqn:Es. destruct d.
    + destruct r as [[a' x]|e|c|]; try discriminate E; (eapply IH; [|exact F4|exact E]). eapply sys_call; eauto.
    + eapply IH; [|exact F4|exact E]. eapply sys_end; eauto.
    + eapply IH; [|exact F4|exact E]. eapply sys_end; eauto.
Qed.
Lemma sys_play_ops (Q : op -> Prop) l : forall tr os f tr' os' f', Forall (fun v => Q (v_op v)) tr -> Forall (fun x => Q (snd (fst x))) l ->
  sys_play l tr os f = Some (tr', os', f') -> Forall (fun v => Q (v_op v)) tr'.
Proof.
  induction l as [|[[[k w] o] d] l IH]; intros tr os f tr' os' f' S F E; cbn [sys_play] in E.
  - injection E as <- <- <-. exact S.
  - inversion F as [|? ? F1 F2]; subst. destruct (step w (os k) f o) as [f1 r]. destruct d; [destruct r as [[a' x]| | |]; try discriminate E| |];
      (eapply IH; [|exact F2|exact E]); constructor; assumption.
Qed.
Lemma sys_example bd H loc f0 l (Q : op -> Prop) (P : list event -> (nat -> api) -> fs -> Prop) : fs_ok f0 -> Forall (turn_ok bd H loc) l -> Forall (fun x => Q (snd (fst x))) l ->
  match sys_play l [] (fun _ => fresh 1) f0 with Some (tr, os, f) => P tr os f | None => False end ->
  exists tr os f, system bd H loc f0 tr os f /\ Forall (fun v => Q (v_op v)) tr /\ P tr os f.
Proof.
  intros Hf F G E. destruct (sys_play l [] _ f0) as [[[tr os] f]|] eqn:Ep; [|contradiction]. exists tr, os, f. split; [|split; [|exact E]].
  - eapply sys_play_system; [|exact F|exact Ep]. apply sys_new; [exact Hf|reflexivity].
  - eapply sys_play_ops; [|exact G|exact Ep]. constructor.
Qed.
