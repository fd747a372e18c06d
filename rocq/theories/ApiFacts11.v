(** Exactly which calls end the process, and which return. *)
From Coq Require Import Strings.Byte.
From Verif Require Import Base BaseFacts BytesModel BytesFacts MiscModel MiscFacts CipherModel CipherSpec CipherFacts CipherFacts2 PwModel PwSpec PwFacts ChModel ChSpec ChFacts ChFacts2
  HeaderModel HeaderSpec HeaderFacts HeaderFacts2 HeaderFacts3 HeaderFacts4 HeaderFacts5 HeaderFacts8 HeaderFacts9 FileModel ApiModel ApiSpec ApiSpec2 FileFacts ApiFacts ApiFacts2 ApiFacts3 ApiFacts4 ApiFacts5 ApiFacts6 ApiFacts10.
Ltac Zify.zify_post_hook ::= Z.div_mod_to_equations.

(** ** opening a file *)
Lemma fatal_open w f p c x : openable w f p x -> fatal_file w f p c -> exists hsz, sizes_fit x hsz /\
  ((c = Terminate /\ zero_block x) \/ (w_build w = Debug /\ c = AssertFail /\ (bad_length1 x \/ bad_length2 x \/ bad_size x))).
Proof.
  intros (_ & S & F & R) (_ & [[_ S']|(_ & _ & x' & hsz & F' & Sf & D)]); [congruence|]. assert (x' = x) by congruence. subst x'. eauto.
Qed.
Lemma fatal_closed w f p c : (forall x, ~ openable w f p x) -> fatal_file w f p c -> c = Terminate /\ w_stat w p = false.
Proof. intros No (E & [X|(S & R & x & hsz & F & _)]); [exact X|]. exfalso. apply (No x). unfold openable. auto. Qed.
Lemma open_cases bd H w f p : world_ok bd H w -> fs_ok f ->
  (exists c, fatal_file w f p c /\ (forall c', fatal_file w f p c' -> c' = c) /\
     (getFileHandler w f p = Crash c \/ exists h, getFileHandler w f p = dret h /\ fh_empty h = false /\ forall i, fh_getDataHeader w f i h = Crash c)) \/
  ((forall c, ~ fatal_file w f p c) /\
     ((exists e, getFileHandler w f p = dfail e) \/ (exists h, getFileHandler w f p = dret h /\ fh_empty h = true) \/
      exists h, getFileHandler w f p = dret h /\ fh_empty h = false /\ forall i, exists r, fh_getDataHeader w f i h = Ret r /\ forall d, r = inr d -> exists hd, holds d hd)).
Proof.
  intros (Wb & _ & R & _) Hf.
  destruct (handler_cases w f p Hf) as [(c & O & -> & E & _)|[(c & hsz & O & L & Lh & S & E & _)|[(c & e & O & _ & No & _ & E & _)|[(No & Ep & St & E & _)|(No & e & E & _ & D)]]]].
  - right. split; [|right; left; eexists; split; [exact E|reflexivity]]. intros c X. destruct (fatal_open _ _ _ _ _ O X) as (hsz & S & _). apply fit_nonempty in S. congruence.
  - assert (forall i, fh_getDataHeader w f i (mkFH p hsz (lenN c) false) = noexcept ('(d, _) <~ decode_stream bd (w_rnd w i) c ;; dret d)) as Ed.
    { intros i. unfold fh_getDataHeader. cbn [fh_path]. rewrite (openable_stream _ _ _ _ O), Wb. reflexivity. }
    destruct (decode_no_throw (w_rnd w 0) (R 0%nat) bd c L) as [[r D]|[k D]].
    + assert (forall k, ~ ((k = Terminate /\ zero_block c) \/ (bd = Debug /\ k = AssertFail /\ (bad_length1 c \/ bad_length2 c \/ bad_size c)))) as N0.
      { intros k X. apply (decode_crash (w_rnd w 0) (R 0%nat) bd c k L) in X. congruence. }
      right. split.
      { intros k X. destruct (fatal_open _ _ _ _ _ O X) as (hsz' & _ & Y). rewrite Wb in Y. exact (N0 k Y). }
      right; right. eexists. split; [exact E|]. split; [reflexivity|]. intros i. rewrite Ed.
      destruct (decode_no_throw (w_rnd w i) (R i) bd c L) as [[[e|[d rest]] D']|[k D']]; rewrite D'.
      * eexists. split; [reflexivity|]. discriminate.
      * eexists. split; [reflexivity|]. intros d' [= <-]. destruct (decode_ret bd _ _ _ _ (R i) L D') as (h1 & l1 & l2 & h & W & -> & _). exists h.
        split; [apply decoded_hinv|apply decoded_contents]; try apply W; exact L.
      * apply (decode_crash (w_rnd w i) (R i) bd c k L) in D'. exfalso. exact (N0 k D').
    + pose proof (proj1 (decode_crash (w_rnd w 0) (R 0%nat) bd c k L) D) as X.
      left. exists k. split.
      { pose proof O as (Ep & St & F & Rd). split; [exact Ep|]. right. split; [exact St|]. split; [exact Rd|]. exists c, hsz. rewrite Wb. auto. }
      split.
      { intros k' X'. destruct (fatal_open _ _ _ _ _ O X') as (hsz' & _ & Y). rewrite Wb in Y. apply (decode_crash (w_rnd w 0) (R 0%nat) bd c k' L) in Y. congruence. }
      right. eexists. split; [exact E|]. split; [reflexivity|]. intros i. rewrite Ed. rewrite (proj2 (decode_crash (w_rnd w i) (R i) bd c k L) X). reflexivity.
  - right. split; [|left; eauto]. intros k X. destruct (fatal_open _ _ _ _ _ O X) as (hsz & S & _). apply (No hsz); [|exact S].
    destruct S as (_ & _ & S). pose proof (Hf _ _ (proj1 (proj2 (proj2 O)))) as L. apply lt63_two64 in L. lia.
  - left. exists Terminate. split; [split; [exact Ep|left; auto]|]. split; [|left; exact E]. intros c X. apply (fatal_closed _ _ _ _ No X).
  - right. split; [|left; eauto]. intros k X. pose proof X as [Ep _]. destruct (fatal_closed _ _ _ _ No X) as [_ St].
    destruct D as [[-> _]|[(_ & N1 & _)|[(_ & S1 & _)|(_ & S1 & _)]]]; [apply enc_path_nonempty in Ep; discriminate|contradiction|congruence|congruence].
Qed.

(** ** listing a directory *)
Definition keep (e : bytes * bool) : bool := snd e && eqb_bytes (extension (fst e)) enc_extension.
Lemma keep_iff e : keep e = true <-> enc_entry e.
Proof.
  unfold keep, enc_entry. rewrite andb_true_iff. split; intros [A B]; split; try exact A; [apply extension_enc, eqb_bytes_spec, B|apply ext_true, B].
Qed.
Definition spared (w : world) (f : fs) (dir : bytes) (e : bytes * bool) : Prop := enc_entry e -> forall c, ~ fatal_file w f (join dir (fst e)) c.
Lemma looked_app l1 : forall l2 k, looked_at_in (l1 ++ l2) k <-> exists k1 k2, looked_at_in l1 k1 /\ looked_at_in l2 k2 /\ k = k1 + k2.
Proof.
  induction l1 as [|e l1 IH]; intros l2 k; cbn [app].
  - split; [intros L; exists 0, k; spl; [constructor|exact L|lia]|]. intros (k1 & k2 & A & B & ->). inversion A. exact B.
  - split.
    + intros L. inversion L as [|e' l n E L'|e' l n E L']; subst; apply IH in L' as (k1 & k2 & A & B & ->).
      * exists (k1 + 1), k2. spl; [apply look_one; assumption|exact B|lia].
      * exists k1, k2. spl; [apply look_past; assumption|exact B|reflexivity].
    + intros (k1 & k2 & A & B & ->). inversion A as [|e' l n E L'|e' l n E L']; subst.
      * replace (n + 1 + k2) with (n + k2 + 1) by lia. apply look_one; [exact E|]. apply IH. eauto.
      * apply look_past; [exact E|]. apply IH. eauto.
Qed.
Lemma looked_unique l : forall k k', looked_at_in l k -> looked_at_in l k' -> k = k'.
Proof.
  induction l as [|e l IH]; intros k k' A B; inversion A; inversion B; subst; try contradiction; try reflexivity; [f_equal|]; eapply IH; eassumption.
Qed.
Lemma looked_prefix l : forall k j, looked_at_in l k -> j <= k -> exists l1 l2, l = l1 ++ l2 /\ looked_at_in l1 j.
Proof.
  induction l as [|e l IH]; intros k j L Lj; inversion L as [|e' l' n E L'|e' l' n E L']; subst.
  - exists [], []. split; [reflexivity|]. replace j with 0 by lia. constructor.
  - destruct (N.eq_dec j 0) as [->|Nj]; [exists [], (e :: l); split; [reflexivity|constructor]|].
    destruct (IH n (j - 1) L' ltac:(lia)) as (l1 & l2 & -> & A). exists (e :: l1), l2. split; [reflexivity|]. replace j with (j - 1 + 1) by lia. apply look_one; assumption.
  - destruct (IH k j L' Lj) as (l1 & l2 & -> & A). exists (e :: l1), l2. split; [reflexivity|]. apply look_past; assumption.
Qed.
Lemma next_index i : N.of_nat i < 2 ^ 31 -> (N.of_nat i = INT_MAX /\ N.of_nat i + 1 = 2 ^ 31) \/ (N.of_nat i <> INT_MAX /\ N.of_nat (S i) < 2 ^ 31 /\ N.of_nat (S i) = N.of_nat i + 1).
Proof. intros L. unfold INT_MAX. change (2 ^ 31) with 2147483648 in *. lia. Qed.
Lemma list_cases bd H w f dir : world_ok bd H w -> fs_ok f -> forall l i ret, N.of_nat i < 2 ^ 31 ->
  (exists l1 n l2 k c, l = l1 ++ (n, true) :: l2 /\ looked_at_in l1 k /\ N.of_nat i + k < 2 ^ 31 /\ enc_path n /\ fatal_file w f (join dir n) c /\ harmless w f dir l1 /\
     relevant_loop w f i 1 dir (map fst (filter keep l)) ret = Crash c) \/
  (exists l1 l2 k, l = l1 ++ l2 /\ looked_at_in l1 k /\ N.of_nat i + k = 2 ^ 31 /\ harmless w f dir l1 /\
     relevant_loop w f i 1 dir (map fst (filter keep l)) ret = Crash Undefined) \/
  (harmless w f dir l /\ (exists k, looked_at_in l k /\ N.of_nat i + k < 2 ^ 31) /\ exists x, relevant_loop w f i 1 dir (map fst (filter keep l)) ret = Ret x).
Proof.
  intros W Hf. induction l as [|[n b] l IH]; intros i ret Li.
  { right. right. split; [constructor|]. split; [exists 0; split; [constructor|lia]|]. exists ret. reflexivity. }
  cbn [filter]. destruct (keep (n, b)) eqn:K.
  - pose proof (proj1 (keep_iff _) K) as En. pose proof En as [Kb Kn]. cbn [fst snd] in Kb, Kn. subst b. cbn [map fst relevant_loop].
    destruct (open_cases bd H w f (join dir n) W Hf) as [(c & Fc & _ & D)|(Nf & D)].
    + left. exists [], n, l, 0, c. spl; try assumption; [reflexivity|constructor|lia|constructor|]. destruct D as [->|(h & -> & Em & D)]; [reflexivity|].
      cbn [dret bind]. rewrite Em. unfold fh_isDataHeader. rewrite D. reflexivity.
    + assert (spared w f dir (n, true)) as Sp by (intros _; exact Nf).
      assert (forall ret', (exists l1 n' l2 k c, (n, true) :: l = l1 ++ (n', true) :: l2 /\ looked_at_in l1 k /\ N.of_nat i + k < 2 ^ 31 /\ enc_path n' /\ fatal_file w f (join dir n') c /\ harmless w f dir l1 /\
          count_up i (relevant_loop w f (S i) 1 dir (map fst (filter keep l)) ret') = Crash c) \/
        (exists l1 l2 k, (n, true) :: l = l1 ++ l2 /\ looked_at_in l1 k /\ N.of_nat i + k = 2 ^ 31 /\ harmless w f dir l1 /\
          count_up i (relevant_loop w f (S i) 1 dir (map fst (filter keep l)) ret') = Crash Undefined) \/
        (harmless w f dir ((n, true) :: l) /\ (exists k, looked_at_in ((n, true) :: l) k /\ N.of_nat i + k < 2 ^ 31) /\
          exists x, count_up i (relevant_loop w f (S i) 1 dir (map fst (filter keep l)) ret') = Ret x)) as IH'.
      { intros ret'. unfold count_up. destruct (next_index i Li) as [[Ei Ei']|(Ni & Ls & Es)].
        { apply N.eqb_eq in Ei. rewrite Ei. right. left. exists [(n, true)], l, (0 + 1). spl; [reflexivity|apply look_one; [exact En|constructor]|lia|constructor; [exact Sp|constructor]|reflexivity]. }
        apply N.eqb_neq in Ni. rewrite Ni.
        destruct (IH (S i) ret' Ls) as [(l1 & n' & l2 & k & c & -> & Lk & Lt & A & B & C & D')|[(l1 & l2 & k & -> & Lk & Lt & C & D')|(A & (k & Lk & Lt) & B)]].
        - left. exists ((n, true) :: l1), n', l2, (k + 1), c. spl; try assumption; [reflexivity|apply look_one; assumption|lia|constructor; assumption].
        - right. left. exists ((n, true) :: l1), l2, (k + 1). spl; try assumption; [reflexivity|apply look_one; assumption|lia|constructor; assumption].
        - right. right. split; [constructor; assumption|]. split; [|exact B]. exists (k + 1). split; [apply look_one; assumption|lia]. }
      destruct D as [[e ->]|[(h & -> & Em)|(h & -> & Em & D)]]; cbn [dret dfail bind].
      * apply IH'.
      * rewrite Em. cbn [bind]. apply IH'.
      * rewrite Em. unfold fh_isDataHeader. destruct (D i) as (r & -> & Hr). destruct r as [e|d]; cbn [dbind bind noexcept]; [apply IH'|].
        destruct (Hr d eq_refl) as (hd & Hd). rewrite (holds_parts d hd Hd). destruct (holds_good d hd Hd) as (v & s & G & _). cbn [bind].
        unfold p_getFileDataMode. rewrite (g_fmode _ _ _ _ G). cbn. apply IH'.
  - assert (~ enc_entry (n, b)) as Ne by (intros X; apply keep_iff in X; congruence). assert (spared w f dir (n, b)) as Sp by (intros X; contradiction).
    destruct (IH i ret Li) as [(l1 & n' & l2 & k & c & -> & Lk & Lt & A & B & C & D')|[(l1 & l2 & k & -> & Lk & Lt & C & D')|(A & (k & Lk & Lt) & B)]].
    + left. exists ((n, b) :: l1), n', l2, k, c. spl; try assumption; [reflexivity|apply look_past; assumption|constructor; assumption].
    + right. left. exists ((n, b) :: l1), l2, k. spl; try assumption; [reflexivity|apply look_past; assumption|constructor; assumption].
    + right. right. split; [constructor; assumption|]. split; [|exact B]. exists k. split; [apply look_past; assumption|exact Lt].
Qed.
Lemma first_unique {A} (P : A -> Prop) l1 : forall x l2 l1' x' l2', l1 ++ x :: l2 = l1' ++ x' :: l2' -> Forall P l1 -> Forall P l1' -> ~ P x -> ~ P x' -> x = x'.
Proof.
  induction l1 as [|y l1 IH]; intros x l2 [|y' l1'] x' l2' E F F' B B'; cbn in E; injection E as E1 E2.
  - exact E1.
  - subst. inversion F'; contradiction.
  - subst. inversion F; contradiction.
  - inversion F; inversion F'; subst. eapply IH; eassumption.
Qed.
(** a file that ends the process comes before the index overflows, or it does not *)
Lemma not_both w f dir l1 n l2 k c l1' l2' k' : l1 ++ (n, true) :: l2 = l1' ++ l2' -> looked_at_in l1 k -> k < 2 ^ 31 -> enc_path n -> fatal_file w f (join dir n) c ->
  looked_at_in l1' k' -> k' = 2 ^ 31 -> harmless w f dir l1' -> False.
Proof.
  intros E L Lt Ep F L' Lk Hl. apply app_eq_app in E as (z & [[-> E]|[-> E]]).
  - apply looked_app in L as (a & b & A & B & ->). pose proof (looked_unique _ _ _ A L'). lia.
  - destruct z as [|y z]; cbn [app] in E.
    + rewrite app_nil_r in L'. pose proof (looked_unique _ _ _ L L'). lia.
    + injection E as <- _. apply Forall_app in Hl as [_ Hl]. inversion Hl as [|? ? X _]; subst. exact (X (conj eq_refl Ep) c F).
Qed.

(** ** all calls *)
Lemma selected_enc bd H mode tr a p x : history bd H mode tr a -> selected tr = Some (p, x) -> enc_path p.
Proof.
  intros Hh. revert p x. induction Hh as [a E|tr a w f o f' a' r Hh IH W Hf Ho E]; intros p x; cbn [selected]; [discriminate|].
  destruct (closes _) eqn:C; [discriminate|]. cbn [e_op e_reply e_before e_world].
  destruct o; try exact (IH p x). destruct r; try exact (IH p x). intros [= <- _]. clear C.
  cbn [step] in E. destruct (a_state a); try discriminate. unfold selectFile in E.
  destruct (handler_cases w f p0 Hf) as [(c & O & _)|[(c & hsz & O & _)|[(c & e & O & _)|[(_ & Ep & _)|(_ & e & E1 & _)]]]]; try apply O; try exact Ep.
  rewrite E1 in E. discriminate.
Qed.
Section Total.
  Variable H : hashes.
  Hypothesis HH : hashes_ok H.
  Variable bd : build.
  (** what can be said about every call *)
  Definition verdict (w : world) (f : fs) (tr : list entry) (s : state) (o : op) (r : fs * outcome (api * reply)) : Prop :=
    (offered s o = true /\ exists c, fatal w f tr o c /\ (forall c', fatal w f tr o c' -> c' = c) /\ r = (f, Crash c)) \/
    ((offered s o = true -> forall c, ~ fatal w f tr o c) /\
       ((exists f' a' x, r = (f', Ret (a', x))) \/
        (offered s o = true /\ ~ enough w tr o /\ r = (f, OutOfFuel)))).
  Lemma returns w f tr s o f' a' x : (offered s o = true -> forall c, ~ fatal w f tr o c) -> verdict w f tr s o (f', Ret (a', x)).
  Proof. intros N. right. split; [exact N|]. left. eauto. Qed.
  Lemma dies w f tr s o c : offered s o = true -> fatal w f tr o c -> (forall c', fatal w f tr o c' -> c' = c) -> verdict w f tr s o (f, Crash c).
  Proof. intros A B C. left. eauto. Qed.
  Lemma step_verdict mode tr a w f o : history bd H mode tr a -> world_ok bd H w -> fs_ok f -> op_ok o -> verdict w f tr (a_state a) o (step w a f o).
  Proof.
    intros Hh W Hf Ho. pose proof (history_inv H HH bd _ _ _ Hh) as I. pose proof I as I0. pose proof W as (Wb & WH & WR & We). destruct I as [Em I].
    destruct o; cbn [step].
    - (* list *) destruct (a_state a) eqn:Es; try (apply returns; intros X; discriminate X). rewrite Em. unfold getRelevantFileNames, getAllEncFileNames.
      destruct (N.eqb_spec (lenN dir) 0) as [Ed|Ed].
      { apply lenN_0 in Ed. apply returns. intros _ c [X _]. contradiction. }
      assert (dir <> []) as Nd by (intros ->; apply Ed; reflexivity).
      destruct (w_dir w dir) as [| |l] eqn:Dw.
      + apply returns. intros _ c [_ X]. rewrite Dw in X. exact X.
      + apply dies; [reflexivity| |]; unfold fatal; rewrite Dw; [auto|]. intros c' [_ X]. exact X.
      + cbn [dret dbind bind]. change (filter (fun e => snd e && eqb_bytes (extension (fst e)) enc_extension) l) with (filter keep l).
        destruct (list_cases bd H w f dir W Hf l 0%nat [] eq_refl) as [(l1 & n & l2 & k & c & El & Lk & Lt & A & B & C & D)|[(l1 & l2 & k & El & Lk & Lt & C & D)|(A & (k & Lk & Lt) & x & D)]]; rewrite D; cbn; rewrite ?N.add_0_l in Lt.
        * apply dies; [reflexivity| |]; unfold fatal; rewrite Dw.
          { split; [exact Nd|]. exists l1, ((n, true) :: l2), k. spl; try assumption. left. split; [exact Lt|]. exists n, l2. auto. }
          intros c' (_ & l1' & l2' & k' & El' & Lk' & C' & [(Lt' & n' & l3' & -> & A' & B')|[Lt' ->]]).
          2: { exfalso. refine (not_both w f dir l1 n l2 k c l1' l2' k' _ Lk Lt A B Lk' Lt' C'). rewrite <- El. exact El'. }
          assert ((n, true) = (n', true)) as X.
          { eapply (first_unique (spared w f dir)); [rewrite <- El; exact El'|exact C|exact C'| |]; intros Sp; [eapply (Sp (conj eq_refl A)); exact B|eapply (Sp (conj eq_refl A')); exact B']. }
          injection X as <-. destruct (open_cases bd H w f (join dir n) W Hf) as [(c0 & _ & U & _)|[N0 _]]; [|exfalso; exact (N0 _ B)].
          rewrite (U _ B), (U _ B'). reflexivity.
        * apply dies; [reflexivity| |]; unfold fatal; rewrite Dw.
          { split; [exact Nd|]. exists l1, l2, k. spl; try assumption. right. auto. }
          intros c' (_ & l1' & l2' & k' & El' & Lk' & C' & [(Lt' & n' & l3' & -> & A' & B')|[_ ->]]); [|reflexivity].
          exfalso. refine (not_both w f dir l1' n' l3' k' c' l1 l2 k _ Lk' Lt' A' B' Lk Lt C). rewrite <- El. symmetry. exact El'.
        * apply returns. intros _ c (_ & X). rewrite Dw in X. destruct X as (l1 & l2 & k' & -> & Lk' & _ & [(_ & n & l3 & -> & E1 & E2)|[-> _]]).
          { apply Forall_app in A as [_ A]. inversion A as [|? ? A1 _]; subst. exact (A1 (conj eq_refl E1) c E2). }
          apply looked_app in Lk as (k1 & k2 & L1 & _ & ->). pose proof (looked_unique _ _ _ L1 Lk'). lia.
    - (* create *) destruct (a_state a) eqn:Es; try (apply returns; intros X; discriminate X). unfold fh_createFile.
      destruct (valid_path_cases w f p false) as [[Ep V]|[(NEp & Np & V)|[(Ep & S & V)|(Ep & S & V)]]]; rewrite V.
      + cbn. apply returns. intros _ c (_ & E & _). apply enc_path_nonempty in E. subst p. discriminate.
      + cbn. apply returns. intros _ c (_ & E & _). contradiction.
      + cbn. apply dies; [reflexivity|cbn; auto|]. intros c' (X & _). exact X.
      + destruct (f (w_loc w p)); cbn; [|destruct (w_create w p); cbn]; apply returns; intros _ c (_ & _ & E); congruence.
    - (* select *) destruct (a_state a) eqn:Es; try (apply returns; intros X; discriminate X). destruct I as (_ & _ & _ & _ & ->). unfold selectFile.
      destruct (open_cases bd H w f p W Hf) as [(c & Fc & U & D)|(Nf & D)].
      + replace (noexcept _) with (@Crash (api * reply) c).
        2: { destruct D as [->|(h & -> & Emp & D)]; cbn [dret bind]; [reflexivity|]. rewrite Emp, D. reflexivity. }
        apply dies; [reflexivity|exact Fc|exact U].
      + assert (forall r, verdict w f tr INIT (OSelect p) (f, Ret r)) as Z by (intros [a' x]; apply returns; intros _; exact Nf).
        destruct D as [[e ->]|[(h & -> & Emp)|(h & -> & Emp & D)]]; cbn [dret dfail bind noexcept]; [apply Z|rewrite Emp; apply Z|].
        rewrite Emp. destruct (D 0%nat) as ([e|d] & -> & _); apply Z.
    - (* isEmpty *) destruct (a_state a); apply returns; intros _ c X; exact X.
    - destruct (a_state a); apply returns; intros _ c X; exact X.
    - (* delete *) destruct (a_state a) eqn:Es; try (apply returns; intros X; discriminate X).
      + destruct I as (p & c & hsz & l1 & l2 & h & rest & Sel & _ & _ & _ & _ & _ & _ & _ & ->). unfold deleteFile. cbn [a_file fh_path]. destruct (w_remove w p) eqn:Rm; cbn [negb].
        * destruct (f (w_loc w p)); apply returns; intros _ k (_ & p' & x & X & Y); congruence.
        * apply dies; [reflexivity|cbn; eauto|]. intros k (X & _). exact X.
      + destruct I as (p & Sel & _ & _ & _ & ->). unfold deleteFile. cbn [a_file fh_path]. destruct (w_remove w p) eqn:Rm; cbn [negb].
        * destruct (f (w_loc w p)); apply returns; intros _ k (_ & p' & x & X & Y); congruence.
        * apply dies; [reflexivity|cbn; eauto|]. intros k (X & _). exact X.
    - (* content *) destruct (a_state a) eqn:Es; try (apply returns; intros _ c X; exact X).
      destruct I as (p & c & hsz & l1 & l2 & h & rest & Sel & _ & _ & _ & _ & _ & _ & _ & ->). unfold getFileContent, fh_getAllBytes. cbn [a_file ptr bind fh_path].
      destruct (f (w_loc w p)) as [x|]; [destruct (w_read w p); [destruct (readBytes _ _ x) as [[b s]|]|]|]; cbn; apply returns; intros _ k X; exact X.
    - (* verify *) destruct (a_state a) eqn:Es; try (apply returns; intros _ c X; exact X).
      destruct I as (p & c & hsz & l1 & l2 & h & rest & Q1 & Q2 & Q3 & Q4 & Q5 & Wr & L1 & L2 & Ea).
      pose proof (lt63_two64 _ L2) as L3. assert (holds (decoded (lenN c) h) h) as Hd by (split; [apply decoded_hinv|apply decoded_contents]; try apply Wr; exact L3).
      unfold verifyPassword. rewrite Ea. cbn [a_dh ptr bind].
      assert (exists r, checkPassword w (decoded (lenN c) h) pw timeout = Ret r) as (x & Ex).
      { destruct (check_password H HH w _ h pw timeout WH We Ho Hd) as [A B].
        assert (verify_in_time w timeout (iters_of (h_ch1 h)) (iters_of (h_ch2 h)) \/ ~ verify_in_time w timeout (iters_of (h_ch1 h)) (iters_of (h_ch2 h))) as [T|T].
        { unfold verify_in_time. destruct (reached_dec (w_clk1 w) timeout (readings_string (iters_of (h_ch1 h)))); [right; tauto|].
          destruct (N.eq_dec timeout 0); destruct (N.eq_dec (w_elapsed w) timeout);
          destruct (reached_dec (w_clk2 w) ((timeout + 2 ^ 64 - w_elapsed w) mod 2 ^ 64) (readings_bytes (iters_of (h_ch2 h)))); tauto. }
        - destruct (B T) as [B1 B2].
          assert (opens H h pw \/ ~ opens H h pw) as [O|O].
          { unfold opens. destruct (list_eq_dec Byte.byte_eq_dec (h_valid h) (validator H h (key_of H h pw))); auto. }
          + destruct (B1 O) as (k & -> & Bk). eexists. reflexivity.
          + rewrite (B2 O). eexists. reflexivity.
        - rewrite (A T). eexists. reflexivity. }
      rewrite Ex. destruct x as [e|k]; cbn; apply returns; intros _ k' X; exact X.
    - (* createDataHeader *) destruct Ho as [Sm Lt]. destruct (set_isComplete ds) eqn:Sc; cbn [negb]; [|apply returns; intros _ c X; exact X].
      assert (exists r, createHeaderIters w 1 pw ds timeout = Ret r) as (x & Ex).
      { destruct (create_header H HH w pw ds timeout WH WR We Lt Sm Sc) as (it1 & it2 & _ & _ & A & B).
        assert (create_in_time w timeout it1 it2 \/ ~ create_in_time w timeout it1 it2) as [T|T].
        { unfold create_in_time; destruct (reached_dec (w_clk1 w) timeout (readings_string it1)); [right; tauto|];
          destruct (N.eq_dec timeout 0); destruct (N.lt_decidable (w_elapsed w) timeout);
          destruct (reached_dec (w_clk2 w) (timeout - w_elapsed w) (readings_bytes it2)); tauto. }
        - destruct (B T) as [B1 B2].
          assert ((lenN (s_dec ds) <= 255 /\ lenN (s_enc ds) <= 255) \/ ~ (lenN (s_dec ds) <= 255 /\ lenN (s_enc ds) <= 255)) as [[L1 L2]|L] by lia.
          + destruct (B2 L1 L2) as (d & k & h & -> & _). eexists. reflexivity.
          + rewrite (B1 L). eexists. reflexivity.
        - rewrite (A T). eexists. reflexivity. }
      rewrite Em, Ex. destruct (a_state a); destruct x as [e|[d k]]; cbn; apply returns; intros _ c X; exact X.
    - (* with time settings *) destruct (set_isComplete ds) eqn:Sc; cbn [negb].
      2: { apply returns. intros _ c [_ X]. apply complete_iff in X. congruence. }
      apply complete_iff in Sc. destruct (a_state a) eqn:Es; try (apply returns; intros X; discriminate X).
      all: apply dies; [reflexivity|cbn; auto|]; intros c' (X & _); exact X.
    - (* changeSalt *) destruct (a_state a) eqn:Es; try (apply returns; intros _ c X; exact X).
      destruct I as (p & c & h0 & pw0 & k0 & d0 & fh & fd & Q1 & Q2 & Q3 & Q4 & [Q5 Q5'] & Q6 & Q7 & Q8 & ->).
      unfold changeSalt. cbn [a_dh ptr bind]. destruct (new_salt w d0 h0 WR Q6) as (d' & Es' & _ & _ & Hd').
      pose proof (holds_parts d0 h0 Q6) as P. rewrite P in Es' |- *. cbn [bind] in Es' |- *.
      destruct (p_getSalt (d_parts d0)) as [s| | |]; cbn [bind] in Es' |- *; try discriminate.
      destruct (newBytes (Z.of_N (getLen s))) as [b| | |]; cbn [bind] in Es' |- *; try discriminate.
      destruct (fillrandom (w_rnd w 0) b) as [b'| | |]; cbn [bind] in Es' |- *; try discriminate.
      destruct (p_setSalt b' (d_parts d0)) as [p'| | |]; cbn [bind] in Es' |- *; try discriminate.
      rewrite Es'. cbn. apply returns; intros _ k X; exact X.
    - (* decrypt *) destruct (a_state a) eqn:Es; try (apply returns; intros _ c X; exact X).
      destruct I as (p & c & hsz & l1 & l2 & h & rest & pw & k & Q1 & Q2 & Q3 & Q4 & Q5 & Wr & L1 & L2 & [K1 K2] & Ea).
      pose proof (lt63_two64 _ L2) as L3. assert (holds (decoded (lenN c) h) h) as Hd by (split; [apply decoded_hinv|apply decoded_contents]; try apply Wr; exact L3).
      destruct (crypt_body H HH w _ h pw k WH Hd K2) as (hf & s & Hhf & _ & _ & _ & _ & _ & _ & Eb).
      unfold getDecryptedData. rewrite (Eb a (mkFH p hsz (lenN c) false) f) by (rewrite Ea; reflexivity).
      set (sz := fh_dataSize _). set (st := fh_dataStream _ _ _).
      pose proof (via_stream_calm hf Hhf (w_fuel w) Dec k s st sz) as Cm. pose proof (via_stream_ends hf Hhf (w_fuel w) Dec k s st sz) as En.
      destruct (via_stream hf (w_fuel w) Dec k s st sz) as [r|e|cr|].
      + cbn. apply returns; intros _ x X; exact X.
      + assert (any_std ERR e = Some ERR) as An by (destruct e; try reflexivity; exfalso; apply Cm; reflexivity).
        unfold try_. rewrite An. cbn. apply returns; intros _ x X; exact X.
      + destruct Cm.
      + right. split; [intros _ x X; exact X|]. right. split; [reflexivity|]. split; [|reflexivity]. cbn [enough]. intros En'.
        assert (sizes_fit c hsz) as Sf.
        { destruct (written_size _ _ _ _ _ _ Wr) as (r0 & E0). exists r0. split; [exact E0|]. split; [exact L1|apply Wr]. }
        destruct (En' p c hsz Q1 Sf) as [X1 X2]. assert (sz = lenN c - hsz) as Esz.
        { subst sz. unfold fh_dataSize. cbn [fh_fsize fh_hsize]. apply sub64_le; [apply Wr|exact L3]. }
        rewrite Esz in En. exact (En X1 X2 eq_refl).
    - (* getFileData *) destruct (a_state a); try (apply returns; intros _ c X; exact X). unfold getFileData. destruct (a_fdata a); apply returns; intros _ c X; exact X.
    - (* encrypt *) destruct (a_state a) eqn:Es; try (apply returns; intros X; discriminate X).
      destruct I as (p & c & h0 & pw0 & k0 & d0 & fh & fd & Q1 & Q2 & Q3 & Q4 & [Q5 Q5'] & Q6 & Q7 & Q8 & ->).
      unfold encryptData. destruct x as [[m dt]|]; cbn [ptr bind fd_mode fd_data].
      2: { apply dies; [reflexivity|cbn; auto|]. intros c' (X & _). exact X. }
      destruct m as [m|]; [|apply returns; intros _ k (_ & [X|X]); discriminate X]. cbn [a_mode].
      destruct (N.eqb_spec m 1) as [->|Nm]; cbn [negb]; [|apply returns; intros _ k (_ & [X|X]); congruence].
      destruct dt as [dt|]; cbn [ptr bind].
      2: { apply dies; [reflexivity|cbn; auto|]. intros c' (X & _). exact X. }
      assert (forall cr, ~ fatal w f tr (OEncrypt (Some (mkFD (Some 1) (Some dt)))) cr) as Nf by (intros cr (_ & [X|X]); discriminate X).
      cbn [a_dh a_key a_file a_state a_fdata a_enc ptr bind].
      destruct (set_data_size d0 h0 (getLen dt) Q6) as (d1 & -> & Hd1 & F1 & B1). cbn [try_ dret bind].
      destruct (calc_plain_bytes d1 h0 (w_hashes w) (w_clk1 w) Hd1 _ F1) as [Cl Cg].
      destruct (N.ltb_spec (w32 (w32 (getLen dt) + hdr_len h0)) (hdr_len h0)) as [L|L].
      { rewrite (Cl L). cbn. apply returns. intros _. exact Nf. }
      rewrite (Cg L). set (d2 := with_bytes _ d1). assert (holds d2 h0) as Hd2 by (apply holds_bytes; exact Hd1).
      destruct (crypt_body H HH w d2 h0 pw0 k0 WH Hd2 Q5') as (hf & s & Hhf & Ef & Esz & Lk & Lsa & Bs & Eb & _). cbn [bind]. rewrite Eb.
      pose proof (via_data_calm hf Hhf (w_fuel w) Enc k0 s dt) as Cm. destruct (via_data hf (w_fuel w) Enc k0 s dt) as [r|e|cr|] eqn:Ev.
      + cbn. apply returns. intros _. exact Nf.
      + assert (any_std ERR e = Some ERR) as An by (destruct e; try reflexivity; exfalso; apply Cm; reflexivity).
        unfold try_. rewrite An. cbn. apply returns. intros _. exact Nf.
      + destruct Cm.
      + right. split; [intros _; exact Nf|]. right. split; [reflexivity|]. split; [|reflexivity]. cbn [enough]. intros [E1 E2].
        destruct (via_data_ok hf Hhf (w_fuel w) Enc k0 s dt Lk Lsa E1 E2) as (r & E3 & _). congruence.
    - (* write *) destruct (a_state a) eqn:Es; try (apply returns; intros X; discriminate X).
      destruct I as (p & c & h & pw & k & d & fh & data & e & Q1 & Q2 & Q3 & Q4 & K & Rd & L & Q5 & Q6 & Ea). pose proof (selected_enc _ _ _ _ _ _ _ Hh Q1) as Ep.
      assert (getLen e = lenN data) as Le by (unfold getLen; rewrite Q6; apply (cipher_len H HH); apply (holds_ok d), Rd).
      unfold writeToFile. rewrite Ea. cbn [a_file]. unfold fh_getWriteStream. rewrite Q5.
      destruct (valid_path_cases w f p true) as [[Ep' V]|[(NEp & Np & V)|[(_ & S & V)|(_ & S & V)]]]; rewrite V.
      + rewrite Ep' in Ep. apply enc_path_nonempty in Ep. discriminate.
      + contradiction.
      + apply dies; [reflexivity|cbn; eauto|]. intros c' (X & _). exact X.
      + assert (forall cr, ~ fatal w f tr OWrite cr) as Nf by (intros cr (_ & p' & x & X & Y); congruence).
        destruct (f (w_loc w p)) as [x|]; [|apply returns; intros _; exact Nf]. destruct (w_read w p); [|apply returns; intros _; exact Nf]. unfold dret at 1.
        destruct (w_write w p); unfold dret; [|apply returns; intros _; exact Nf]. unfold finishWrite.
        edestruct full_data as (t & -> & _); [reflexivity|reflexivity|exact Rd|exact Le|exact L|]. cbn [noexcept]. apply returns. intros _. exact Nf.
    - (* write to *) destruct (a_state a) eqn:Es; try (apply returns; intros X; discriminate X).
      destruct I as (q & c & h & pw & k & d & fh & data & e & Q1 & Q2 & Q3 & Q4 & K & Rd & L & Q5 & Q6 & Ea).
      assert (getLen e = lenN data) as Le by (unfold getLen; rewrite Q6; apply (cipher_len H HH); apply (holds_ok d), Rd).
      pose proof (write_to_outcome w a f p d e h (lenN data) Hf) as X. rewrite Ea in X. cbn [a_file a_dh a_enc a_state a_mode a_fdata a_key] in X.
      specialize (X eq_refl eq_refl Rd Le L). rewrite <- Ea in X. 
      destruct (w_stat w p) eqn:S.
      { assert (forall cr, ~ fatal w f tr (OWriteTo p) cr) as Nf by (intros cr (_ & _ & Y); congruence).
        destruct X as [(O & Ww & X)|[_ [[c0 X]|X]]]; rewrite ?X; try (apply returns; intros _; exact Nf).
        exfalso. unfold writeToPath in X. destruct (handler_cases w f p Hf) as [(c1 & O & -> & E & _)|[(c1 & hsz & O & Lc & Lh & Sz & E & _)|[(c1 & e' & O & NE & _ & _ & E & _)|[(NO & _ & Sf & E & _)|(NO & c1 & E & _)]]]]; rewrite ?E in X; try congruence; cbn in X; try discriminate.
        unfold fh_getWriteStreamIfEmpty, fh_getWriteStream in X. cbn [fh_empty fh_path] in X. rewrite (openable_valid _ _ _ _ O) in X. unfold dret at 1 in X.
        destruct (w_write w p); unfold dret in X; [|discriminate]. unfold finishWrite in X.
        destruct (full_data a d e h (lenN data)) as (t & Et & _); try assumption; try (rewrite Ea; reflexivity). rewrite Et in X. discriminate. }
      destruct (enc_path_dec p) as [Ep|Np].
      { assert (writeToPath w a f p = (f, Crash Terminate)) as ->.
        { unfold writeToPath, getFileHandler. destruct (valid_path_cases w f p true) as [[Ep' V]|[(NEp & Np & V)|[(_ & S' & V)|(_ & S' & V)]]]; rewrite V; try reflexivity; try congruence; try contradiction.
          rewrite Ep' in Ep. apply enc_path_nonempty in Ep. discriminate. }
        apply dies; [reflexivity|cbn; auto|]. intros c' (Y & _). exact Y. }
      assert (forall cr, ~ fatal w f tr (OWriteTo p) cr) as Nf by (intros cr (_ & Y & _); contradiction).
      unfold writeToPath, getFileHandler. destruct (valid_path_cases w f p true) as [[Ep' V]|[(NEp & _ & V)|[(Y & S' & V)|(Y & S' & V)]]]; rewrite V; try contradiction; cbn; apply returns; intros _; exact Nf.
    - apply returns. intros _ c X. exact X.
    - apply returns. intros _ c X. exact X.
  Qed.
  Lemma dies_iff mode tr a w f o f' c : history bd H mode tr a -> world_ok bd H w -> fs_ok f -> op_ok o ->
    (step w a f o = (f', Crash c) <-> f' = f /\ offered (a_state a) o = true /\ fatal w f tr o c).
  Proof.
    intros Hh W Hf Ho. destruct (step_verdict mode tr a w f o Hh W Hf Ho) as [(Of & c0 & Fc & U & E)|(N0 & [(f2 & a2 & x & E)|(_ & _ & E)])]; rewrite E; split.
    - intros [= <- <-]. auto.
    - intros (-> & _ & X). rewrite (U _ X). reflexivity.
    - discriminate.
    - intros (_ & X & Y). exfalso. exact (N0 X c Y).
    - discriminate.
    - intros (_ & X & Y). exfalso. exact (N0 X c Y).
  Qed.
  Lemma too_many mode tr a w f dir l k : history bd H mode tr a -> a_state a = INIT -> world_ok bd H w -> fs_ok f -> dir <> [] -> w_dir w dir = Entries l ->
    looked_at_in l k -> 2 ^ 31 <= k -> harmless w f dir l -> step w a f (OList dir) = (f, Crash Undefined).
  Proof.
    intros Hh Es W Hf Nd D L Lk Hl. destruct (looked_prefix l k _ L Lk) as (l1 & l2 & -> & L1). apply Forall_app in Hl as [Hl _].
    apply (dies_iff _ _ _ _ _ (OList dir) f Undefined Hh W Hf I). rewrite Es. split; [reflexivity|]. split; [reflexivity|]. cbn [fatal]. rewrite D. split; [exact Nd|].
    exists l1, l2, (2 ^ 31). split; [reflexivity|]. split; [exact L1|]. split; [exact Hl|]. right. split; reflexivity.
  Qed.
  Lemma returns_otherwise mode tr a w f o : history bd H mode tr a -> world_ok bd H w -> fs_ok f -> op_ok o ->
    (forall c, ~ fatal w f tr o c) -> enough w tr o -> exists f' a' r, step w a f o = (f', Ret (a', r)).
  Proof.
    intros Hh W Hf Ho N0 En. destruct (step_verdict mode tr a w f o Hh W Hf Ho) as [(Of & c0 & Fc & U & E)|(_ & [X|(_ & Y & _)])].
    - exfalso. exact (N0 _ Fc).
    - exact X.
    - contradiction.
  Qed.
  Lemma never_throws mode tr a w f o f' e : history bd H mode tr a -> world_ok bd H w -> fs_ok f -> op_ok o -> step w a f o <> (f', Throw e).
  Proof.
    intros Hh W Hf Ho. destruct (step_verdict mode tr a w f o Hh W Hf Ho) as [(Of & c0 & Fc & U & E)|(N0 & [(f2 & a2 & x & E)|(_ & _ & E)])]; rewrite E; discriminate.
  Qed.
End Total.
