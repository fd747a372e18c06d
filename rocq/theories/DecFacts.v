(** Lemmas for the property about WorkflowDecStruct and FileDataStruct. *)
From Verif Require Import Base BaseFacts BytesModel MiscModel HeaderModel ApiModel DecModel DecSpec.

(** ** FileDataStruct *)
Lemma fmode_one m : file_mode_valid m = true <-> m = 1.
Proof. unfold file_mode_valid. split; intros X; [|subst; reflexivity]. apply andb_true_iff in X. destruct X as [A B]. apply N.leb_le in A. apply N.leb_le in B. lia. Qed.
Lemma fds_mode ops : forall x y, (fd_mode x = None \/ fd_mode x = Some 1) -> fds_run x ops = Some y -> fd_mode y = if existsb (fun o => match o with FSet m => m =? 1 | _ => false end) ops then Some 1 else fd_mode x.
Proof.
  induction ops as [|o ops IH]; intros x y Hx E; cbn [fds_run existsb] in *; [injection E as <-; reflexivity|].
  destruct o; cbn [fds_step] in E; cbn [orb].
  - unfold fds_setFileMode in E. destruct (file_mode_valid m) eqn:V; cbn [bind] in E.
    + apply fmode_one in V. subst m. rewrite (IH (mkFD (Some 1) (fd_data x)) y (or_intror eq_refl) E). cbn. destruct (existsb _ ops); reflexivity.
    + destruct (N.eqb_spec m 1) as [->|Nm]; [discriminate V|]. cbn [orb]. apply IH; assumption.
  - apply (IH (mkFD (fd_mode x) b) y Hx E).
  - unfold fds_getFileMode in E. destruct (fd_mode x) eqn:Em; cbn [bind] in E; rewrite <- Em in *; apply (IH _ _ Hx E).
  - apply (IH _ _ Hx E).
  - apply (IH _ _ Hx E).
  - destruct (fds_getCopy x) eqn:C; cbn [bind] in E; try discriminate E; apply (IH _ _ Hx E).
Qed.
Lemma fds_data ops : forall x y, fds_run x ops = Some y -> (fd_data y = fd_data x /\ forall b, ~ In (FData b) ops) \/
  (exists before after, ops = before ++ FData (fd_data y) :: after /\ forall b, ~ In (FData b) after).
Proof.
  induction ops as [|o ops IH]; intros x y E; cbn [fds_run] in *; [injection E as <-; left; split; [reflexivity|]; intros b []|].
  assert (forall x', fds_run x' ops = Some y -> (exists b, o = FData b /\ fd_data x' = b) \/ (fd_data x' = fd_data x /\ forall b, o <> FData b) ->
    (fd_data y = fd_data x /\ forall b, ~ In (FData b) (o :: ops)) \/ (exists before after, o :: ops = before ++ FData (fd_data y) :: after /\ forall b, ~ In (FData b) after)) as K.
  { intros x' E' Ho. destruct (IH _ _ E') as [[D N1]|(be & af & -> & N1)].
    - destruct Ho as [(b & -> & Db)|[Dx No]].
      + right. exists [], ops. rewrite D, Db. auto.
      + left. split; [congruence|]. intros b [X|X]; [exact (No _ X)|exact (N1 _ X)].
    - right. exists (o :: be), af. auto. }
  destruct o; cbn [fds_step] in E.
  - unfold fds_setFileMode in E. destruct (file_mode_valid m); cbn [bind] in E; apply (K _ E); right; split; try reflexivity; discriminate.
  - apply (K _ E). left. exists b. auto.
  - unfold fds_getFileMode in E. destruct (fd_mode x); cbn [bind] in E; apply (K _ E); right; split; try reflexivity; discriminate.
  - apply (K _ E). right. split; [reflexivity|discriminate].
  - apply (K _ E). right. split; [reflexivity|discriminate].
  - destruct (fds_getCopy x); cbn [bind] in E; try discriminate E; apply (K _ E); right; split; try reflexivity; discriminate.
Qed.
Lemma fds_state ops x : fds_run fds_default ops = Some x -> (fd_mode x = Some 1 <-> In (FSet 1) ops) /\ (fd_mode x = None <-> ~ In (FSet 1) ops) /\ assigned ops (fd_data x).
Proof.
  intros E. pose proof (fds_mode ops fds_default x (or_introl eq_refl) E) as M.
  assert (existsb (fun o => match o with FSet m => m =? 1 | _ => false end) ops = true <-> In (FSet 1) ops) as X.
  { rewrite existsb_exists. split; [intros (o & I & B); destruct o; try discriminate B; apply N.eqb_eq in B; subst; exact I|]. intros I. exists (FSet 1). auto. }
  destruct (existsb _ ops); split.
  - split; [intros _; apply X; reflexivity|auto].
  - split; [split; [rewrite M; discriminate|intros Nn; elim Nn; apply X; reflexivity]|]. destruct (fds_data ops _ _ E) as [[D N1]|K]; [left; auto|right; exact K].
  - split; [rewrite M; discriminate|]. intros I. apply X in I. discriminate I.
  - split; [split; [intros _ I; apply X in I; discriminate I|intros _; exact M]|]. destruct (fds_data ops _ _ E) as [[D N1]|K]; [left; auto|right; exact K].
Qed.
Lemma assigned_unique ops d e : assigned ops d -> assigned ops e -> d = e.
Proof.
  intros [[-> N1]|(be & af & Eq & Nn)] [[-> N2]|(be' & af' & Eq' & Nn')].
  - reflexivity.
  - elim (N1 e). rewrite Eq'. apply in_or_app. right. left. reflexivity.
  - elim (N2 d). rewrite Eq. apply in_or_app. right. left. reflexivity.
  - rewrite Eq in Eq'. clear Eq. revert be' Eq'. induction be as [|o be IH]; intros [|o' be'] X; cbn [app] in X; injection X as X1 X2.
    + congruence.
    + exfalso. apply (Nn e). rewrite X2. apply in_or_app. right. left. reflexivity.
    + exfalso. apply (Nn' d). rewrite <- X2. apply in_or_app. right. left. reflexivity.
    + apply (IH be' X2).
Qed.
Lemma fds_copy ops x : fds_run fds_default ops = Some x ->
  (forall b, assigned ops (Some b) -> In (FSet 1) ops -> fds_step x FCopy = Ret (x, FCopied (mkFD (Some 1) (Some (copyBytes b))))) /\
  (forall b, assigned ops (Some b) -> ~ In (FSet 1) ops -> fds_step x FCopy = Throw RuntimeError) /\
  (assigned ops None -> fds_step x FCopy = Crash Undefined).
Proof.
  intros E. destruct (fds_state ops x E) as (M1 & M0 & D). cbn [fds_step]. unfold fds_getCopy, fds_getFileMode. split; [|split].
  - intros b As I. rewrite (assigned_unique _ _ _ D As). apply M1 in I. rewrite I. reflexivity.
  - intros b As I. rewrite (assigned_unique _ _ _ D As). apply M0 in I. rewrite I. reflexivity.
  - intros As. rewrite (assigned_unique _ _ _ D As). reflexivity.
Qed.

(** ** WorkflowDecStruct *)
Lemma put_same i d s : put i d s i = Some d.
Proof. unfold put. rewrite Nat.eqb_refl. reflexivity. Qed.
Lemma put_other i j d s : j <> i -> put i d s j = s j.
Proof. intros X. unfold put. destruct (Nat.eqb_spec j i); [contradiction|reflexivity]. Qed.
Lemma dec_run_app a : forall b s, dec_run s (a ++ b) = match dec_run s a with Some (s', xs) => match dec_run s' b with Some (s'', ys) => Some (s'', xs ++ ys) | None => None end | None => None end.
Proof.
  induction a as [|o a IH]; intros b s; cbn [app dec_run].
  - destruct (dec_run s b) as [[? ?]|]; reflexivity.
  - destruct (dec_step s o) as [[s1 x]|]; [|reflexivity]. rewrite IH. destruct (dec_run s1 a) as [[s2 xs]|]; [|reflexivity]. destruct (dec_run s2 b) as [[s3 ys]|]; reflexivity.
Qed.
Definition held (s : decs) (n : N) : Prop := exists i d x, s i = Some d /\ wd_file d = Some (n, x).
Definition single (s : decs) : Prop := forall i j d e n x y, s i = Some d -> s j = Some e -> wd_file d = Some (n, x) -> wd_file e = Some (n, y) -> i = j.
(** changing one struct without giving it another address *)
Lemma put_held i d e s n : s i = Some d -> held (put i e s) n -> (forall m x, wd_file e = Some (m, x) -> exists y, wd_file d = Some (m, y)) -> held s n.
Proof.
  intros Si (j & d' & x & Sj & F) K. destruct (Nat.eq_dec j i) as [->|Nj].
  - rewrite put_same in Sj. injection Sj as <-. destruct (K _ _ F) as (y & Fy). exists i, d, y. auto.
  - rewrite put_other in Sj by exact Nj. exists j, d', x. auto.
Qed.
Lemma put_single i d e s : s i = Some d -> single s -> (forall m x, wd_file e = Some (m, x) -> exists y, wd_file d = Some (m, y)) -> single (put i e s).
Proof.
  intros Si Sg K a b da db n x y Sa Sb Fa Fb.
  destruct (Nat.eq_dec a i) as [->|Na]; destruct (Nat.eq_dec b i) as [->|Nb]; [reflexivity| | |].
  - rewrite put_same in Sa. injection Sa as <-. rewrite put_other in Sb by exact Nb. destruct (K _ _ Fa) as (z & Fz). apply (Sg _ _ _ _ _ _ _ Si Sb Fz Fb).
  - rewrite put_same in Sb. injection Sb as <-. rewrite put_other in Sa by exact Na. destruct (K _ _ Fb) as (z & Fz). apply (Sg _ _ _ _ _ _ _ Sa Si Fa Fz).
  - rewrite put_other in Sa by exact Na. rewrite put_other in Sb by exact Nb. apply (Sg _ _ _ _ _ _ _ Sa Sb Fa Fb).
Qed.
Lemma put_none i e s n : held (put i e s) n -> wd_file e = None -> held s n.
Proof.
  intros (j & d' & x & Sj & F) K. destruct (Nat.eq_dec j i) as [->|Nj].
  - rewrite put_same in Sj. injection Sj as <-. congruence.
  - rewrite put_other in Sj by exact Nj. exists j, d', x. auto.
Qed.
Lemma put_none_single i e s : single s -> wd_file e = None -> single (put i e s).
Proof.
  intros Sg K a b da db n x y Sa Sb Fa Fb.
  destruct (Nat.eq_dec a i) as [->|Na]; [rewrite put_same in Sa; congruence|]. destruct (Nat.eq_dec b i) as [->|Nb]; [rewrite put_same in Sb; congruence|].
  rewrite put_other in Sa by exact Na. rewrite put_other in Sb by exact Nb. apply (Sg _ _ _ _ _ _ _ Sa Sb Fa Fb).
Qed.
Lemma dec_file_held d p : dec_file d = Ret p -> wd_file d = Some p /\ wd_success d = SUCCESS /\ wd_moved d = false.
Proof. unfold dec_file. destruct (wd_success d), (wd_moved d), (wd_file d); try discriminate. intros E. injection E as ->. auto. Qed.
Lemma dec_step_linear s o s' x : dec_step s o = Some (s', x) -> single s -> (forall n, In n (handed [o]) -> ~ held s n) ->
  single s' /\ (forall n, held s' n -> held s n \/ In n (handed [o])) /\ (forall n, In n (taken [x]) -> held s n /\ ~ held s' n) /\ NoDup (taken [x]).
Proof.
  intros E Sg Fr. destruct o; cbn [dec_step] in E; unfold on in E.
  - injection E as <- <-. split; [apply put_none_single; [exact Sg|reflexivity]|]. split; [intros n Hn; left; exact (put_none _ _ _ _ Hn eq_refl)|]. split; [intros n []|constructor].
  - destruct (Nat.eqb_spec i j) as [|Nij]; [discriminate|]. destruct (s i) as [d|] eqn:Si; [|discriminate]. injection E as <- <-.
    assert (forall k e, put i (dec_left d) (put j d s) k = Some e -> wd_file e <> None -> (k = j /\ e = d) \/ (k <> i /\ k <> j /\ s k = Some e)) as Cs.
    { intros k e. destruct (Nat.eq_dec k i) as [->|Nk]; [rewrite put_same; intros X; injection X as <-; intros Z; elim Z; reflexivity|]. rewrite put_other by exact Nk.
      destruct (Nat.eq_dec k j) as [->|Nkj]; [rewrite put_same; intros X; injection X as <-; auto|]. rewrite put_other by exact Nkj. auto. }
    split; [|split; [|split; [intros n []|constructor]]].
    + intros a b da db n y z Sa Sb Fa Fb. destruct (Cs _ _ Sa ltac:(congruence)) as [[-> ->]|(A1 & A2 & A3)]; destruct (Cs _ _ Sb ltac:(congruence)) as [[-> ->]|(B1 & B2 & B3)]; [reflexivity| | |].
      * elim B1. symmetry. apply (Sg _ _ _ _ _ _ _ Si B3 Fa Fb).
      * elim A1. apply (Sg _ _ _ _ _ _ _ A3 Si Fa Fb).
      * apply (Sg _ _ _ _ _ _ _ A3 B3 Fa Fb).
    + intros n (k & e & y & Sk & F). left. destruct (Cs _ _ Sk ltac:(congruence)) as [[-> ->]|(_ & _ & A3)]; [exists i, d, y; auto|exists k, e, y; auto].
  - destruct (s i) as [d|] eqn:Si; [|discriminate]. injection E as <- <-.
    split; [apply (put_single i d); auto; intros m y F; exists y; exact F|]. split; [intros n Hn; left; apply (put_held i d _ _ _ Si Hn); intros m y F; exists y; exact F|]. split; [intros n []|constructor].
  - destruct (s i) as [d|] eqn:Si; [|discriminate]. injection E as <- <-. destruct p as [[m y]|].
    + assert (~ held s m) as Fm by (apply Fr; left; reflexivity). split; [|split; [|split; [intros n []|constructor]]].
      * intros a b da db n u v Sa Sb Fa Fb. destruct (Nat.eq_dec a i) as [->|Na]; destruct (Nat.eq_dec b i) as [->|Nb]; [reflexivity| | |].
        -- rewrite put_same in Sa. injection Sa as <-. cbn in Fa. injection Fa as <- <-. rewrite put_other in Sb by exact Nb. elim Fm. exists b, db, v. auto.
        -- rewrite put_same in Sb. injection Sb as <-. cbn in Fb. injection Fb as <- <-. rewrite put_other in Sa by exact Na. elim Fm. exists a, da, u. auto.
        -- rewrite put_other in Sa by exact Na. rewrite put_other in Sb by exact Nb. apply (Sg _ _ _ _ _ _ _ Sa Sb Fa Fb).
      * intros n (k & e & u & Sk & F). destruct (Nat.eq_dec k i) as [->|Nk].
        -- rewrite put_same in Sk. injection Sk as <-. cbn in F. injection F as <- <-. right. left. reflexivity.
        -- rewrite put_other in Sk by exact Nk. left. exists k, e, u. auto.
    + split; [apply put_none_single; [exact Sg|reflexivity]|]. split; [intros n Hn; left; exact (put_none _ _ _ _ Hn eq_refl)|]. split; [intros n []|constructor].
  - destruct (s i) as [d|] eqn:Si; [|discriminate]. injection E as <- <-.
    split; [apply (put_single i d); auto; intros m y F; exists y; exact F|]. split; [intros n Hn; left; apply (put_held i d _ _ _ Si Hn); intros m y F; exists y; exact F|]. split; [intros n []|constructor].
  - destruct (s i) as [d|] eqn:Si; [|discriminate]. unfold dec_getFileDataRef in E. destruct (dec_file d) as [[m y]|e|c|] eqn:Df; cbn [bind] in E; try discriminate E.
    + injection E as <- <-. destruct (dec_file_held _ _ Df) as (F & _ & _).
      split; [apply (put_single i d); auto; intros m' y' F'; cbn in F'; injection F' as <- <-; exists y; exact F|]. split.
      * intros n Hn. left. apply (put_held i d _ _ _ Si Hn). intros m' y' F'. cbn in F'. injection F' as <- <-. exists y. exact F.
      * split; [intros n []|constructor].
    + injection E as <- <-. split; [exact Sg|]. split; [auto|]. split; [intros n []|constructor].
  - destruct (s i) as [d|] eqn:Si; [|discriminate]. unfold dec_getFileData in E. destruct (dec_file d) as [[m y]|e|c|] eqn:Df; cbn [bind] in E; try discriminate E.
    + injection E as <- <-. destruct (dec_file_held _ _ Df) as (F & _ & _).
      split; [apply put_none_single; [exact Sg|reflexivity]|]. split; [intros n Hn; left; exact (put_none _ _ _ _ Hn eq_refl)|]. split.
      * intros n [<-|[]]. split; [exists i, d, y; auto|]. intros (k & e & u & Sk & Fk). destruct (Nat.eq_dec k i) as [->|Nk].
        -- rewrite put_same in Sk. injection Sk as <-. discriminate Fk.
        -- rewrite put_other in Sk by exact Nk. elim Nk. apply (Sg _ _ _ _ _ _ _ Sk Si Fk F).
      * repeat constructor. intros [].
    + injection E as <- <-. split; [exact Sg|]. split; [auto|]. split; [intros n []|constructor].
  - destruct (s i) as [d|] eqn:Si; [|discriminate]. destruct (dec_getDataHeader d) as [h|e|c|] eqn:Dh; cbn [bind] in E; try discriminate E; injection E as <- <-.
    + split; [apply (put_single i d); auto; intros m y F; exists y; exact F|]. split; [intros n Hn; left; apply (put_held i d _ _ _ Si Hn); intros m y F; exists y; exact F|]. split; [intros n []|constructor].
    + split; [exact Sg|]. split; [auto|]. split; [intros n []|constructor].
Qed.
Lemma handed_cons o ops : handed (o :: ops) = handed [o] ++ handed ops.
Proof. unfold handed. cbn [flat_map]. rewrite app_nil_r. reflexivity. Qed.
Lemma taken_cons x xs : taken (x :: xs) = taken [x] ++ taken xs.
Proof. unfold taken. cbn [flat_map]. rewrite app_nil_r. reflexivity. Qed.
Lemma nodup_app_parts {A} (a b : list A) : NoDup (a ++ b) -> NoDup a /\ NoDup b /\ forall n, In n a -> ~ In n b.
Proof.
  induction a as [|x a IH]; cbn [app]; intros X; [split; [constructor|split; [exact X|intros n []]]|]. inversion X as [|? ? Nx X']. subst. destruct (IH X') as (A1 & A2 & A3).
  split; [constructor; [intros I; apply Nx; apply in_or_app; auto|exact A1]|]. split; [exact A2|]. intros n [<-|I]; [intros I; apply Nx; apply in_or_app; auto|apply A3; exact I].
Qed.
Lemma nodup_app_make {A} (a b : list A) : NoDup a -> NoDup b -> (forall n, In n a -> ~ In n b) -> NoDup (a ++ b).
Proof.
  induction 1 as [|x a Nx _ IH]; intros Nb D; [exact Nb|]. cbn [app]. constructor; [|apply IH; [exact Nb|intros n I; apply D; right; exact I]].
  intros I. apply in_app_or in I. destruct I as [I|I]; [exact (Nx I)|]. apply (D x); [left; reflexivity|exact I].
Qed.
Lemma dec_linear ops : forall s s' xs, dec_run s ops = Some (s', xs) -> single s -> NoDup (handed ops) -> (forall n, In n (handed ops) -> ~ held s n) ->
  NoDup (taken xs) /\ forall n, In n (taken xs) -> held s n \/ In n (handed ops).
Proof.
  induction ops as [|o ops IH]; intros s s' xs E Sg Nd Fr; cbn [dec_run] in E; [injection E as <- <-; split; [constructor|intros n []]|].
  destruct (dec_step s o) as [[s1 x]|] eqn:St; [|discriminate]. destruct (dec_run s1 ops) as [[s2 ys]|] eqn:R; [|discriminate]. injection E as <- <-.
  rewrite handed_cons in Nd, Fr. destruct (nodup_app_parts _ _ Nd) as (_ & N2 & N3).
  destruct (dec_step_linear s o s1 x St Sg ltac:(intros n I; apply Fr; apply in_or_app; auto)) as (Sg1 & H1 & T1 & Nt).
  destruct (IH _ _ _ R Sg1 N2) as (Nx & Tx).
  { intros n I Hn. destruct (H1 n Hn) as [Y|Y]; [apply (Fr n); [apply in_or_app; auto|exact Y]|exact (N3 n Y I)]. }
  rewrite taken_cons, handed_cons. split.
  - apply nodup_app_make; [exact Nt|exact Nx|]. intros n I J. destruct (T1 n I) as [Hs Hs1]. destruct (Tx n J) as [Y|Y]; [exact (Hs1 Y)|]. apply (Fr n); [apply in_or_app; auto|exact Hs].
  - intros n I. apply in_app_or in I. destruct I as [I|I]; [left; apply (T1 n I)|]. destruct (Tx n I) as [Y|Y]; [|right; apply in_or_app; auto].
    destruct (H1 n Y) as [Z|Z]; [left; exact Z|right; apply in_or_app; auto].
Qed.
Lemma dec_given_once ops s xs : dec_run dec_none ops = Some (s, xs) -> NoDup (handed ops) -> NoDup (taken xs) /\ incl (taken xs) (handed ops).
Proof.
  intros E Nd. assert (forall n, ~ held dec_none n) as Nh by (intros n (i & d & x & X & _); discriminate X).
  destruct (dec_linear ops dec_none s xs E) as [A B]; [intros i j d e n x y X; discriminate X|exact Nd|auto|]. split; [exact A|]. intros n I. destruct (B n I) as [Y|Y]; [elim (Nh n Y)|exact Y].
Qed.
(** ** a struct that gave its data *)
Lemma step_at s o s' x i d : dec_step s o = Some (s', x) -> s i = Some d -> ~ replaces i o -> exists d', s' i = Some d' /\ (wd_moved d = true -> wd_moved d' = true).
Proof.
  intros E Si Nr. destruct o as [j|j k|j v|j p|j h|j g|j|j]; cbn [dec_step] in E; unfold on in E; cbn [replaces] in Nr.
  - injection E as <- <-. exists d. rewrite put_other by auto. auto.
  - destruct (Nat.eqb_spec j k) as [|Njk]; [discriminate|]. destruct (s j) as [e|] eqn:Sj; [|discriminate]. injection E as <- <-.
    destruct (Nat.eq_dec i j) as [->|Ni]; [rewrite put_same; exists (dec_left e); split; [reflexivity|]; rewrite Sj in Si; injection Si as ->; auto|].
    rewrite put_other by exact Ni. rewrite put_other by auto. exists d. auto.
  - destruct (s j) as [e|] eqn:Sj; [|discriminate]. injection E as <- <-. destruct (Nat.eq_dec i j) as [->|Ni]; [|rewrite put_other by exact Ni; exists d; auto].
    rewrite put_same. rewrite Sj in Si. injection Si as ->. eexists. split; [reflexivity|auto].
  - destruct (s j) as [e|] eqn:Sj; [|discriminate]. injection E as <- <-. destruct (Nat.eq_dec i j) as [->|Ni]; [|rewrite put_other by exact Ni; exists d; auto].
    rewrite put_same. rewrite Sj in Si. injection Si as ->. eexists. split; [reflexivity|auto].
  - destruct (s j) as [e|] eqn:Sj; [|discriminate]. injection E as <- <-. destruct (Nat.eq_dec i j) as [->|Ni]; [|rewrite put_other by exact Ni; exists d; auto].
    rewrite put_same. rewrite Sj in Si. injection Si as ->. eexists. split; [reflexivity|auto].
  - destruct (s j) as [e|] eqn:Sj; [|discriminate]. unfold dec_getFileDataRef in E. destruct (dec_file e) as [p|e'|c|]; cbn [bind] in E; try discriminate E; injection E as <- <-; [|exists d; auto].
    destruct (Nat.eq_dec i j) as [->|Ni]; [|rewrite put_other by exact Ni; exists d; auto].
    rewrite put_same. rewrite Sj in Si. injection Si as ->. eexists. split; [reflexivity|auto].
  - destruct (s j) as [e|] eqn:Sj; [|discriminate]. unfold dec_getFileData in E. destruct (dec_file e) as [p|e'|c|]; cbn [bind] in E; try discriminate E; injection E as <- <-; [|exists d; auto].
    destruct (Nat.eq_dec i j) as [->|Ni]; [|rewrite put_other by exact Ni; exists d; auto].
    rewrite put_same. eexists. split; [reflexivity|auto].
  - destruct (s j) as [e|] eqn:Sj; [|discriminate]. destruct (dec_getDataHeader e) as [h|e'|c|]; cbn [bind] in E; try discriminate E; injection E as <- <-; [|exists d; auto].
    destruct (Nat.eq_dec i j) as [->|Ni]; [|rewrite put_other by exact Ni; exists d; auto].
    rewrite put_same. rewrite Sj in Si. injection Si as ->. eexists. split; [reflexivity|auto].
Qed.
Lemma run_moved ops : forall s s' xs i d, dec_run s ops = Some (s', xs) -> s i = Some d -> wd_moved d = true -> ~ replaced i ops -> exists d', s' i = Some d' /\ wd_moved d' = true.
Proof.
  induction ops as [|o ops IH]; intros s s' xs i d E Si M Nr; cbn [dec_run] in E; [injection E as <- <-; exists d; auto|].
  destruct (dec_step s o) as [[s1 x]|] eqn:St; [|discriminate]. destruct (dec_run s1 ops) as [[s2 ys]|] eqn:R; [|discriminate]. injection E as <- <-.
  destruct (step_at s o s1 x i d St Si) as (d1 & S1 & M1); [intros X; apply Nr; exists o; split; [left; reflexivity|exact X]|].
  apply (IH _ _ _ _ _ R S1 (M1 M)). intros (o' & I & X). apply Nr. exists o'. split; [right; exact I|exact X].
Qed.
Lemma last_app {A} (a : list (option A)) x : last (a ++ [x]) None = x.
Proof. induction a as [|y a IH]; [reflexivity|]. cbn [app last]. destruct (a ++ [x]) eqn:E; [destruct a; discriminate E|exact IH]. Qed.
Lemma final_step pre o s xs s' y : dec_run dec_none pre = Some (s, xs) -> dec_step s o = Some (s', y) -> final (pre ++ [o]) = Some y.
Proof. intros E St. unfold final. rewrite dec_run_app, E. cbn [dec_run]. rewrite St. rewrite map_app. apply last_app. Qed.
Lemma dec_final pre o : final (pre ++ [o]) = match dec_run dec_none pre with Some (s, _) => match dec_step s o with Some (_, y) => Some y | None => None end | None => None end.
Proof.
  unfold final. rewrite dec_run_app. destruct (dec_run dec_none pre) as [[s xs]|]; [|reflexivity]. cbn [dec_run]. destruct (dec_step s o) as [[s' y]|]; [|reflexivity].
  rewrite map_app. apply last_app.
Qed.
Lemma dec_dead a b i p o s xs : final (a ++ [DGet i]) = Some (AFile p) -> ~ replaced i b -> (o = DGet i \/ exists g, o = DRef i g) ->
  dec_run dec_none (a ++ DGet i :: b) = Some (s, xs) -> final ((a ++ DGet i :: b) ++ [o]) = Some (AThrow LogicError).
Proof.
  intros Fp Nr Ho E. rewrite dec_final in Fp. rewrite dec_final, E. rewrite dec_run_app in E. destruct (dec_run dec_none a) as [[s0 ys]|]; [|discriminate]. cbn [dec_run] in E.
  destruct (dec_step s0 (DGet i)) as [[s1 y]|] eqn:St; [|discriminate]. injection Fp as ->. destruct (dec_run s1 b) as [[s2 zs]|] eqn:R; [|discriminate]. injection E as <- <-.
  assert (exists d, s1 i = Some d /\ wd_moved d = true) as (d & S1 & M).
  { cbn [dec_step] in St. unfold on in St. destruct (s0 i) as [e|]; [|discriminate]. unfold dec_getFileData in St. destruct (dec_file e); cbn [bind] in St; try discriminate St.
    injection St as <- _. rewrite put_same. eexists. split; [reflexivity|reflexivity]. }
  destruct (run_moved b s1 s2 zs i d R S1 M Nr) as (d2 & S2 & M2).
  assert (dec_file d2 = Throw LogicError) as D by (unfold dec_file; rewrite M2; destruct (wd_success d2); reflexivity).
  destruct Ho as [->|(g & ->)]; cbn [dec_step]; unfold on; rewrite S2; [unfold dec_getFileData|unfold dec_getFileDataRef]; rewrite D; reflexivity.
Qed.
(** ** what a struct gives *)
Lemma step_kept s o s' y i d : dec_step s o = Some (s', y) -> s i = Some d -> wd_moved d = false -> lets i o -> exists d', s' i = Some d' /\ wd_moved d' = false /\
  wd_success d' = success_of i (wd_success d) [o] /\
  ((forall p, o <> DSetFile i p) -> wd_file d' = match wd_file d with Some (n, x) => Some (n, edited i (wd_success d) x [o]) | None => None end) /\
  ((forall h, o <> DSetHeader i h) -> wd_header d' = wd_header d).
Proof.
  intros E Si M L. destruct o as [j|j k|j v|j p|j h|j g|j|j]; cbn [dec_step] in E; unfold on in E; cbn [lets] in L; cbn [success_of edited].
  - injection E as <- <-. exists d. rewrite put_other by auto. repeat split; auto. intros _. destruct (wd_file d) as [[? ?]|]; reflexivity.
  - destruct L as [L1 L2]. destruct (Nat.eqb_spec j k) as [|Njk]; [discriminate|]. destruct (s j) as [e|] eqn:Sj; [|discriminate]. injection E as <- <-.
    rewrite put_other by auto. rewrite put_other by auto. exists d. repeat split; auto. intros _. destruct (wd_file d) as [[? ?]|]; reflexivity.
  - destruct (s j) as [e|] eqn:Sj; [|discriminate]. injection E as <- <-. destruct (Nat.eqb_spec j i) as [->|Ni]; [|rewrite put_other by auto; exists d; repeat split; auto; intros _; destruct (wd_file d) as [[? ?]|]; reflexivity].
    rewrite put_same. rewrite Sj in Si. injection Si as ->. eexists. split; [reflexivity|]. cbn. repeat split; auto. intros _. destruct (wd_file d) as [[? ?]|]; reflexivity.
  - destruct (s j) as [e|] eqn:Sj; [|discriminate]. injection E as <- <-. destruct (Nat.eq_dec i j) as [->|Ni]; [|rewrite put_other by auto; exists d; repeat split; auto; intros _; destruct (wd_file d) as [[? ?]|]; reflexivity].
    rewrite put_same. rewrite Sj in Si. injection Si as ->. eexists. split; [reflexivity|]. cbn. repeat split; auto. intros X. elim (X p). reflexivity.
  - destruct (s j) as [e|] eqn:Sj; [|discriminate]. injection E as <- <-. destruct (Nat.eq_dec i j) as [->|Ni]; [|rewrite put_other by auto; exists d; repeat split; auto; intros _; destruct (wd_file d) as [[? ?]|]; reflexivity].
    rewrite put_same. rewrite Sj in Si. injection Si as ->. eexists. split; [reflexivity|]. cbn. repeat split; auto; [intros _; destruct (wd_file d) as [[? ?]|]; reflexivity|]. intros X. elim (X h). reflexivity.
  - destruct (s j) as [e|] eqn:Sj; [|discriminate]. unfold dec_getFileDataRef, dec_file in E. destruct (Nat.eqb_spec j i) as [->|Ni].
    + rewrite Sj in Si. injection Si as ->. rewrite M in E. destruct (wd_success d) eqn:Su; cbn [bind] in E;
        try (injection E as <- <-; exists d; repeat split; auto; intros _; destruct (wd_file d) as [[? ?]|]; reflexivity).
      destruct (wd_file d) as [[n x]|] eqn:Fd; cbn [bind] in E; injection E as <- <-.
      * rewrite put_same. eexists. split; [reflexivity|]. cbn. repeat split; auto.
      * exists d. rewrite Fd. repeat split; auto.
    + destruct (match wd_success e with SUCCESS => _ | _ => _ end); cbn [bind] in E; try discriminate E; injection E as <- <-; rewrite ?put_other by auto; exists d; repeat split; auto;
        intros _; destruct (wd_file d) as [[? ?]|]; reflexivity.
  - destruct (s j) as [e|] eqn:Sj; [|discriminate]. unfold dec_getFileData in E. destruct (dec_file e); cbn [bind] in E; try discriminate E; injection E as <- <-; rewrite ?put_other by auto; exists d; repeat split; auto;
        intros _; destruct (wd_file d) as [[? ?]|]; reflexivity.
  - destruct (s j) as [e|] eqn:Sj; [|discriminate]. destruct (dec_getDataHeader e) as [h|e'|c|]; cbn [bind] in E; try discriminate E; injection E as <- <-.
    + destruct (Nat.eq_dec i j) as [->|Ni]; [rewrite put_same; rewrite Sj in Si; injection Si as ->|rewrite put_other by auto]; exists d; repeat split; auto; intros _; destruct (wd_file d) as [[? ?]|]; reflexivity.
    + exists d. repeat split; auto. intros _. destruct (wd_file d) as [[? ?]|]; reflexivity.
Qed.
Lemma success_cons i o r s : success_of i s (o :: r) = success_of i (success_of i s [o]) r.
Proof. destruct o; reflexivity. Qed.
Lemma edited_cons i o r s x : edited i s x (o :: r) = edited i (success_of i s [o]) (edited i s x [o]) r.
Proof. destruct o; reflexivity. Qed.
Lemma run_kept ops : forall s s' xs i d, dec_run s ops = Some (s', xs) -> s i = Some d -> wd_moved d = false -> spared i ops -> exists d', s' i = Some d' /\ wd_moved d' = false /\
  wd_success d' = success_of i (wd_success d) ops /\
  ((forall p, ~ In (DSetFile i p) ops) -> wd_file d' = match wd_file d with Some (n, x) => Some (n, edited i (wd_success d) x ops) | None => None end) /\
  ((forall h, ~ In (DSetHeader i h) ops) -> wd_header d' = wd_header d).
Proof.
  induction ops as [|o ops IH]; intros s s' xs i d E Si M L; cbn [dec_run] in E.
  - injection E as <- <-. exists d. repeat split; auto. intros _. destruct (wd_file d) as [[? ?]|]; reflexivity.
  - destruct (dec_step s o) as [[s1 x]|] eqn:St; [|discriminate]. destruct (dec_run s1 ops) as [[s2 ys]|] eqn:R; [|discriminate]. injection E as <- <-.
    destruct (step_kept s o s1 x i d St Si M ltac:(apply L; left; reflexivity)) as (d1 & S1 & M1 & U1 & F1 & G1).
    destruct (IH _ _ _ _ _ R S1 M1 ltac:(intros o' I; apply L; right; exact I)) as (d2 & S2 & M2 & U2 & F2 & G2).
    exists d2. split; [exact S2|]. split; [exact M2|]. rewrite success_cons, <- U1. split; [exact U2|]. split.
    + intros Nf. rewrite F2 by (intros p I; apply (Nf p); right; exact I). rewrite F1 by (intros p ->; apply (Nf p); left; reflexivity).
      destruct (wd_file d) as [[n y]|]; [|reflexivity]. rewrite (edited_cons i o ops), <- U1. reflexivity.
    + intros Nf. rewrite G2 by (intros p I; apply (Nf p); right; exact I). apply G1. intros p ->. apply (Nf p). left. reflexivity.
Qed.
Lemma success_app i a : forall s b, success_of i s (a ++ b) = success_of i (success_of i s a) b.
Proof. induction a as [|o a IH]; intros s b; [reflexivity|]. cbn [app]. rewrite success_cons, IH, <- success_cons. reflexivity. Qed.
(** a struct since it was made *)
Lemma since_new z i a s xs : dec_run dec_none (z ++ DNew i :: a) = Some (s, xs) -> spared i a -> exists d, s i = Some d /\ wd_moved d = false /\ wd_success d = success_of i FAIL a /\
  ((forall p, ~ In (DSetFile i p) a) -> wd_file d = None) /\ ((forall h, ~ In (DSetHeader i h) a) -> wd_header d = None).
Proof.
  intros E L. rewrite dec_run_app in E. destruct (dec_run dec_none z) as [[s0 ys]|]; [|discriminate]. cbn [dec_run dec_step] in E.
  destruct (dec_run (put i dec_new s0) a) as [[s1 zs]|] eqn:R; [|discriminate]. injection E as <- <-.
  destruct (run_kept a _ _ _ i dec_new R (put_same _ _ _) eq_refl L) as (d & S1 & M & U & F & G). exists d. cbn in F, G. auto.
Qed.
Lemma dec_gives z i a n x b s xs : dec_run dec_none (z ++ DNew i :: a ++ DSetFile i (Some (n, x)) :: b) = Some (s, xs) -> spared i a -> spared i b -> (forall p, ~ In (DSetFile i p) b) ->
  final ((z ++ DNew i :: a ++ DSetFile i (Some (n, x)) :: b) ++ [DGet i]) =
    Some (match success_of i FAIL (a ++ b) with SUCCESS => AFile (n, edited i (success_of i FAIL a) x b) | _ => AThrow LogicError end).
Proof.
  intros E La Lb Nf. rewrite dec_final, E. replace (z ++ DNew i :: a ++ DSetFile i (Some (n, x)) :: b) with ((z ++ DNew i :: a) ++ DSetFile i (Some (n, x)) :: b) in E by (rewrite <- app_assoc; reflexivity).
  rewrite dec_run_app in E. destruct (dec_run dec_none (z ++ DNew i :: a)) as [[s0 ys]|] eqn:Ea; [|discriminate].
  destruct (since_new z i a s0 ys Ea La) as (d & S0 & M & U & _). cbn [dec_run dec_step] in E. unfold on in E. rewrite S0 in E.
  destruct (dec_run (put i (dec_setFileData (Some (n, x)) d) s0) b) as [[s1 zs]|] eqn:R; [|discriminate]. injection E as <- <-.
  destruct (run_kept b _ _ _ i _ R (put_same _ _ _) ltac:(exact M) Lb) as (d1 & S1 & M1 & U1 & F1 & _). specialize (F1 Nf). cbn in F1, U1. rewrite U in F1, U1.
  rewrite success_app. cbn [dec_step]. unfold on. rewrite S1. unfold dec_getFileData, dec_file. rewrite <- U1, M1, F1. destruct (wd_success d1); reflexivity.
Qed.
Lemma dec_empty z i a s xs : dec_run dec_none (z ++ DNew i :: a) = Some (s, xs) -> spared i a ->
  ((forall p, ~ In (DSetFile i p) a) -> final ((z ++ DNew i :: a) ++ [DGet i]) = Some (AThrow LogicError) /\ forall g, final ((z ++ DNew i :: a) ++ [DRef i g]) = Some (AThrow LogicError)) /\
  ((forall h, ~ In (DSetHeader i h) a) -> final ((z ++ DNew i :: a) ++ [DHeader i]) = Some (AThrow match success_of i FAIL a with SUCCESS => OtherExn | _ => LogicError end)).
Proof.
  intros E L. destruct (since_new z i a s xs E L) as (d & S0 & M & U & F & G). split.
  - intros Nf. specialize (F Nf). assert (dec_file d = Throw LogicError) as D by (unfold dec_file; rewrite M, F; destruct (wd_success d); reflexivity).
    split; [|intros g]; rewrite dec_final, E; cbn [dec_step]; unfold on; rewrite S0; [unfold dec_getFileData|unfold dec_getFileDataRef]; rewrite D; reflexivity.
  - intros Nh. specialize (G Nh). rewrite dec_final, E. cbn [dec_step]. unfold on. rewrite S0. unfold dec_getDataHeader. rewrite U, G. destruct (success_of i FAIL a); reflexivity.
Qed.
Lemma dec_header z i a h b s xs : dec_run dec_none (z ++ DNew i :: a ++ DSetHeader i h :: b) = Some (s, xs) -> spared i a -> spared i b -> (forall p, ~ In (DSetHeader i p) b) ->
  final ((z ++ DNew i :: a ++ DSetHeader i h :: b) ++ [DHeader i]) = Some (match success_of i FAIL (a ++ b) with SUCCESS => AHeader h | _ => AThrow LogicError end).
Proof.
  intros E La Lb Nf. rewrite dec_final, E. replace (z ++ DNew i :: a ++ DSetHeader i h :: b) with ((z ++ DNew i :: a) ++ DSetHeader i h :: b) in E by (rewrite <- app_assoc; reflexivity).
  rewrite dec_run_app in E. destruct (dec_run dec_none (z ++ DNew i :: a)) as [[s0 ys]|] eqn:Ea; [|discriminate].
  destruct (since_new z i a s0 ys Ea La) as (d & S0 & M & U & _). cbn [dec_run dec_step] in E. unfold on in E. rewrite S0 in E.
  destruct (dec_run (put i (dec_setDataHeader h d) s0) b) as [[s1 zs]|] eqn:R; [|discriminate]. injection E as <- <-.
  destruct (run_kept b _ _ _ i _ R (put_same _ _ _) ltac:(exact M) Lb) as (d1 & S1 & M1 & U1 & _ & G1). specialize (G1 Nf). cbn in G1, U1. rewrite U in U1.
  rewrite success_app. cbn [dec_step]. unfold on. rewrite S1. unfold dec_getDataHeader. rewrite <- U1, G1. destruct (wd_success d1); reflexivity.
Qed.
Lemma dec_moves ops i j s xs : dec_run dec_none (ops ++ [DMove i j]) = Some (s, xs) ->
  final ((ops ++ [DMove i j]) ++ [DGet j]) = final (ops ++ [DGet i]) /\ final ((ops ++ [DMove i j]) ++ [DHeader j]) = final (ops ++ [DHeader i]) /\
  final ((ops ++ [DMove i j]) ++ [DGet i]) = Some (AThrow LogicError).
Proof.
  intros E. rewrite !dec_final, E. rewrite dec_run_app in E. destruct (dec_run dec_none ops) as [[s0 ys]|]; [|discriminate]. cbn [dec_run dec_step] in E.
  destruct (Nat.eqb_spec i j) as [|Nij]; [discriminate|]. destruct (s0 i) as [d|] eqn:Si; [|discriminate]. injection E as <- <-. cbn [dec_step]. unfold on.
  rewrite put_same, put_other by auto. rewrite put_same, Si. split; [|split].
  - destruct (dec_getFileData d) as [[? ?]|e|c|]; reflexivity.
  - destruct (dec_getDataHeader d) as [?|e|c|]; reflexivity.
  - unfold dec_getFileData, dec_file. cbn. destruct (wd_success d), (wd_moved d); reflexivity.
Qed.
