(** Facts about repeated salts. *)
From Coq Require Import Strings.Byte FinFun Lia.
From Verif Require Import Base BaseFacts BytesModel BytesSpec BytesFacts BytesFacts2 MiscModel ChModel HeaderModel HeaderSpec FileModel ApiModel ApiSpec CountSpec CountFacts CountFacts2 ApiFacts4 EditSpec EditFacts SaltSpec.
Open Scope N_scope.
Open Scope list_scope.

Lemma bytes_eq_dec (x y : bytes) : {x = y} + {x <> y}.
Proof. apply list_eq_dec. intros a b. destruct (Byte.eqb a b) eqn:E; [left; apply Byte.byte_dec_bl, E|right; intros ->; rewrite Byte.byte_dec_lb in E by reflexivity; discriminate]. Qed.
(** all blocks *)
Lemma all_blocks n : exists ls : list bytes, NoDup ls /\ (forall l, In l ls <-> lenN l = n) /\ lenN ls = 256 ^ n.
Proof.
  destruct (number_mod n 1 0 ltac:(lia) ltac:(lia)) as (ls & D & I & L). exists ls. split; [exact D|]. split.
  - intros l. rewrite I. split; [tauto|]. intros E. split; [exact E|]. apply N.mod_1_r.
  - rewrite L, N.div_1_r, N.mod_1_r. cbn. lia.
Qed.
(** the lists without a property *)
Lemma number_not n P k : number n P k -> number n (fun l => ~ P l) (256 ^ n - k).
Proof.
  intros (ps & D & I & L). destruct (all_blocks n) as (ls & Da & Ia & La).
  set (out := fun l => if in_dec bytes_eq_dec l ps then false else true).
  exists (filter out ls). split; [apply NoDup_filter; exact Da|]. split.
  - intros l. rewrite filter_In, Ia. unfold out. destruct (in_dec bytes_eq_dec l ps) as [Y|Y]; rewrite I in Y; split; intros [A B]; (split; [assumption|]); tauto || discriminate.
  - assert (length (filter out ls) + length ps = length ls)%nat as C.
    { rewrite <- app_length. apply Nat.le_antisymm.
      - apply NoDup_incl_length.
        + apply NoDup_app_intro; [apply NoDup_filter; exact Da|exact D|]. intros x Hx Hp. apply filter_In in Hx. unfold out in Hx.
          destruct (in_dec bytes_eq_dec x ps); [destruct Hx; discriminate|contradiction].
        + intros x Hx. apply in_app_iff in Hx. apply Ia. destruct Hx as [Hx|Hx]; [apply filter_In in Hx; apply Ia; tauto|apply I in Hx; tauto].
      - apply NoDup_incl_length; [exact Da|]. intros x Hx. apply in_app_iff. destruct (in_dec bytes_eq_dec x ps) as [Y|Y]; [right; exact Y|].
        left. apply filter_In. split; [exact Hx|]. unfold out. destruct (in_dec bytes_eq_dec x ps); [contradiction|reflexivity]. }
    unfold lenN in *. lia.
Qed.

(** lists in two parts *)
Lemma number_two a b (P : bytes -> Prop) (Q : bytes -> bytes -> Prop) p q : number a P p -> (forall l, lenN l = a -> P l -> number b (Q l) q) ->
  number (a + b) (fun l => P (takeN a l) /\ Q (takeN a l) (dropN a l)) (p * q).
Proof.
  intros (ps & D & I & L) H.
  assert (forall xs, NoDup xs -> (forall x, In x xs -> In x ps) -> exists ls, NoDup ls /\
    (forall l, In l ls <-> exists x y, l = x ++ y /\ In x xs /\ lenN y = b /\ Q x y) /\ lenN ls = lenN xs * q) as A.
  { induction xs as [|x xs IH]; intros Dx Ix.
    - exists []. split; [constructor|]. split; [|reflexivity]. intros l. split; [intros []|intros (x & y & _ & [] & _)].
    - apply NoDup_cons_iff in Dx. destruct Dx as [Nx Dx]. destruct (IH Dx) as (ls & L1 & L2 & L3); [intros z Hz; apply Ix; right; exact Hz|].
      destruct (H x) as (ms & M1 & M2 & M3); [apply I, Ix; left; reflexivity|apply I, Ix; left; reflexivity|].
      exists (map (app x) ms ++ ls). split; [|split].
      + apply NoDup_app_intro; [apply Injective_map_NoDup; [intros u v E; exact (app_inv_head _ _ _ E)|exact M1]|exact L1|].
        intros l Hl Hl2. apply in_map_iff in Hl. destruct Hl as (y & <- & _). apply L2 in Hl2. destruct Hl2 as (x' & y' & E & Hx' & _).
        assert (lenN x = a /\ lenN x' = a) as [X1 X2] by (split; apply I, Ix; [left; reflexivity|right; exact Hx']).
        apply (f_equal (takeN a)) in E. rewrite <- X1 in E at 1. rewrite <- X2 in E. rewrite !takeN_app_exact in E. subst x'. contradiction.
      + intros l. rewrite in_app_iff, in_map_iff. split.
        * intros [(y & <- & Hy)|Hl]; [apply M2 in Hy; exists x, y; split; [reflexivity|]; split; [left; reflexivity|]; exact Hy|].
          apply L2 in Hl. destruct Hl as (x' & y & E & Hx & R). exists x', y. split; [exact E|]. split; [right; exact Hx|exact R].
        * intros (x' & y & -> & [<-|Hx] & Ly & R); [left; exists y; split; [reflexivity|]; apply M2; split; assumption|]. right. apply L2. exists x', y. auto.
      + rewrite lenN_app, lenN_map, M3, L3, lenN_cons. lia. }
  destruct (A ps D (fun _ X => X)) as (ls & L1 & L2 & L3). exists ls. split; [exact L1|]. split; [|rewrite L3, L; reflexivity].
  intros l. rewrite L2. split.
  - intros (x & y & -> & Hx & Ly & R). apply I in Hx. destruct Hx as [Lx Px]. rewrite <- Lx, takeN_app_exact, dropN_app_exact. split; [rewrite lenN_app; lia|]. split; assumption.
  - intros [Ll [Pl R]]. exists (takeN a l), (dropN a l). split; [symmetry; apply takeN_dropN|]. split; [apply I; split; [rewrite lenN_takeN; lia|exact Pl]|].
    split; [rewrite lenN_dropN; lia|exact R].
Qed.
(** ** draws *)
Lemma draw_len n k l i : lenN l = N.of_nat k * n -> (i < k)%nat -> lenN (draw n l i) = n.
Proof. intros L Hi. unfold draw. rewrite lenN_takeN, lenN_dropN, L. nia. Qed.
Lemma draw_take n k l i : (i < k)%nat -> draw n (takeN (N.of_nat k * n) l) i = draw n l i.
Proof.
  intros Hi. unfold draw. rewrite <- (takeN_dropN (N.of_nat k * n) l) at 2.
  destruct (N.le_gt_cases (N.of_nat k * n) (lenN l)) as [Le|Gt].
  - rewrite dropN_app_le by (rewrite lenN_takeN; nia). rewrite takeN_app_le; [reflexivity|]. rewrite lenN_dropN, lenN_takeN. nia.
  - rewrite (dropN_all (N.of_nat k * n) l), app_nil_r by lia. reflexivity.
Qed.
Definition draws (n : N) (k : nat) (l : bytes) : list bytes := map (draw n l) (seq 0 k).
Lemma draws_len n k l : lenN (draws n k l) = N.of_nat k.
Proof. unfold draws, lenN. rewrite map_length, seq_length. reflexivity. Qed.
Lemma in_draws n k l b : In b (draws n k l) <-> exists i, (i < k)%nat /\ draw n l i = b.
Proof. unfold draws. rewrite in_map_iff. split; intros (i & A & B); exists i; rewrite in_seq in *; split; auto with arith; lia. Qed.
Lemma repeats_S n k l : repeats n (S k) l <-> repeats n k l \/ In (draw n l k) (draws n k l).
Proof.
  rewrite in_draws. split.
  - intros (i & j & [A B] & E). destruct (Nat.eq_dec j k) as [->|Nj]; [right; exists i; split; assumption|left; exists i, j; split; [lia|exact E]].
  - intros [(i & j & [A B] & E)|(i & A & E)]; [exists i, j|exists i, k]; (split; [lia|exact E]).
Qed.
Lemma repeats_nodup n l : forall k, ~ repeats n k l -> NoDup (draws n k l).
Proof.
  induction k as [|k IH]; intros R; [constructor|]. rewrite repeats_S in R. unfold draws. rewrite seq_S, map_app. fold (draws n k l). cbn [map].
  apply NoDup_app_intro; [apply IH; tauto|constructor; [intros []|constructor]|]. intros x Hx [<-|[]]. tauto.
Qed.
Lemma repeats_take n k l : repeats n k (takeN (N.of_nat k * n) l) <-> repeats n k l.
Proof. split; intros (i & j & A & E); exists i, j; (split; [exact A|]); rewrite !(draw_take n k) in * by lia; exact E. Qed.
Lemma draws_take n k l : draws n k (takeN (N.of_nat k * n) l) = draws n k l.
Proof. unfold draws. apply map_ext_in. intros i Hi. apply in_seq in Hi. apply draw_take. lia. Qed.
Lemma number_in n bs : NoDup bs -> (forall b, In b bs -> lenN b = n) -> number n (fun b => In b bs) (lenN bs).
Proof. intros D L. exists bs. split; [exact D|]. split; [|reflexivity]. intros l. split; [intros H; split; [apply L; exact H|exact H]|tauto]. Qed.
Lemma distinct_number n k : number (N.of_nat k * n) (fun l => ~ repeats n k l) (falling (256 ^ n) k).
Proof.
  induction k as [|k IH].
  - apply number_nil_true. intros (i & j & A & _). lia.
  - replace (N.of_nat (S k) * n) with (N.of_nat k * n + n) by lia. cbn [falling].
    eapply number_iff; [|apply (number_two _ n _ (fun l b => ~ In b (draws n k l)) _ _ IH)].
    + intros l L. cbn beta. rewrite repeats_take, draws_take, repeats_S.
      replace (dropN (N.of_nat k * n) l) with (draw n l k); [tauto|]. unfold draw. apply takeN_all. rewrite lenN_dropN. lia.
    + intros l L R. rewrite <- (draws_len n k l). apply number_not, number_in; [apply repeats_nodup, R|].
      intros b Hb. apply in_draws in Hb. destruct Hb as (i & Hi & <-). exact (draw_len n k l i L Hi).
Qed.
Lemma number_le n P k : number n P k -> k <= 256 ^ n.
Proof.
  intros (ls & D & I & <-). destruct (all_blocks n) as (bs & _ & Ib & <-). unfold lenN.
  assert (length ls <= length bs)%nat; [|lia]. apply NoDup_incl_length; [exact D|]. intros x Hx. apply Ib. apply I in Hx. tauto.
Qed.
Lemma falling_le m k : falling m k <= m ^ N.of_nat k.
Proof.
  induction k as [|k IH]; [cbn; lia|]. cbn [falling]. replace (N.of_nat (S k)) with (N.succ (N.of_nat k)) by lia. rewrite N.pow_succ_r', N.mul_comm.
  apply N.mul_le_mono; [lia|exact IH].
Qed.
Lemma in_dec_repeats n k l : repeats n k l \/ ~ repeats n k l.
Proof.
  induction k as [|k IH]; [right; intros (i & j & A & _); lia|]. rewrite repeats_S. destruct IH as [IH|IH]; [tauto|].
  destruct (in_dec bytes_eq_dec (draw n l k) (draws n k l)); tauto.
Qed.
Lemma repeats_number n k : exists u, number (N.of_nat k * n) (repeats n k) u /\ u + falling (256 ^ n) k = 256 ^ (N.of_nat k * n).
Proof.
  exists (256 ^ (N.of_nat k * n) - falling (256 ^ n) k). split.
  - eapply number_iff; [|apply number_not, distinct_number]. intros l _. cbn beta. destruct (in_dec_repeats n k l); tauto.
  - pose proof (number_le _ _ _ (distinct_number n k)). lia.
Qed.
Lemma falling_bound m k : 2 * m * m ^ N.of_nat k <= 2 * m * falling m k + N.of_nat k * (N.of_nat k - 1) * m ^ N.of_nat k.
Proof.
  induction k as [|k IH]; [cbn; lia|]. cbn [falling]. pose proof (falling_le m k) as F.
  replace (N.of_nat (S k)) with (N.succ (N.of_nat k)) by lia. rewrite N.pow_succ_r'. set (M := m ^ N.of_nat k) in *. set (f := falling m k) in *. set (K := N.of_nat k) in *.
  replace (N.succ K - 1) with K by lia.
  assert (m * (2 * m * M) <= m * (2 * m * f + K * (K - 1) * M)) as IH' by (apply N.mul_le_mono_l; exact IH).
  assert (m * f <= f * (m - K) + K * f) as Q by nia.
  assert (K * (K - 1) + 2 * K = N.succ K * K) as KK by (destruct (N.eq_dec K 0) as [->|Nk]; [reflexivity|]; replace K with (N.succ (K - 1)) at 1 3 4 5 by lia; nia).
  assert (2 * m * (m * f) <= 2 * m * (f * (m - K)) + 2 * m * (K * M)) as Q2 by nia.
  replace (N.succ K * K * (m * M)) with (m * (K * (K - 1) * M) + 2 * m * (K * M)) by (rewrite <- KK; ring). nia.
Qed.
Lemma repeats_bound n k u : number (N.of_nat k * n) (repeats n k) u -> 2 * 256 ^ n * u <= N.of_nat k * (N.of_nat k - 1) * 256 ^ (N.of_nat k * n).
Proof.
  intros U. destruct (repeats_number n k) as (u' & U' & E). rewrite (number_unique _ _ _ _ U U'). clear U U'.
  pose proof (falling_bound (256 ^ n) k) as B. rewrite <- N.pow_mul_r, (N.mul_comm n) in B. nia.
Qed.
Lemma falling_zero m k : m < N.of_nat k -> falling m k = 0.
Proof.
  induction k as [|k IH]; intros L; [lia|]. cbn [falling]. destruct (N.lt_ge_cases m (N.of_nat k)) as [A|A]; [rewrite (IH A); reflexivity|].
  replace (m - N.of_nat k) with 0 by lia. apply N.mul_0_r.
Qed.
Lemma repeats_certain n k l : lenN l = N.of_nat k * n -> 256 ^ n < N.of_nat k -> repeats n k l.
Proof.
  intros L Lt. destruct (in_dec_repeats n k l) as [R|R]; [exact R|]. exfalso.
  destruct (distinct_number n k) as (ls & _ & I & Le). rewrite (falling_zero _ _ Lt) in Le. apply lenN_0 in Le. subst ls. apply (I l). split; assumption.
Qed.
(** ** the versions of a file *)
Lemma with_salt_twice s t h : with_salt s (with_salt t h) = with_salt s h.
Proof. reflexivity. Qed.
Lemma draws_from_tail n l s ss : draws_from n l (s :: ss) -> draws_from n (dropN n l) ss.
Proof.
  intros D i x E. destruct (D (S i) x E) as [A B]. split; [exact A|]. rewrite B. unfold draw. rewrite dropN_dropN. do 2 f_equal. lia.
Qed.
Lemma resalted bd H p lo n : forall ss l h pw d h' pw' d', digest_len (h_hmode h) = n -> draws_from n l ss -> edits bd H p lo h pw d ss h' pw' d' ->
  pw' = pw /\ h' = match length ss with O => h | S k => with_salt (draw n l k) h end.
Proof.
  induction ss as [|s ss IH]; intros l h pw d h' pw' d' Hn D E; subst n; inversion E; subst; [split; reflexivity|].
  destruct (D 0%nat s eq_refl) as [C R].
  match goal with X : renewed _ _ _ _ |- _ => unfold renewed in X; rewrite C in X; rewrite R in X; subst end.
  match goal with X : edits _ _ _ _ _ (later s _) _ _ _ _ _ |- _ => unfold later in X; rewrite C in X;
    refine (_ (fun Y => IH _ _ _ _ _ _ _ Y (draws_from_tail _ _ _ _ D) X)); intros Z; destruct (Z eq_refl) as [A B] end.
  split; [exact A|]. rewrite B. cbn [length h_hmode with_salt]. destruct (length ss) as [|k]; [reflexivity|]. rewrite with_salt_twice.
  f_equal. unfold draw. rewrite dropN_dropN. do 2 f_equal. lia.
Qed.
Lemma draws_from_prefix n l ss ts : draws_from n l (ss ++ ts) -> draws_from n l ss.
Proof. intros D i s E. apply D. rewrite nth_error_app1; [exact E|]. apply nth_error_Some. congruence. Qed.
Lemma versions H : hashes_ok H -> forall bd p lo n l h pw d ss1 ts1 ss2 ts2 i j h1 pw1 d1 c1 h2 pw2 d2 c2,
  digest_len (h_hmode h) = n -> no_empty_block h ->
  draws_from n l (ss1 ++ ts1) -> ss1 ++ ts1 = ss2 ++ ts2 -> length ss1 = S i -> length ss2 = S j ->
  edits bd H p lo h pw d ss1 h1 pw1 d1 -> sealed H h1 pw1 d1 c1 -> lenN d1 < 2 ^ 31 ->
  edits bd H p lo h pw d ss2 h2 pw2 d2 -> sealed H h2 pw2 d2 c2 -> lenN d2 < 2 ^ 31 ->
  (c1 = c2 <-> draw n l i = draw n l j /\ d1 = d2).
Proof.
  intros HH bd p lo n l h pw d ss1 ts1 ss2 ts2 i j h1 pw1 d1 c1 h2 pw2 d2 c2 Hn Ne D Es L1 L2 E1 S1 B1 E2 S2 B2.
  destruct (resalted _ _ _ _ _ _ _ _ _ _ _ _ _ Hn (draws_from_prefix _ _ _ _ D) E1) as [-> H1]. rewrite L1 in H1.
  rewrite Es in D. destruct (resalted _ _ _ _ _ _ _ _ _ _ _ _ _ Hn (draws_from_prefix _ _ _ _ D) E2) as [-> H2]. rewrite L2 in H2. subst h1 h2.
  destruct (bytes_eq_dec (draw n l i) (draw n l j)) as [Y|Y].
  - rewrite Y in S1. rewrite (same_version H HH _ _ _ _ _ _ S1 S2). tauto.
  - split; [|tauto]. intros E. exfalso. refine (other_salt H HH (with_salt (draw n l i) h) (draw n l j) pw d1 d2 c1 c2 S1 S2 _ B1 B2 Y E). exact Ne.
Qed.
