From Coq Require Import FinFun.
From Verif Require Import Base BaseFacts BytesModel BytesSpec BytesFacts.
Open Scope N_scope.
Open Scope list_scope.

(** a block of [w] numbers that is free of the numbers in a list *)
Lemma free_block (L : list N) (w : N) : exists m, m <= lenN L /\ forall x, In x L -> x / w <> m.
Proof.
  pose (M := map (fun x => x / w) L). pose (C := map N.of_nat (seq 0 (S (length L)))).
  destruct (find (fun m => negb (existsb (N.eqb m) M)) C) as [m|] eqn:F.
  - apply find_some in F. destruct F as (I & E). exists m. split.
    + unfold C in I. apply in_map_iff in I. destruct I as (k & <- & I). apply in_seq in I. unfold lenN. lia.
    + intros x Ix Ex. apply Bool.negb_true_iff in E.
      assert (existsb (N.eqb m) M = true) as T; [|congruence].
      apply existsb_exists. exists m. split; [|apply N.eqb_refl]. unfold M. apply in_map_iff. exists x. split; assumption.
  - exfalso.
    assert (NoDup C) as ND. { unfold C. apply Injective_map_NoDup; [intros x y E; lia|apply seq_NoDup]. }
    assert (incl C M) as IC.
    { intros m I. pose proof (find_none _ _ F m I) as E. apply Bool.negb_false_iff in E.
      apply existsb_exists in E. destruct E as (y & Iy & E). apply N.eqb_eq in E. subst y. exact Iy. }
    pose proof (NoDup_incl_length ND IC) as X. unfold C, M in X. rewrite !map_length, seq_length in X. lia.
Qed.

Definition bytes_dec := list_eq_dec Byte.byte_eq_dec.
  Fixpoint index (g : bytes) (gs : list bytes) : nat :=
    match gs with [] => O | x :: r => if bytes_dec x g then O else S (index g r) end.
  Lemma index_lt g gs : In g gs -> (index g gs < length gs)%nat.
  Proof. induction gs as [|x r IH]; intros I; [contradiction|]. cbn [index length]. destruct (bytes_dec x g) as [|X]; [lia|].
    destruct I as [->|I]; [contradiction X; reflexivity|]. specialize (IH I). lia. Qed.
  Lemma index_inj g g' gs : In g gs -> In g' gs -> index g gs = index g' gs -> g = g'.
  Proof.
    induction gs as [|x r IH]; intros I I' E; [contradiction|]. cbn [index] in E.
    destruct (bytes_dec x g) as [A|A], (bytes_dec x g') as [B|B]; [congruence|discriminate|discriminate|].
    apply IH; [destruct I; [contradiction|assumption]|destruct I'; [contradiction|assumption]|lia].
  Qed.
Section Chain.
  Variable d : nat.               (* digest size *)
  Variable s : nat -> bytes.      (* salts *)
  Definition enc (v : N) : bytes := be_list d v.
  Definition num (x : bytes) : N := be_val (takeN (N.of_nat d) x).
  Fixpoint val (D : bytes -> bytes) (g : bytes) (j : nat) : bytes :=
    match j with O => g | S i => D (val D g i ++ s i) end.
  Definition text (D : bytes -> bytes) (g : bytes) (j : nat) : bytes := val D g j ++ s j.

  Lemma num_enc v x : v < 256 ^ N.of_nat d -> num (enc v ++ x) = v.
  Proof using.
    intros L. unfold num, enc. rewrite <- (be_list_len d v) at 1. rewrite takeN_app_exact, be_list_val. apply N.mod_small. exact L.
  Qed.
  Lemma enc_len v : lenN (enc v) = N.of_nat d.
  Proof using. apply be_list_len. Qed.
  Lemma text_agree D D' g n : (forall j, (j < n)%nat -> D' (text D g j) = D (text D g j)) -> forall j, (j <= n)%nat -> val D' g j = val D g j.
  Proof using.
    intros A j. induction j as [|j IH]; intros L; [reflexivity|]. cbn [val]. rewrite IH by lia. apply A. lia.
  Qed.

  (** the first text that is not in a list *)
  Lemma first_missing D g Q n : (exists j, (j < n)%nat /\ ~ In (text D g j) Q) ->
    exists i, (i < n)%nat /\ ~ In (text D g i) Q /\ forall j, (j < i)%nat -> In (text D g j) Q.
  Proof using.
    induction n as [|n IH]; intros (j & Lj & Nj); [lia|].
    destruct (find (fun j => if in_dec bytes_dec (text D g j) Q then false else true) (seq 0 n)) as [k|] eqn:F.
    - apply find_some in F. destruct F as (I & E). apply in_seq in I. destruct (in_dec bytes_dec (text D g k) Q) as [|X]; [discriminate|].
      destruct IH as (i & Li & R); [exists k; split; [lia|exact X]|]. exists i. split; [lia|exact R].
    - assert (forall j, (j < n)%nat -> In (text D g j) Q) as A.
      { intros k Lk. pose proof (find_none _ _ F k ltac:(apply in_seq; lia)) as E. cbv beta in E. destruct (in_dec bytes_dec (text D g k) Q); [assumption|discriminate]. }
      exists n. assert (j = n) as -> by (destruct (Nat.eq_dec j n); [assumption|exfalso; apply Nj, A; lia]).
      split; [lia|]. split; [exact Nj|exact A].
  Qed.

  (** another digest function that answers the same questions in the same way, and for which the chain ends with [v] *)
  Lemma redirect D g Q n v : (forall x, lenN (D x) = N.of_nat d) -> lenN v = N.of_nat d ->
    (lenN Q + 3) * (N.of_nat n + 2) <= 256 ^ N.of_nat d ->
    (exists j, (j < n)%nat /\ ~ In (text D g j) Q) ->
    exists D', (forall x, lenN (D' x) = N.of_nat d) /\ (forall x, In x Q -> D' x = D x) /\ val D' g n = v.
  Proof using.
    intros LD Lv Sp Ms. destruct (first_missing D g Q n Ms) as (i & Li & Ni & Bi).
    pose (w := N.of_nat n + 2). pose (L := num (text D g i) :: map num Q).
    destruct (free_block L w) as (m & Lm & Fm).
    assert (lenN L = lenN Q + 1) as LL by (unfold L, lenN; cbn [length]; rewrite map_length; lia).
    pose (y := m * w).
    assert (forall k, k < w -> y + k < 256 ^ N.of_nat d) as Bound.
    { intros k Lk. unfold y. rewrite LL in Lm. fold w in Sp. nia. }
    assert (forall k x, k < w -> num x = y + k -> ~ In x Q) as NQ.
    { intros k x Lk E I. apply (Fm (num x)); [right; apply in_map; exact I|]. rewrite E. unfold y.
      symmetry. apply (N.div_unique _ _ m k); lia. }
    assert (forall k x, k < w -> num x = y + k -> x <> text D g i) as NI.
    { intros k x Lk E ->. apply (Fm (num (text D g i))); [left; reflexivity|]. rewrite E. unfold y.
      symmetry. apply (N.div_unique _ _ m k); lia. }
    pose (stop := y + N.of_nat (n - 2 - i)).
    pose (D' := fun x => if in_dec bytes_dec x Q then D x
      else if bytes_dec x (text D g i) then (if Nat.eqb (S i) n then v else enc y)
      else if N.eqb (num x) stop then v else enc (num x + 1)).
    assert (forall j, (j <= i)%nat -> val D' g j = val D g j) as Same.
    { apply text_agree. intros j Lj. unfold D'. destruct (in_dec bytes_dec (text D g j) Q) as [|X]; [reflexivity|]. contradiction X. apply Bi. exact Lj. }
    assert (val D' g (S i) = if Nat.eqb (S i) n then v else enc y) as Next.
    { cbn [val]. rewrite Same by lia. fold (text D g i). unfold D'.
      destruct (in_dec bytes_dec (text D g i) Q) as [X|_]; [contradiction|].
      destruct (bytes_dec (text D g i) (text D g i)) as [_|X]; [reflexivity|contradiction X; reflexivity]. }
    assert (forall k, (S i + k < n)%nat -> val D' g (S i + k) = enc (y + N.of_nat k)) as Path.
    { induction k as [|k IH]; intros Lk.
      - rewrite Nat.add_0_r, Next. destruct (Nat.eqb_spec (S i) n); [lia|]. f_equal. lia.
      - rewrite Nat.add_succ_r. cbn [val]. rewrite IH by lia. 
        assert (N.of_nat k < w) as Lw by (unfold w; lia).
        pose proof (num_enc (y + N.of_nat k) (s (S i + k)) (Bound _ Lw)) as En.
        unfold D' at 1. destruct (in_dec bytes_dec _ Q) as [X|_]; [destruct (NQ _ _ Lw En X)|].
        destruct (bytes_dec _ (text D g i)) as [X|_]; [destruct (NI _ _ Lw En X)|].
        rewrite En. destruct (N.eqb_spec (y + N.of_nat k) stop) as [X|_]; [unfold stop in X; lia|]. f_equal. lia. }
    exists D'. split; [|split].
    - intros x. unfold D'. destruct (in_dec bytes_dec x Q); [apply LD|].
      destruct (bytes_dec x (text D g i)); [destruct (Nat.eqb (S i) n); [exact Lv|apply enc_len]|].
      destruct (N.eqb (num x) stop); [exact Lv|apply enc_len].
    - intros x I. unfold D'. destruct (in_dec bytes_dec x Q); [reflexivity|contradiction].
    - destruct (Nat.eqb_spec (S i) n) as [<-|Ne]; [exact Next|].
      pose proof (Path (n - 2 - i)%nat ltac:(lia)) as Last.
      replace n with (S (S i + (n - 2 - i))) at 1 by lia. cbn [val]. rewrite Last.
      assert (N.of_nat (n - 2 - i) < w) as Lw by (unfold w; lia).
      pose proof (num_enc (y + N.of_nat (n - 2 - i)) (s (S i + (n - 2 - i))) (Bound _ Lw)) as En.
      unfold D'. destruct (in_dec bytes_dec _ Q) as [X|_]; [destruct (NQ _ _ Lw En X)|].
      destruct (bytes_dec _ (text D g i)) as [X|_]; [destruct (NI _ _ Lw En X)|].
      rewrite En. unfold stop. rewrite N.eqb_refl. reflexivity.
  Qed.

  (** a digest function for which all texts of all guesses differ *)
  Lemma spread gs n : NoDup gs -> (0 < n)%nat ->
    (lenN gs + 1) * ((lenN gs + 1) * (N.of_nat n + 1)) <= 256 ^ N.of_nat d ->
    exists D, (forall x, lenN (D x) = N.of_nat d) /\ NoDup (flat_map (fun g => map (text D g) (seq 0 n)) gs).
  Proof using.
    intros ND Pn Sp. pose (c := N.of_nat n + 1). pose (w := (lenN gs + 1) * c).
    pose (Q := map (fun g => g ++ s 0) gs).
    destruct (free_block (map num Q) w) as (m & Lm & Fm).
    assert (lenN (map num Q) = lenN gs) as LL by (unfold Q, lenN; rewrite !map_length; reflexivity).
    pose (y := m * w).
    assert (forall k, k < w -> y + k < 256 ^ N.of_nat d) as Bound.
    { intros k Lk. unfold y. rewrite LL in Lm. fold c in Sp. fold w in Sp. nia. }
    assert (forall k x, k < w -> num x = y + k -> ~ In x Q) as NQ.
    { intros k x Lk E I. apply (Fm (num x)); [apply in_map; exact I|]. rewrite E. unfold y.
      symmetry. apply (N.div_unique _ _ m k); lia. }
    pose (D := fun x => if in_dec bytes_dec x Q then enc (y + N.of_nat (index x Q) * c) else enc (num x + 1)).
    assert (length Q = length gs) as LQ by (unfold Q; apply map_length).
    assert (forall g k, In g gs -> (k < n)%nat -> N.of_nat (index (g ++ s 0%nat) Q) * c + N.of_nat k < w) as Win.
    { intros g k I Lk. pose proof (index_lt (g ++ s 0%nat) Q ltac:(unfold Q; apply (in_map (fun g => g ++ s 0%nat)); exact I)) as X.
      rewrite LQ in X. unfold w, c, lenN. nia. }
    assert (forall g k, In g gs -> (k < n)%nat -> val D g (S k) = enc (y + (N.of_nat (index (g ++ s 0%nat) Q) * c + N.of_nat k))) as Path.
    { intros g k I. induction k as [|k IH]; intros Lk.
      - cbn [val]. unfold D. destruct (in_dec bytes_dec (g ++ s 0%nat) Q) as [_|X].
        + f_equal. lia.
        + contradiction X. unfold Q. apply (in_map (fun g => g ++ s 0%nat)). exact I.
      - change (val D g (S (S k))) with (D (val D g (S k) ++ s (S k))). rewrite IH by lia.
        pose proof (Win g k I ltac:(lia)) as Lw.
        pose proof (num_enc (y + (N.of_nat (index (g ++ s 0%nat) Q) * c + N.of_nat k)) (s (S k)) (Bound _ Lw)) as En.
        unfold D at 1. destruct (in_dec bytes_dec _ Q) as [X|_]; [destruct (NQ _ _ Lw En X)|]. rewrite En. f_equal. lia. }
    exists D. split.
    - intros x. unfold D. destruct (in_dec bytes_dec x Q); apply enc_len.
    - assert (forall g k g' k', In g gs -> In g' gs -> (k < n)%nat -> (k' < n)%nat -> text D g k = text D g' k' -> g = g' /\ k = k') as Inj.
      { intros g k g' k' I I' Lk Lk' E. 
        assert (forall g k, In g gs -> (S k < n)%nat -> num (text D g (S k)) = y + (N.of_nat (index (g ++ s 0%nat) Q) * c + N.of_nat k)) as Nm.
        { intros g0 k0 I0 L0. unfold text. rewrite Path by (try assumption; lia). apply num_enc, Bound, Win; [assumption|lia]. }
        assert (forall g, In g gs -> In (text D g 0) Q) as First by (intros g0 I0; unfold Q, text; cbn [val]; apply (in_map (fun g => g ++ s 0%nat)); exact I0).
        destruct k as [|k], k' as [|k'].
        - split; [|reflexivity]. unfold text in E. cbn [val] in E. apply app_inv_tail in E. exact E.
        - exfalso. apply (NQ _ (text D g' (S k')) (Win g' k' I' ltac:(lia)) (Nm g' k' I' Lk')). rewrite <- E. apply First. exact I.
        - exfalso. apply (NQ _ (text D g (S k)) (Win g k I ltac:(lia)) (Nm g k I Lk)). rewrite E. apply First. exact I'.
        - pose proof (Nm g k I Lk) as E1. rewrite E, (Nm g' k' I' Lk') in E1.
          assert (N.of_nat (index (g ++ s 0%nat) Q) = N.of_nat (index (g' ++ s 0%nat) Q)) as Ei.
          { assert (N.of_nat k < c) by (unfold c; lia). assert (N.of_nat k' < c) by (unfold c; lia). nia. }
          assert (k = k') as -> by (rewrite Ei in E1; lia). split; [|reflexivity].
          apply (app_inv_tail (s 0%nat)), (index_inj _ _ Q); [unfold Q; apply (in_map (fun g => g ++ s 0%nat)); exact I|unfold Q; apply (in_map (fun g => g ++ s 0%nat)); exact I'|lia]. }
      clear - ND Inj. clearbody D. clear - ND Inj. revert Inj. induction ND as [|g r Ng ND IH]; intros Inj; [constructor|]. cbn [flat_map].
      assert (NoDup (map (text D g) (seq 0 n))) as N1.
      { apply NoDup_nth_error. intros i j Li E. rewrite map_length, seq_length in Li.
        destruct (lt_dec j n) as [Lj|Lj].
        - rewrite !nth_error_map in E. rewrite !(nth_error_nth' _ 0%nat) in E by (rewrite seq_length; assumption). cbn [option_map] in E.
          rewrite !seq_nth in E by assumption. injection E as E. destruct (Inj g i g j ltac:(left; reflexivity) ltac:(left; reflexivity) Li Lj E) as (_ & X). exact X.
        - exfalso. assert (nth_error (map (text D g) (seq 0 n)) j = None) as X by (apply nth_error_None; rewrite map_length, seq_length; lia).
          rewrite X in E. apply nth_error_None in E. rewrite map_length, seq_length in E. lia. }
      assert (NoDup (flat_map (fun g => map (text D g) (seq 0 n)) r)) as N2.
      { apply IH. intros g1 k g2 k' I I'. apply Inj; right; assumption. }
      assert (forall x, In x (map (text D g) (seq 0 n)) -> ~ In x (flat_map (fun g => map (text D g) (seq 0 n)) r)) as Dj.
      { intros x I1 I2. apply in_map_iff in I1. destruct I1 as (k & <- & I1). apply in_seq in I1.
        apply in_flat_map in I2. destruct I2 as (g' & Ig' & I2). apply in_map_iff in I2. destruct I2 as (k' & E & I2). apply in_seq in I2.
        destruct (Inj g' k' g k ltac:(right; exact Ig') ltac:(left; reflexivity) ltac:(lia) ltac:(lia) E) as (-> & _). contradiction. }
      revert N1 N2 Dj. generalize (map (text D g) (seq 0 n)) as a. generalize (flat_map (fun g => map (text D g) (seq 0 n)) r) as b.
      clear. intros b a N1 N2 Dj. induction a as [|x a IH]; [exact N2|]. cbn [app]. inversion N1; subst. constructor.
      + rewrite in_app_iff. intros [I|I]; [contradiction|]. apply (Dj x); [left; reflexivity|exact I].
      + apply IH; [assumption|]. intros z I. apply Dj. right. exact I.
  Qed.
End Chain.
