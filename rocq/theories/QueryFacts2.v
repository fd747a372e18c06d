From Verif Require Import Base BaseFacts BytesModel BytesSpec BytesFacts CipherModel PwModel PwSpec ChModel ChSpec HeaderModel HeaderSpec FileModel ApiModel ApiSpec WorkModel WorkSpec.
From Verif Require Import SecSpec QuerySpec QueryFacts.
Open Scope N_scope.
Open Scope list_scope.

Lemma asked_same {A} D D' (p : program A) : (forall x, In x (asked D p) -> D' x = D x) -> answer D' p = answer D p.
Proof.
  induction p as [a|t k IH]; intros E; [reflexivity|]. cbn [answer asked] in *. rewrite (E t) by (left; reflexivity).
  apply IH. intros x I. apply E. right. exact I.
Qed.

(** a set of digest functions with [D] in place of one of them *)
Definition with_hash (mode : N) (D : bytes -> bytes) (H : hashes) : hashes :=
  match mode with 1 => mkHashes D (H384 H) (H512 H) | 2 => mkHashes (H256 H) D (H512 H) | _ => mkHashes (H256 H) (H384 H) D end.
Lemma with_hash_of mode D H : 1 <= mode <= 3 -> hash_of (with_hash mode D H) mode = D.
Proof. intros B. assert (mode = 1 \/ mode = 2 \/ mode = 3) as [->|[->| ->]] by lia; reflexivity. Qed.
Lemma with_hash_ok mode D H : 1 <= mode <= 3 -> hashes_ok H -> (forall x, lenN (D x) = digest_len mode) -> hashes_ok (with_hash mode D H).
Proof.
  intros B (A1 & A2 & A3) L. assert (mode = 1 \/ mode = 2 \/ mode = 3) as [->|[->| ->]] by lia; repeat split; assumption.
Qed.
Lemma hash_len H mode x : hashes_ok H -> 1 <= mode <= 3 -> lenN (hash_of H mode x) = digest_len mode.
Proof. intros (A1 & A2 & A3) B. assert (mode = 1 \/ mode = 2 \/ mode = 3) as [->|[->| ->]] by lia; [apply A1|apply A2|apply A3]. Qed.

Section Header.
  Variable h : header.
  Hypothesis Hh : header_ok h.
  Let m1 := salts (h_ch1 h).
  Let m2 := salts (h_ch2 h).
  Let n1 := N.to_nat (iterations (h_ch1 h)).
  Let n2 := N.to_nat (iterations (h_ch2 h)).
  Let d := N.to_nat (digest_len (h_hmode h)).
  Definition all_salts (j : nat) : bytes := if (j <? n1)%nat then salt_at m1 (N.of_nat j) else salt_at m2 (N.of_nat (j - n1)).
  Lemma counts : 1 <= iterations (h_ch1 h) <= 1000000000 /\ 1 <= iterations (h_ch2 h) <= 1000000000.
  Proof using Hh. destruct Hh as (_ & _ & _ & _ & C1 & C2 & _). unfold chain_ok in C1, C2. unfold iterations. destruct (h_ch1 h) as ((a & b) & c), (h_ch2 h) as ((a' & b') & c'). cbn [fst snd] in *. lia. Qed.
  Lemma mode_ok : 1 <= h_hmode h <= 3.
  Proof using Hh. apply Hh. Qed.
  Lemma d_cases : d = 32%nat \/ d = 48%nat \/ d = 64%nat.
  Proof using Hh. pose proof mode_ok as B. unfold d. assert (h_hmode h = 1 \/ h_hmode h = 2 \/ h_hmode h = 3) as [->|[->| ->]] by lia; auto. Qed.
  Lemma d_is : N.of_nat d = digest_len (h_hmode h).
  Proof using. unfold d. apply N2Nat.id. Qed.
  Lemma room k : k <= 2 ^ 240 -> k <= 256 ^ N.of_nat d.
  Proof using Hh.
    intros L. apply (N.le_trans _ (256 ^ 32)); [apply (N.le_trans _ _ _ L); vm_compute; discriminate|].
    apply N.pow_le_mono_r; [lia|]. destruct d_cases as [->|[->| ->]]; lia.
  Qed.

  Lemma val_first D g k : (k < n1)%nat -> val all_salts D g (S k) = iterated D m1 g k.
  Proof using.
    induction k as [|k IH]; intros L.
    - cbn [val iterated]. unfold all_salts. destruct (Nat.ltb_spec 0 n1); [reflexivity|lia].
    - change (val all_salts D g (S (S k))) with (D (val all_salts D g (S k) ++ all_salts (S k))). rewrite IH by lia.
      cbn [iterated]. unfold all_salts. destruct (Nat.ltb_spec (S k) n1); [reflexivity|lia].
  Qed.
  Lemma val_key H g : val all_salts (hash_of H (h_hmode h)) g n1 = key_of H h g.
  Proof using Hh.
    pose proof counts as (C1 & _). replace n1 with (S (N.to_nat (iterations (h_ch1 h) - 1))) at 1 by (unfold n1; lia).
    rewrite val_first by (unfold n1; lia). reflexivity.
  Qed.
  Lemma val_second H g k : val all_salts (hash_of H (h_hmode h)) g (S (n1 + k)) = iterated (hash_of H (h_hmode h)) m2 (key_of H h g) k.
  Proof using Hh.
    induction k as [|k IH].
    - rewrite Nat.add_0_r. cbn [val iterated]. rewrite val_key. unfold all_salts. destruct (Nat.ltb_spec n1 n1); [lia|]. rewrite Nat.sub_diag. reflexivity.
    - rewrite Nat.add_succ_r. change (val all_salts ?D g (S (S (n1 + k)))) with (D (val all_salts D g (S (n1 + k)) ++ all_salts (S (n1 + k)))).
      rewrite IH. cbn [iterated]. unfold all_salts. destruct (Nat.ltb_spec (S (n1 + k)) n1); [lia|]. replace (S (n1 + k) - n1)%nat with (S k) by lia. reflexivity.
  Qed.
  Lemma val_all H g : val all_salts (hash_of H (h_hmode h)) g (n1 + n2) = validator H h (key_of H h g).
  Proof using Hh.
    pose proof counts as (_ & C2). replace (n1 + n2)%nat with (S (n1 + N.to_nat (iterations (h_ch2 h) - 1))) by (unfold n2; lia).
    rewrite val_second. reflexivity.
  Qed.
  Lemma text_first D g j : (j < n1)%nat -> text all_salts D g j = input D m1 g j.
  Proof using.
    intros L. unfold text, input. destruct j as [|k].
    - cbn [val]. unfold all_salts. destruct (Nat.ltb_spec 0 n1); [reflexivity|lia].
    - rewrite val_first by lia. unfold all_salts. destruct (Nat.ltb_spec (S k) n1); [reflexivity|lia].
  Qed.
  Lemma text_second H g j : text all_salts (hash_of H (h_hmode h)) g (n1 + j) = input (hash_of H (h_hmode h)) m2 (key_of H h g) j.
  Proof using Hh.
    unfold text, input, all_salts. destruct (Nat.ltb_spec (n1 + j) n1); [lia|]. replace (n1 + j - n1)%nat with j by lia. destruct j as [|k].
    - rewrite Nat.add_0_r, val_key. reflexivity.
    - rewrite Nat.add_succ_r, val_second. reflexivity.
  Qed.
  Lemma first_is H g : first_texts H h g = map (text all_salts (hash_of H (h_hmode h)) g) (seq 0 n1).
  Proof using. unfold first_texts. apply map_ext_in. intros j I. apply in_seq in I. symmetry. apply text_first. lia. Qed.
  Lemma both_is H g : first_texts H h g ++ second_texts H h g = map (text all_salts (hash_of H (h_hmode h)) g) (seq 0 (n1 + n2)).
  Proof using Hh.
    rewrite seq_app, map_app, first_is. f_equal. rewrite Nat.add_0_l. unfold second_texts.
    fold m2 n2.
    assert (seq n1 n2 = map (fun j => (n1 + j)%nat) (seq 0 n2)) as ->.
    { replace n1 with (n1 + 0)%nat at 1 by lia. generalize n1. clear. intros n1.
      assert (forall k b, seq (n1 + b) k = map (fun j => (n1 + j)%nat) (seq b k)) as X.
      { induction k as [|k IH]; intros b; [reflexivity|]. cbn [seq map]. f_equal. rewrite <- Nat.add_succ_r. apply IH. }
      apply X. }
    rewrite map_map. apply map_ext. intros j. symmetry. apply text_second.
  Qed.

  (** a value of the right size other than [v] *)
  Definition other (v : bytes) : bytes := let z := repeat x00 d in if bytes_dec v z then repeat x01 d else z.
  Lemma other_len v : lenN (other v) = N.of_nat d.
  Proof using. unfold other. destruct (bytes_dec v (repeat x00 d)); unfold lenN; rewrite repeat_length; reflexivity. Qed.
  Lemma other_ne v : other v <> v.
  Proof using Hh. unfold other. destruct (bytes_dec v (repeat x00 d)) as [->|X]; [|congruence]. destruct d_cases as [->|[->| ->]]; cbn; discriminate. Qed.

  Lemma all_asked_dec D g n Q : (forall j, (j < n)%nat -> In (text all_salts D g j) Q) \/ exists j, (j < n)%nat /\ ~ In (text all_salts D g j) Q.
  Proof using.
    induction n as [|n [IH|(j & L & X)]].
    - left. lia.
    - destruct (in_dec bytes_dec (text all_salts D g n) Q) as [I|I].
      + left. intros j L. destruct (Nat.eq_dec j n) as [->|]; [exact I|apply IH; lia].
      + right. exists n. split; [lia|exact I].
    - right. exists j. split; [lia|exact X].
  Qed.

  Lemma redirected H g Q n v : hashes_ok H -> (n <= n1 + n2)%nat -> lenN Q < 2 ^ 200 -> lenN v = digest_len (h_hmode h) ->
    (exists j, (j < n)%nat /\ ~ In (text all_salts (hash_of H (h_hmode h)) g j) Q) ->
    exists H', hashes_ok H' /\ (forall x, In x Q -> hash_of H' (h_hmode h) x = hash_of H (h_hmode h) x) /\ val all_salts (hash_of H' (h_hmode h)) g n = v.
  Proof using Hh.
    intros HH Ln LQ Lv Ms. pose proof mode_ok as M. pose proof counts as (C1 & C2).
    destruct (redirect d all_salts (hash_of H (h_hmode h)) g Q n v) as (D' & LD & Ag & E).
    - intros x. rewrite d_is. apply hash_len; assumption.
    - rewrite d_is. exact Lv.
    - apply room. apply (N.le_trans _ (2 ^ 201 * 2 ^ 32)).
      + apply N.mul_le_mono; [change (2 ^ 201) with (2 * 2 ^ 200); assert (4 <= 2 ^ 200) by (vm_compute; discriminate); lia|].
        unfold n1, n2 in Ln. assert (N.of_nat n <= 2000000000) by lia. apply (N.le_trans _ 2000000002); [lia|vm_compute; discriminate].
      + vm_compute; discriminate.
    - exact Ms.
    - exists (with_hash (h_hmode h) D' H). rewrite with_hash_of by exact M. split; [|split; assumption].
      apply with_hash_ok; [exact M|exact HH|]. intros x. rewrite LD. apply d_is.
  Qed.

  Lemma decides_asks gs p : decides h gs p -> forall H, hashes_ok H -> lenN (asked (hash_of H (h_hmode h)) p) < 2 ^ 200 ->
    forall g t, In g gs -> In t (first_texts H h g ++ second_texts H h g) -> In t (asked (hash_of H (h_hmode h)) p).
  Proof using Hh.
    intros Dp H HH LQ g t Ig It. set (Q := asked (hash_of H (h_hmode h)) p) in *.
    destruct (all_asked_dec (hash_of H (h_hmode h)) g (n1 + n2) Q) as [A|Ms].
    { rewrite both_is in It. apply in_map_iff in It. destruct It as (j & <- & I). apply in_seq in I. apply A. lia. }
    exfalso. pose (v := if bytes_dec (h_valid h) (validator H h (key_of H h g)) then other (h_valid h) else h_valid h).
    assert (lenN (h_valid h) = digest_len (h_hmode h)) as Lh by apply Hh.
    assert (lenN v = digest_len (h_hmode h)) as Lv by (unfold v; destruct (bytes_dec _ _); [rewrite other_len; apply d_is|exact Lh]).
    destruct (redirected H g Q (n1 + n2) v HH (Nat.le_refl _) LQ Lv Ms) as (H' & HH' & Ag & E). rewrite val_all in E.
    pose proof (asked_same (hash_of H (h_hmode h)) (hash_of H' (h_hmode h)) p Ag) as Same.
    pose proof (Dp H HH) as F. pose proof (Dp H' HH') as F'. rewrite Same in F'.
    apply In_nth_error in Ig. destruct Ig as (i & Ig).
    assert (forall P (l : list bool) (k : list bytes), Forall2 P l k -> forall i g, nth_error k i = Some g -> exists b, nth_error l i = Some b /\ P b g) as Nth.
    { clear. intros P l k F. induction F as [|b x l k Pb F IH]; intros [|i] g E; cbn [nth_error] in *; try discriminate.
      - injection E as <-. exists b. split; [reflexivity|exact Pb].
      - apply IH. exact E. }
    destruct (Nth _ _ _ F i g Ig) as (b & B & X). destruct (Nth _ _ _ F' i g Ig) as (b' & B' & X'). rewrite B in B'. injection B' as <-.
    unfold opens in X, X'. rewrite E in X'. unfold v in X'. destruct (bytes_dec (h_valid h) (validator H h (key_of H h g))) as [Y|Y].
    - apply (other_ne (h_valid h)). symmetry. apply X', X. exact Y.
    - apply Y, X, X'. reflexivity.
  Qed.
  Lemma key_asks pw p : computes_key h pw p -> forall H, hashes_ok H -> lenN (asked (hash_of H (h_hmode h)) p) < 2 ^ 200 ->
    forall t, In t (first_texts H h pw) -> In t (asked (hash_of H (h_hmode h)) p).
  Proof using Hh.
    intros Dp H HH LQ t It. set (Q := asked (hash_of H (h_hmode h)) p) in *.
    destruct (all_asked_dec (hash_of H (h_hmode h)) pw n1 Q) as [A|Ms].
    { rewrite first_is in It. apply in_map_iff in It. destruct It as (j & <- & I). apply in_seq in I. apply A. lia. }
    exfalso. destruct (redirected H pw Q n1 (other (key_of H h pw)) HH ltac:(lia) LQ) as (H' & HH' & Ag & E).
    - rewrite other_len. apply d_is.
    - exact Ms.
    - rewrite val_key in E. pose proof (Dp H' HH') as F. rewrite (asked_same _ _ p Ag), (Dp H HH), E in F.
      exact (other_ne _ (eq_sym F)).
  Qed.

  Lemma guesses_cost gs p : decides h gs p -> NoDup gs -> lenN gs <= 2 ^ 64 -> forall H0, hashes_ok H0 ->
    exists H, hashes_ok H /\ lenN gs * check_rounds h <= lenN (asked (hash_of H (h_hmode h)) p).
  Proof using Hh.
    intros Dp ND Lg H0 HH0. pose proof mode_ok as M. pose proof counts as (C1 & C2).
    assert (N.of_nat (n1 + n2) = check_rounds h) as En by (unfold check_rounds, n1, n2; lia).
    destruct (spread d all_salts gs (n1 + n2) ND ltac:(unfold n1; lia)) as (D & LD & Nd).
    - apply room. apply (N.le_trans _ (2 ^ 65 * (2 ^ 65 * 2 ^ 32))); [|vm_compute; discriminate].
      assert (lenN gs + 1 <= 2 ^ 65) as L1 by (apply (N.le_trans _ (2 ^ 64 + 1)); [lia|vm_compute; discriminate]).
      apply N.mul_le_mono; [exact L1|]. apply N.mul_le_mono; [exact L1|]. rewrite En. unfold check_rounds.
      apply (N.le_trans _ 2000000001); [lia|vm_compute; discriminate].
    - exists (with_hash (h_hmode h) D H0).
      assert (hashes_ok (with_hash (h_hmode h) D H0)) as HH by (apply with_hash_ok; [exact M|exact HH0|intros x; rewrite LD; apply d_is]).
      split; [exact HH|]. destruct (N.lt_ge_cases (lenN (asked (hash_of (with_hash (h_hmode h) D H0) (h_hmode h)) p)) (2 ^ 200)) as [Sm|Bg].
      + assert (forall g t, In g gs -> In t (map (text all_salts D g) (seq 0 (n1 + n2))) -> In t (asked (hash_of (with_hash (h_hmode h) D H0) (h_hmode h)) p)) as A.
        { intros g t Ig It. apply (decides_asks gs p Dp _ HH Sm g t Ig). rewrite both_is, with_hash_of by exact M. exact It. }
        assert (incl (flat_map (fun g => map (text all_salts D g) (seq 0 (n1 + n2))) gs) (asked (hash_of (with_hash (h_hmode h) D H0) (h_hmode h)) p)) as I.
        { intros t It. apply in_flat_map in It. destruct It as (g & Ig & It). exact (A g t Ig It). }
        pose proof (NoDup_incl_length Nd I) as L. 
        assert (length (flat_map (fun g => map (text all_salts D g) (seq 0 (n1 + n2))) gs) = (length gs * (n1 + n2))%nat) as EL.
        { clear. induction gs as [|g r IH]; [reflexivity|]. cbn [flat_map length Nat.mul]. rewrite app_length, IH, map_length, seq_length. reflexivity. }
        rewrite EL in L. rewrite <- En. unfold lenN. lia.
      + apply (N.le_trans _ (2 ^ 200)); [|exact Bg]. apply (N.le_trans _ (2 ^ 64 * 2 ^ 32)); [|vm_compute; discriminate].
        apply N.mul_le_mono; [exact Lg|]. unfold check_rounds. apply (N.le_trans _ 2000000000); [lia|vm_compute; discriminate].
  Qed.
End Header.

(** the straightforward program: both chain hashes for one guess after the other *)
Fixpoint ask_chain {A} (s : nat -> bytes) (from n : nat) (x : bytes) (k : bytes -> program A) : program A :=
  match n with O => k x | S n' => Ask (x ++ s from) (fun y => ask_chain s (S from) n' y k) end.
Fixpoint plain_check (h : header) (gs : list bytes) (done : list bool) : program (list bool) :=
  match gs with
  | [] => Answer done
  | g :: r => ask_chain (all_salts h) 0 (N.to_nat (iterations (h_ch1 h)) + N.to_nat (iterations (h_ch2 h))) g
      (fun v => plain_check h r (done ++ [if bytes_dec (h_valid h) v then true else false]))
  end.
Lemma ask_chain_answer {A} s D n : forall from g (k : bytes -> program A),
  answer D (ask_chain s from n (val s D g from) k) = answer D (k (val s D g (from + n)%nat)) /\
  asked D (ask_chain s from n (val s D g from) k) = map (text s D g) (seq from n) ++ asked D (k (val s D g (from + n)%nat)).
Proof.
  induction n as [|n IH]; intros from g k; cbn [ask_chain seq map app].
  - rewrite Nat.add_0_r. split; reflexivity.
  - cbn [answer asked]. change (D (val s D g from ++ s from)) with (val s D g (S from)).
    destruct (IH (S from) g k) as (I1 & I2). rewrite I1, I2, Nat.add_succ_r. split; reflexivity.
Qed.
Lemma plain_check_is h H : header_ok h -> forall gs done,
  answer (hash_of H (h_hmode h)) (plain_check h gs done) = done ++ map (fun g => if bytes_dec (h_valid h) (validator H h (key_of H h g)) then true else false) gs /\
  asked (hash_of H (h_hmode h)) (plain_check h gs done) = flat_map (fun g => first_texts H h g ++ second_texts H h g) gs.
Proof.
  intros Hh gs. induction gs as [|g r IH]; intros done; cbn [plain_check map flat_map].
  - cbn [answer asked]. rewrite app_nil_r. split; reflexivity.
  - destruct (ask_chain_answer (all_salts h) (hash_of H (h_hmode h)) (N.to_nat (iterations (h_ch1 h)) + N.to_nat (iterations (h_ch2 h))) 0 g
      (fun v => plain_check h r (done ++ [if bytes_dec (h_valid h) v then true else false]))) as (E1 & E2).
    cbn [val Nat.add] in E1, E2. cbn [Nat.add]. change (val (all_salts h) (hash_of H (h_hmode h)) g 0) with g in *. rewrite E1, E2.
    rewrite (val_all h Hh). destruct (IH (done ++ [if bytes_dec (h_valid h) (validator H h (key_of H h g)) then true else false])) as (I1 & I2).
    rewrite I1, I2, (both_is h Hh), <- app_assoc. split; reflexivity.
Qed.
Lemma plain_check_decides h gs : header_ok h -> decides h gs (plain_check h gs []).
Proof.
  intros Hh H HH. rewrite (proj1 (plain_check_is h H Hh gs [])). cbn [app]. clear HH.
  induction gs as [|g r IH]; cbn [map]; constructor; [|exact IH].
  unfold opens. destruct (bytes_dec (h_valid h) (validator H h (key_of H h g))); split; congruence.
Qed.
Lemma plain_check_rounds h gs H : header_ok h -> lenN (asked (hash_of H (h_hmode h)) (plain_check h gs [])) = lenN gs * check_rounds h.
Proof.
  intros Hh. rewrite (proj2 (plain_check_is h H Hh gs [])). unfold lenN, check_rounds, first_texts, second_texts.
  induction gs as [|g r IH]; [reflexivity|]. cbn [flat_map length]. rewrite !app_length, !map_length, !seq_length. nia.
Qed.
Lemma best_check h gs : header_ok h -> exists p, decides h gs p /\ forall H, lenN (asked (hash_of H (h_hmode h)) p) = lenN gs * check_rounds h.
Proof. intros Hh. exists (plain_check h gs []). split; [apply plain_check_decides, Hh|]. intros H. apply plain_check_rounds, Hh. Qed.
