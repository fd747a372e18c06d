(** How random values are distributed: src/rng.cpp 8-38, 61-89. *)
From Verif Require Import Base BytesModel BaseFacts BytesSpec BytesFacts BytesFacts2 MiscModel MiscSpec MiscFacts CountSpec.
From Coq Require Import Lia FinFun.
Open Scope N_scope.
Open Scope list_scope.

(** ** counting *)
Lemma number_unique n P k1 k2 : number n P k1 -> number n P k2 -> k1 = k2.
Proof.
  intros (l1 & D1 & I1 & <-) (l2 & D2 & I2 & <-). unfold lenN. f_equal. apply Nat.le_antisymm; apply NoDup_incl_length; try assumption; intros x Hx.
  - apply I2, I1, Hx.
  - apply I1, I2, Hx.
Qed.
Lemma number_iff n P Q k : (forall l, lenN l = n -> (P l <-> Q l)) -> number n P k -> number n Q k.
Proof.
  intros E (ls & D & I & L). exists ls. split; [exact D|]. split; [|exact L]. intros l. rewrite I. split; intros [A B]; (split; [exact A|]); apply E; assumption.
Qed.
Definition below (k : N) : list N := map N.of_nat (seq 0 (N.to_nat k)).
Lemma in_below k j : In j (below k) <-> j < k.
Proof.
  unfold below. rewrite in_map_iff. split.
  - intros (i & <- & H). apply in_seq in H. lia.
  - intros H. exists (N.to_nat j). split; [lia|]. apply in_seq. lia.
Qed.
Lemma below_nodup k : NoDup (below k).
Proof. unfold below. apply FinFun.Injective_map_NoDup; [intros a b E; lia|apply seq_NoDup]. Qed.
Lemma below_len k : lenN (below k) = k.
Proof. unfold below. rewrite lenN_map. unfold lenN. rewrite seq_length. lia. Qed.

(** the bytes of a number *)
Lemma be_list_len k v : lenN (be_list k v) = N.of_nat k.
Proof. revert v. induction k as [|k IH]; intros v; [reflexivity|]. cbn [be_list]. rewrite lenN_app, IH, lenN_cons, lenN_nil. lia. Qed.

Lemma residues M r t : 0 < r -> t < r -> forall j, j < M / r + (if t <? M mod r then 1 else 0) <-> t + j * r < M.
Proof.
  intros R T j. pose proof (N.div_mod M r ltac:(lia)) as E. pose proof (N.mod_lt M r ltac:(lia)) as L. set (q := M / r) in *. set (m := M mod r) in *.
  destruct (N.ltb_spec t m) as [C|C]; split; intros H; try nia.
Qed.
Lemma number_mod n r t : 0 < r -> t < r ->
  number n (fun l => be_val l mod r = t) (256 ^ n / r + (if t <? 256 ^ n mod r then 1 else 0)).
Proof.
  intros R T. set (k := 256 ^ n / r + _). exists (map (fun j => be_list (N.to_nat n) (t + j * r)) (below k)).
  assert (forall j, j < k -> be_val (be_list (N.to_nat n) (t + j * r)) = t + j * r) as V.
  { intros j Hj. apply (residues (256 ^ n) r t R T) in Hj. rewrite be_list_val. rewrite N2Nat.id. apply N.mod_small. exact Hj. }
  split; [|split].
  - apply NoDup_nth_error. intros i j Hi E. rewrite !nth_error_map in E. rewrite map_length in Hi.
    destruct (nth_error (below k) i) as [a|] eqn:Ea; [|apply nth_error_None in Ea; lia].
    destruct (nth_error (below k) j) as [b|] eqn:Eb; [|discriminate]. cbn in E. injection E as E.
    assert (a < k) by (apply in_below; eapply nth_error_In; exact Ea). assert (b < k) by (apply in_below; eapply nth_error_In; exact Eb).
    assert (a = b) by (apply (f_equal be_val) in E; rewrite !V in E by assumption; nia). subst b.
    pose proof (below_nodup k) as D. rewrite NoDup_nth_error in D. apply D; [exact Hi|congruence].
  - intros l. rewrite in_map_iff. split.
    + intros (j & <- & Hj). apply in_below in Hj. split; [rewrite be_list_len; lia|]. rewrite V by exact Hj. rewrite N.mod_add by lia. apply N.mod_small. exact T.
    + intros (L & E). pose proof (be_val_lt l) as B. rewrite L in B. exists (be_val l / r). pose proof (N.div_mod (be_val l) r ltac:(lia)) as Q.
      assert (be_val l / r < k) as Hj by (apply (residues (256 ^ n) r t R T); lia). split; [|apply in_below; exact Hj].
      apply be_val_inj; [rewrite be_list_len; lia|]. rewrite V by exact Hj. lia.
  - rewrite lenN_map. apply below_len.
Qed.

(** ** get_random_byte *)
Lemma random_byte_is lower upper n l x : b2n lower < b2n upper -> 1 <= n <= 8 -> lenN l = n -> b2n lower <= b2n x < b2n upper ->
  (get_random_byte (delivers l) lower upper n = Ret x <-> be_val l mod (b2n upper - b2n lower) = b2n x - b2n lower).
Proof.
  intros B Hn L X. unfold get_random_byte, delivers. destruct (N.ltb_spec n 1); [lia|]. destruct (N.ltb_spec 8 n); [lia|]. cbn [orb].
  destruct (N.leb_spec (b2n upper) (b2n lower)); [lia|]. rewrite toLong_val by (cbn; unfold getLen; cbn; lia). cbn [bind bdata].
  pose proof (b2n_lt upper). set (r := b2n upper - b2n lower) in *. pose proof (N.mod_lt (be_val l) r ltac:(lia)) as M. split.
  - intros E. injection E as E. apply (f_equal b2n) in E. rewrite b2n_n2b_small in E by lia. lia.
  - intros E. f_equal. apply b2n_inj. rewrite b2n_n2b_small by lia. lia.
Qed.
Definition share (n : N) (lower upper x : byte) : N :=
  256 ^ n / (b2n upper - b2n lower) + (if b2n x - b2n lower <? 256 ^ n mod (b2n upper - b2n lower) then 1 else 0).
Lemma random_byte_number n lower upper x : 1 <= n <= 8 -> b2n lower <= b2n x < b2n upper ->
  number n (fun l => get_random_byte (delivers l) lower upper n = Ret x) (share n lower upper x).
Proof.
  intros Hn X. eapply number_iff; [|apply (number_mod n (b2n upper - b2n lower) (b2n x - b2n lower)); lia].
  intros l L. cbn. symmetry. apply random_byte_is; try assumption; lia.
Qed.
(** the low values come up at most once more *)
Lemma random_byte_low n lower upper x y kx ky : 1 <= n <= 8 -> b2n lower <= b2n x -> b2n x <= b2n y -> b2n y < b2n upper ->
  number n (fun l => get_random_byte (delivers l) lower upper n = Ret x) kx -> number n (fun l => get_random_byte (delivers l) lower upper n = Ret y) ky ->
  ky <= kx <= ky + 1.
Proof.
  intros Hn X XY Y Nx Ny. rewrite (number_unique _ _ _ _ Nx (random_byte_number n lower upper x Hn ltac:(lia))).
  rewrite (number_unique _ _ _ _ Ny (random_byte_number n lower upper y Hn ltac:(lia))). unfold share.
  destruct (N.ltb_spec (b2n x - b2n lower) (256 ^ n mod (b2n upper - b2n lower))); destruct (N.ltb_spec (b2n y - b2n lower) (256 ^ n mod (b2n upper - b2n lower))); lia.
Qed.
Lemma divides_power2 r k : 2 ^ k mod r = 0 -> 0 < r -> exists e, r = 2 ^ e.
Proof.
  revert r. induction k as [|k IH] using N.peano_ind; intros r M R.
  - apply N.mod_divide in M; [|lia]. destruct M as (q & E). change (2 ^ 0) with 1 in E. exists 0. change (2 ^ 0) with 1. symmetry in E. apply N.eq_mul_1 in E. lia.
  - apply N.mod_divide in M; [|lia]. destruct M as (q & E). rewrite N.pow_succ_r' in E. destruct (N.even r) eqn:Ev.
    + apply N.even_spec in Ev. destruct Ev as (s & ->). destruct (IH s) as (e & ->); [|lia|exists (N.succ e); rewrite N.pow_succ_r'; reflexivity].
      apply N.mod_divide; [lia|]. exists q. nia.
    + assert (N.even q = true) as Eq.
      { assert (N.even (q * r) = true) as P by (rewrite <- E, N.even_mul; reflexivity). rewrite N.even_mul, Ev in P. destruct (N.even q); [reflexivity|discriminate]. }
      apply N.even_spec in Eq. destruct Eq as (s & ->). apply IH; [|exact R]. apply N.mod_divide; [lia|]. exists s. nia.
Qed.
(** all values are equally likely exactly if the number of values is a power of two *)
Lemma random_byte_fair n lower upper : 1 <= n <= 8 -> b2n lower < b2n upper ->
  (exists k, forall x, b2n lower <= b2n x < b2n upper -> number n (fun l => get_random_byte (delivers l) lower upper n = Ret x) k) <->
  (exists e, b2n upper - b2n lower = 2 ^ e).
Proof.
  intros Hn B. pose proof (b2n_lt upper) as U. set (r := b2n upper - b2n lower) in *. split.
  - intros (k & F). destruct (N.eq_dec (256 ^ n mod r) 0) as [Z|Z].
    { apply (divides_power2 r (8 * n)); [|lia]. rewrite N.pow_mul_r. change (2 ^ 8) with 256. exact Z. }
    exfalso. set (top := n2b (b2n lower + r - 1)). assert (b2n top = b2n lower + r - 1) as T by (unfold top; apply b2n_n2b_small; lia).
    pose proof (number_unique _ _ _ _ (F lower ltac:(lia)) (random_byte_number n lower upper lower Hn ltac:(lia))) as K1.
    pose proof (number_unique _ _ _ _ (F top ltac:(lia)) (random_byte_number n lower upper top Hn ltac:(lia))) as K2.
    unfold share in K1, K2. fold r in K1, K2. rewrite T in K2. rewrite N.sub_diag in K1. pose proof (N.mod_lt (256 ^ n) r ltac:(lia)).
    destruct (N.ltb_spec 0 (256 ^ n mod r)); [|lia]. destruct (N.ltb_spec (b2n lower + r - 1 - b2n lower) (256 ^ n mod r)); lia.
  - intros (e & E). exists (256 ^ n / r). intros x X. replace (256 ^ n / r) with (share n lower upper x); [apply random_byte_number; assumption|].
    unfold share. fold r. assert (256 ^ n mod r = 0) as ->; [|destruct (_ <? 0) eqn:C; [apply N.ltb_lt in C; lia|lia]].
    assert (e <= 8 * n) as Le.
    { destruct (N.le_gt_cases e 8) as [|G]; [lia|]. pose proof (N.pow_lt_mono_r 2 8 e ltac:(lia) G). change (2 ^ 8) with 256 in *. lia. }
    rewrite E. apply N.mod_divide; [apply N.pow_nonzero; lia|]. exists (2 ^ (8 * n - e)). rewrite <- N.pow_add_r. replace (8 * n - e + e) with (8 * n) by lia.
    rewrite N.pow_mul_r. reflexivity.
Qed.
