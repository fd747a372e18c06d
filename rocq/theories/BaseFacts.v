(** Lemmas about Base.v. *)
From Verif Require Import Base.
Ltac Zify.zify_post_hook ::= Z.div_mod_to_equations.

Lemma b2n_lt b : b2n b < 256.
Proof. unfold b2n. pose proof (Byte.to_N_bounded b). lia. Qed.

Lemma n2b_b2n b : n2b (b2n b) = b.
Proof.
  unfold n2b, b2n. rewrite N.mod_small by (pose proof (Byte.to_N_bounded b); lia).
  rewrite Byte.of_to_N. reflexivity.
Qed.

Lemma b2n_n2b n : b2n (n2b n) = n mod 256.
Proof.
  unfold n2b, b2n. destruct (Byte.of_N (n mod 256)) as [b|] eqn:E.
  - apply Byte.to_of_N. exact E.
  - apply Byte.of_N_None_iff in E. assert (n mod 256 < 256) by (apply N.mod_lt; lia). lia.
Qed.

Lemma b2n_n2b_small n : n < 256 -> b2n (n2b n) = n.
Proof. intros H. rewrite b2n_n2b. apply N.mod_small. exact H. Qed.

Lemma b2n_inj a b : b2n a = b2n b -> a = b.
Proof. intros H. rewrite <- (n2b_b2n a), <- (n2b_b2n b), H. reflexivity. Qed.

Lemma n2b_mod n : n2b (n mod 256) = n2b n.
Proof. apply b2n_inj. rewrite !b2n_n2b. apply N.mod_mod. lia. Qed.

Lemma lenN_nil {A} : lenN (@nil A) = 0. Proof. reflexivity. Qed.
Lemma lenN_cons {A} (x : A) l : lenN (x :: l) = 1 + lenN l.
Proof. unfold lenN. cbn [length]. lia. Qed.
Lemma lenN_app {A} (l k : list A) : lenN (l ++ k) = lenN l + lenN k.
Proof. unfold lenN. rewrite app_length. lia. Qed.
Lemma lenN_map {A B} (f : A -> B) l : lenN (map f l) = lenN l.
Proof. unfold lenN. rewrite map_length. reflexivity. Qed.
Lemma lenN_repeat {A} (x : A) n : lenN (repeat x n) = N.of_nat n.
Proof. unfold lenN. rewrite repeat_length. reflexivity. Qed.
Lemma lenN_0 {A} (l : list A) : lenN l = 0 -> l = [].
Proof. destruct l; [reflexivity|]. rewrite lenN_cons. lia. Qed.

Lemma lenN_takeN {A} n (l : list A) : lenN (takeN n l) = N.min n (lenN l).
Proof. unfold lenN, takeN. rewrite firstn_length. lia. Qed.
Lemma lenN_dropN {A} n (l : list A) : lenN (dropN n l) = lenN l - n.
Proof. unfold lenN, dropN. rewrite skipn_length. lia. Qed.
Lemma takeN_dropN {A} n (l : list A) : takeN n l ++ dropN n l = l.
Proof. apply firstn_skipn. Qed.
Lemma takeN_all {A} n (l : list A) : lenN l <= n -> takeN n l = l.
Proof. unfold lenN, takeN. intros H. apply firstn_all2. lia. Qed.
Lemma dropN_all {A} n (l : list A) : lenN l <= n -> dropN n l = [].
Proof. unfold lenN, dropN. intros H. apply skipn_all2. lia. Qed.
Lemma takeN_0 {A} (l : list A) : takeN 0 l = []. Proof. reflexivity. Qed.
Lemma dropN_0 {A} (l : list A) : dropN 0 l = l. Proof. reflexivity. Qed.
Lemma takeN_app_le {A} n (l k : list A) : n <= lenN l -> takeN n (l ++ k) = takeN n l.
Proof.
  unfold lenN, takeN. intros H. rewrite firstn_app.
  replace (N.to_nat n - length l)%nat with 0%nat by lia. apply app_nil_r.
Qed.
Lemma takeN_app_ge {A} n (l k : list A) : lenN l <= n -> takeN n (l ++ k) = l ++ takeN (n - lenN l) k.
Proof.
  unfold lenN, takeN. intros H. rewrite firstn_app, (firstn_all2 l) by lia.
  do 2 f_equal. lia.
Qed.
Lemma takeN_app_exact {A} (l k : list A) : takeN (lenN l) (l ++ k) = l.
Proof. rewrite takeN_app_le by lia. apply takeN_all. lia. Qed.
Lemma dropN_app_le {A} n (l k : list A) : n <= lenN l -> dropN n (l ++ k) = dropN n l ++ k.
Proof.
  unfold lenN, dropN. intros H. rewrite skipn_app.
  replace (N.to_nat n - length l)%nat with 0%nat by lia. reflexivity.
Qed.
Lemma dropN_app_ge {A} n (l k : list A) : lenN l <= n -> dropN n (l ++ k) = dropN (n - lenN l) k.
Proof.
  unfold lenN, dropN. intros H. rewrite skipn_app, (skipn_all2 l) by lia.
  cbn [app]. f_equal. lia.
Qed.
Lemma dropN_app_exact {A} (l k : list A) : dropN (lenN l) (l ++ k) = k.
Proof. rewrite dropN_app_ge by lia. rewrite N.sub_diag. apply dropN_0. Qed.
Lemma dropN_dropN {A} a b (l : list A) : dropN a (dropN b l) = dropN (a + b) l.
Proof.
  unfold dropN. rewrite N2Nat.inj_add.
  generalize (N.to_nat a) as i, (N.to_nat b) as j. intros i j. revert l.
  induction j as [|j IH]; intros l.
  - rewrite Nat.add_0_r. reflexivity.
  - rewrite Nat.add_succ_r. destruct l; [rewrite !skipn_nil; reflexivity|]. cbn [skipn]. apply IH.
Qed.
Lemma takeN_takeN {A} a b (l : list A) : takeN a (takeN b l) = takeN (N.min a b) l.
Proof. unfold takeN. rewrite firstn_firstn. f_equal. lia. Qed.
Lemma takeN_map {A B} (f : A -> B) n l : takeN n (map f l) = map f (takeN n l).
Proof. unfold takeN. apply firstn_map. Qed.
Lemma sliceN_app_mid {A} (p m s : list A) :
  sliceN (lenN p) (lenN p + lenN m) (p ++ m ++ s) = m.
Proof.
  unfold sliceN. rewrite dropN_app_exact. replace (lenN p + lenN m - lenN p) with (lenN m) by lia.
  apply takeN_app_exact.
Qed.
Lemma lenN_sliceN {A} a b (l : list A) : a <= b -> b <= lenN l -> lenN (sliceN a b l) = b - a.
Proof. intros. unfold sliceN. rewrite lenN_takeN, lenN_dropN. lia. Qed.

Lemma eqb_bytes_spec x y : eqb_bytes x y = true <-> x = y.
Proof.
  revert y; induction x as [|a x IH]; intros [|b y]; cbn; try (split; congruence).
  rewrite andb_true_iff, IH. split.
  - intros [Hb ->]. f_equal. apply Byte.byte_dec_bl. exact Hb.
  - intros [= -> ->]. split; [apply Byte.byte_dec_lb|]; reflexivity.
Qed.
Lemma eqb_bytes_refl x : eqb_bytes x x = true.
Proof. apply eqb_bytes_spec. reflexivity. Qed.
Lemma eqb_bytes_false x y : eqb_bytes x y = false <-> x <> y.
Proof.
  rewrite <- (eqb_bytes_spec x y). destruct (eqb_bytes x y); split; congruence.
Qed.
Lemma eqb_bytes_eq x y : eqb_bytes x y = if eqb_bytes x y then true else false.
Proof. destruct (eqb_bytes x y); reflexivity. Qed.

Lemma bind_ret {A B} (a : A) (f : A -> outcome B) : bind (Ret a) f = f a.
Proof. reflexivity. Qed.
Lemma bind_assoc {A B C} (m : outcome A) (f : A -> outcome B) (g : B -> outcome C) :
  bind (bind m f) g = bind m (fun a => bind (f a) g).
Proof. destruct m; reflexivity. Qed.
Lemma bind_ret_inv {A B} (m : outcome A) (f : A -> outcome B) b :
  bind m f = Ret b -> exists a, m = Ret a /\ f a = Ret b.
Proof. destruct m; cbn; try discriminate. eauto. Qed.
