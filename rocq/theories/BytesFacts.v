(** Lemmas about the value-level [Bytes] model. *)
From Verif Require Import Base BaseFacts BytesModel.
Ltac Zify.zify_post_hook ::= Z.div_mod_to_equations.

Lemma addb_subb x y : subb (addb x y) y = x.
Proof.
  apply b2n_inj. unfold addb, subb. rewrite !b2n_n2b.
  pose proof (b2n_lt x); pose proof (b2n_lt y). lia.
Qed.
Lemma subb_addb x y : addb (subb x y) y = x.
Proof.
  apply b2n_inj. unfold addb, subb. rewrite !b2n_n2b.
  pose proof (b2n_lt x); pose proof (b2n_lt y). lia.
Qed.
Lemma addb_comm x y : addb x y = addb y x.
Proof. unfold addb. f_equal. lia. Qed.

Lemma zipb_length f x y : length (zipb f x y) = min (length x) (length y).
Proof. revert y; induction x as [|a x IH]; intros [|b y]; cbn; congruence || reflexivity. Qed.
Lemma lenN_zipb f x y : lenN (zipb f x y) = N.min (lenN x) (lenN y).
Proof. unfold lenN. rewrite zipb_length. lia. Qed.

Lemma zipb_inv f g x y :
  (forall a b, g (f a b) b = a) -> (length x <= length y)%nat -> zipb g (zipb f x y) y = x.
Proof.
  intros Hfg. revert y; induction x as [|a x IH]; intros [|b y] Hl; cbn in *; try reflexivity; try lia.
  rewrite Hfg, IH by lia. reflexivity.
Qed.
Lemma zipb_app f x1 x2 y1 y2 :
  length x1 = length y1 -> zipb f (x1 ++ x2) (y1 ++ y2) = zipb f x1 y1 ++ zipb f x2 y2.
Proof.
  revert y1; induction x1 as [|a x IH]; intros [|b y] Hl; cbn in *; try reflexivity; try lia.
  rewrite IH by lia. reflexivity.
Qed.
Lemma zipb_firstn_r f x y : zipb f x (firstn (length x) y) = zipb f x y.
Proof.
  revert y; induction x as [|a x IH]; intros [|b y]; cbn; try reflexivity. rewrite IH. reflexivity.
Qed.
Lemma zipb_firstn f n x y : firstn n (zipb f x y) = zipb f (firstn n x) y.
Proof.
  revert n y; induction x as [|a x IH]; intros [|n] [|b y]; cbn; try reflexivity. rewrite IH. reflexivity.
Qed.

From Verif Require Import BytesSpec.

Lemma addb_assoc x y z : addb (addb x y) z = addb x (addb y z).
Proof.
  apply b2n_inj. unfold addb. rewrite !b2n_n2b.
  pose proof (b2n_lt x); pose proof (b2n_lt y); pose proof (b2n_lt z). lia.
Qed.
Lemma zipb_comm x y : zipb addb x y = zipb addb y x.
Proof. revert y; induction x as [|a x IH]; intros [|b y]; cbn; try reflexivity. rewrite IH, addb_comm. reflexivity. Qed.
Lemma zipb_assoc x y z : zipb addb (zipb addb x y) z = zipb addb x (zipb addb y z).
Proof.
  revert y z; induction x as [|a x IH]; intros [|b y] [|c z]; cbn; try reflexivity.
  rewrite IH, addb_assoc. reflexivity.
Qed.

(** ** plus and minus on objects *)
Lemma plus_minus_lemma a b : getLen a = getLen b ->
  exists s, plusBytes a b = Ret s /\ getLen s = getLen a /\
    exists d, minusBytes s b = Ret d /\ bdata d = bdata a.
Proof.
  intros Hl. unfold plusBytes. rewrite Hl, N.eqb_refl. eexists. split; [reflexivity|].
  assert (HL : getLen (mkBytes (zipb addb (bdata a) (bdata b)) (bmax a)) = getLen b).
  { unfold getLen in *. cbn [bdata]. rewrite lenN_zipb. lia. }
  split; [exact HL|]. unfold minusBytes. rewrite HL, N.eqb_refl. eexists. split; [reflexivity|].
  cbn [bdata]. apply zipb_inv; [apply addb_subb|]. unfold getLen, lenN in Hl. lia.
Qed.
Lemma minus_plus_lemma a b : getLen a = getLen b ->
  exists s, minusBytes a b = Ret s /\ getLen s = getLen a /\
    exists d, plusBytes s b = Ret d /\ bdata d = bdata a.
Proof.
  intros Hl. unfold minusBytes. rewrite Hl, N.eqb_refl. eexists. split; [reflexivity|].
  assert (HL : getLen (mkBytes (zipb subb (bdata a) (bdata b)) (bmax a)) = getLen b).
  { unfold getLen in *. cbn [bdata]. rewrite lenN_zipb. lia. }
  split; [exact HL|]. unfold plusBytes. rewrite HL, N.eqb_refl. eexists. split; [reflexivity|].
  cbn [bdata]. apply zipb_inv; [apply subb_addb|]. unfold getLen, lenN in Hl. lia.
Qed.
Lemma plus_length_error a b : getLen a <> getLen b ->
  plusBytes a b = Throw LengthError /\ minusBytes a b = Throw LengthError.
Proof. intros Hl. unfold plusBytes, minusBytes. destruct (N.eqb_spec (getLen a) (getLen b)); [congruence|auto]. Qed.
Lemma plus_comm_lemma a b s t : plusBytes a b = Ret s -> plusBytes b a = Ret t -> bdata s = bdata t.
Proof.
  unfold plusBytes. destruct (getLen a =? getLen b); [|discriminate].
  destruct (getLen b =? getLen a); [|discriminate]. intros E1 E2. injection E1 as <-. injection E2 as <-.
  apply zipb_comm.
Qed.
Lemma plus_assoc_lemma a b c ab abc bc abc' :
  plusBytes a b = Ret ab -> plusBytes ab c = Ret abc ->
  plusBytes b c = Ret bc -> plusBytes a bc = Ret abc' -> bdata abc = bdata abc'.
Proof.
  unfold plusBytes.
  destruct (getLen a =? getLen b); [|discriminate]. intros E1. injection E1 as <-.
  destruct (_ =? getLen c); [|discriminate]. intros E2. injection E2 as <-.
  destruct (getLen b =? getLen c); [|discriminate]. intros E3. injection E3 as <-.
  destruct (getLen a =? _); [|discriminate]. intros E4. injection E4 as <-.
  cbn [bdata]. apply zipb_assoc.
Qed.

(** ** big-endian numbers *)
Lemma be_val_app l k : be_val (l ++ k) = be_val l * 256 ^ lenN k + be_val k.
Proof.
  unfold be_val. rewrite fold_left_app. generalize (fold_left (fun a c => a * 256 + b2n c) l 0) as v.
  assert (G : forall k v w, fold_left (fun a c => a * 256 + b2n c) k (v + w) =
    v * 256 ^ lenN k + fold_left (fun a c => a * 256 + b2n c) k w).
  { induction k0 as [|x k0 IH]; intros v w; cbn [fold_left].
    - rewrite lenN_nil. lia.
    - rewrite N.mul_add_distr_r, <- N.add_assoc, IH, lenN_cons, N.add_1_l, N.pow_succ_r by lia. lia. }
  intros v. rewrite <- (N.add_0_r v) at 1. apply G.
Qed.
Lemma be_val_single x : be_val [x] = b2n x.
Proof. reflexivity. Qed.
Lemma be_val_lt l : be_val l < 256 ^ lenN l.
Proof.
  induction l as [|x l IH] using rev_ind.
  - vm_compute. reflexivity.
  - rewrite be_val_app, lenN_app, !lenN_cons, lenN_nil, be_val_single.
    replace (lenN l + (1 + 0)) with (N.succ (lenN l)) by lia.
    change (1 + 0) with 1. rewrite N.pow_1_r, N.pow_succ_r by lia.
    pose proof (b2n_lt x). lia.
Qed.
Lemma le_val_rev l : le_val (rev l) = be_val l.
Proof.
  induction l as [|x l IH] using rev_ind; [reflexivity|].
  rewrite rev_app_distr. cbn [rev app le_val]. rewrite IH, be_val_app, be_val_single.
  change (lenN [x]) with 1. rewrite N.pow_1_r. lia.
Qed.

Fixpoint be_list (k : nat) (v : N) : bytes :=
  match k with O => [] | S k' => be_list k' (v / 256) ++ [n2b v] end.
Lemma be8_list v : be8 v = be_list 8 v.
Proof.
  unfold be8. cbn [map be_list app]. rewrite !N.div_div by lia.
  change (256 ^ 0) with 1. rewrite N.div_1_r. reflexivity.
Qed.
Lemma be_list_val k v : be_val (be_list k v) = v mod 256 ^ N.of_nat k.
Proof.
  revert v; induction k as [|k IH]; intros v.
  - cbn. change (256 ^ N.of_nat 0) with 1. rewrite N.mod_1_r. reflexivity.
  - cbn [be_list]. rewrite be_val_app, be_val_single, b2n_n2b, IH.
    change (lenN [n2b v]) with 1. rewrite N.pow_1_r.
    replace (N.of_nat (S k)) with (N.succ (N.of_nat k)) by lia. rewrite N.pow_succ_r by lia.
    rewrite N.mod_mul_r by (try apply N.pow_nonzero; lia). lia.
Qed.
Lemma be_list_len k v : lenN (be_list k v) = N.of_nat k.
Proof.
  revert v; induction k as [|k IH]; intros v; [reflexivity|].
  cbn [be_list]. rewrite lenN_app, IH. change (lenN [n2b v]) with 1. lia.
Qed.
Lemma be8_len v : lenN (be8 v) = 8.
Proof. reflexivity. Qed.
Lemma be8_val v : v < two64 -> be_val (be8 v) = v.
Proof.
  intros Hv. rewrite be8_list, be_list_val.
  change (256 ^ N.of_nat 8) with two64. apply N.mod_small. exact Hv.
Qed.
Lemma exists_last_or_nil {A} (l : list A) : l = [] \/ exists l' a, l = l' ++ [a].
Proof.
  destruct l as [|x l]; [left; reflexivity|right].
  destruct (@exists_last A (x :: l)) as (l' & a & E); [congruence|]. eauto.
Qed.
Lemma be_val_inj l k : lenN l = lenN k -> be_val l = be_val k -> l = k.
Proof.
  revert k; induction l as [|x l IH] using rev_ind; intros k Hl Hv.
  - symmetry. apply lenN_0. rewrite <- Hl. reflexivity.
  - destruct (exists_last_or_nil k) as [->|[k' [y ->]]].
    + rewrite lenN_app, lenN_nil in Hl. change (lenN [x]) with 1 in Hl. lia.
    + rewrite !lenN_app in Hl. change (lenN [x]) with 1 in Hl. change (lenN [y]) with 1 in Hl.
      rewrite !be_val_app, !be_val_single in Hv. change (lenN [x]) with 1 in Hv. change (lenN [y]) with 1 in Hv.
      rewrite N.pow_1_r in Hv. pose proof (b2n_lt x); pose proof (b2n_lt y).
      assert (b2n x = b2n y) by lia. assert (be_val l = be_val k') by lia.
      f_equal; [apply IH; lia|]. f_equal. apply b2n_inj. assumption.
Qed.

(** ** random bytes *)
Lemma random_bytes_ok rnd n : lenN (rnd n) = n -> n < 2147483648 -> random_bytes rnd n = Ret (rnd n).
Proof. intros E L. unfold random_bytes. destruct (N.leb_spec 2147483648 n); [lia|]. now rewrite E, N.eqb_refl. Qed.
Lemma random_bytes_inv rnd n l : random_bytes rnd n = Ret l -> lenN (rnd n) = n /\ n < 2147483648 /\ l = rnd n.
Proof.
  unfold random_bytes. destruct (N.leb_spec 2147483648 n); [discriminate|]. destruct (N.eqb_spec (lenN (rnd n)) n); [|discriminate]. intros [= <-]. auto.
Qed.
Definition filled (rnd : N -> bytes) (b : Bytes) : Bytes := mkBytes (bdata b ++ rnd (bmax b - getLen b)) (bmax b).
Lemma fillrandom_ok rnd b : (forall k, lenN (rnd k) = k) -> bmax b < 2147483648 -> fillrandom rnd b = Ret (filled rnd b).
Proof. intros Hr L. unfold fillrandom. rewrite random_bytes_ok by (auto; lia). reflexivity. Qed.
Lemma fillrandom_inv rnd b b' : fillrandom rnd b = Ret b' ->
  lenN (rnd (bmax b - getLen b)) = bmax b - getLen b /\ b' = filled rnd b.
Proof.
  unfold fillrandom. destruct (random_bytes _ _) as [l| | |] eqn:E; cbn; try discriminate.
  apply random_bytes_inv in E. destruct E as (E & _ & ->). intros [= <-]. auto.
Qed.
Lemma addrandom_ok rnd n b : (forall k, lenN (rnd k) = k) -> n < 2147483648 -> getLen b + n <= bmax b ->
  addrandom rnd n b = Ret (mkBytes (bdata b ++ rnd n) (bmax b)).
Proof. intros Hr L Le. unfold addrandom. destruct (N.ltb_spec (bmax b) (getLen b + n)); [lia|]. rewrite random_bytes_ok by (auto; lia). reflexivity. Qed.
