From Coq Require Import FinFun.
From Verif Require Import Base BaseFacts BytesModel BytesSpec BytesFacts CipherModel CipherSpec CipherFacts PwModel PwSpec ChModel ChSpec HeaderModel HeaderSpec FileModel ApiModel ApiSpec WorkModel WorkSpec.
From Verif Require Import CworkSpec CworkFacts4 LeakFacts SecSpec QuerySpec QueryFacts QueryFacts2.
Open Scope N_scope.
Open Scope list_scope.

Section Trace.
  Variable d : nat.
  Variable T : list bytes -> bytes.     (* the next text, from the digests so far *)
  Hypothesis Tinj : forall ds y y', Forall (fun x => lenN x = N.of_nat d) ds -> lenN y = N.of_nat d -> lenN y' = N.of_nat d -> T (ds ++ [y]) = T (ds ++ [y']) -> y = y'.
  Fixpoint trace (D : bytes -> bytes) (n : nat) : list bytes :=
    match n with O => [] | S k => let ds := trace D k in ds ++ [D (T ds)] end.
  Lemma trace_ok D n : (forall x, lenN (D x) = N.of_nat d) -> Forall (fun x => lenN x = N.of_nat d) (trace D n).
  Proof using. intros L. induction n as [|n IH]; [constructor|]. cbn [trace]. apply Forall_app. split; [exact IH|]. constructor; [apply L|constructor]. Qed.
  Lemma trace_length D n : length (trace D n) = n.
  Proof using. induction n as [|n IH]; [reflexivity|]. cbn [trace]. rewrite app_length, IH. cbn [length]. lia. Qed.

  Lemma fresh_text ds B : Forall (fun x => lenN x = N.of_nat d) ds -> lenN B < 256 ^ N.of_nat d -> exists y, lenN y = N.of_nat d /\ ~ In (T (ds ++ [y])) B.
  Proof using Tinj.
    intros F L. pose (C := map (fun k => T (ds ++ [enc d (N.of_nat k)])) (seq 0 (S (length B)))).
    destruct (find (fun k => if in_dec bytes_dec (T (ds ++ [enc d (N.of_nat k)])) B then false else true) (seq 0 (S (length B)))) as [k|] eqn:E.
    - apply find_some in E. destruct E as (_ & E). exists (enc d (N.of_nat k)). split; [apply enc_len|].
      destruct (in_dec bytes_dec (T (ds ++ [enc d (N.of_nat k)])) B); [discriminate|assumption].
    - exfalso. assert (NoDup C) as ND.
      { unfold C. assert (forall k, In k (seq 0 (S (length B))) -> N.of_nat k < 256 ^ N.of_nat d) as Sm by (intros k I; apply in_seq in I; unfold lenN in L; lia).
        revert Sm. generalize (seq_NoDup (S (length B)) 0). generalize (seq 0 (S (length B))) as l. clear - Tinj F. intros l ND. induction ND as [|k l Nk ND IH]; intros Sm; [constructor|].
        cbn [map]. constructor; [|apply IH; intros j I; apply Sm; right; exact I]. intros I. apply in_map_iff in I. destruct I as (j & E & I).
        apply (Tinj ds _ _ F (enc_len d _) (enc_len d _)) in E. apply (f_equal be_val) in E. unfold enc in E. rewrite !be_list_val in E.
        rewrite !N.mod_small in E by (apply Sm; [right; exact I] || (apply Sm; left; reflexivity)). apply Nat2N.inj in E. subst j. contradiction. }
      assert (incl C B) as IC.
      { intros t I. apply in_map_iff in I. destruct I as (k & <- & I). pose proof (find_none _ _ E k I) as X. cbv beta in X.
        destruct (in_dec bytes_dec (T (ds ++ [enc d (N.of_nat k)])) B); [assumption|discriminate]. }
      pose proof (NoDup_incl_length ND IC) as X. unfold C in X. rewrite map_length, seq_length in X. lia.
  Qed.

  Definition upd (D : bytes -> bytes) (t v : bytes) : bytes -> bytes := fun x => if bytes_dec x t then v else D x.
  Lemma upd_at D t v : upd D t v t = v.
  Proof using. unfold upd. destruct (bytes_dec t t) as [_|X]; [reflexivity|contradiction X; reflexivity]. Qed.
  Lemma upd_off D t v x : x <> t -> upd D t v x = D x.
  Proof using. unfold upd. destruct (bytes_dec x t) as [X|_]; [contradiction|reflexivity]. Qed.
  Lemma trace_agree D D' n : (forall j, (j < n)%nat -> D' (T (trace D j)) = D (T (trace D j))) -> forall j, (j <= n)%nat -> trace D' j = trace D j.
  Proof using. intros A j. induction j as [|j IH]; intros L; [reflexivity|]. cbn [trace]. rewrite IH by lia. rewrite A by lia. reflexivity. Qed.

  Lemma retrace v k : lenN v = N.of_nat d -> forall D i Q, (forall x, lenN (D x) = N.of_nat d) -> ~ In (T (trace D i)) Q ->
    (forall j, (j < i)%nat -> In (T (trace D j)) Q) -> lenN Q + N.of_nat k < 256 ^ N.of_nat d ->
    exists D', (forall x, lenN (D' x) = N.of_nat d) /\ (forall x, In x Q -> D' x = D x) /\ D' (T (trace D' (i + k))) = v.
  Proof using Tinj.
    intros Lv. induction k as [|k IH]; intros D i Q LD Ni Bi Sp.
    - exists (upd D (T (trace D i)) v). split; [|split].
      + intros x. unfold upd. destruct (bytes_dec x (T (trace D i))); [exact Lv|apply LD].
      + intros x I. apply upd_off. intros ->. contradiction.
      + rewrite Nat.add_0_r. assert (trace (upd D (T (trace D i)) v) i = trace D i) as Et.
        { apply (trace_agree D _ i); [|lia]. intros j Lj. apply upd_off. intros E. apply Ni. rewrite <- E. apply Bi. exact Lj. }
        rewrite Et. apply upd_at.
    - pose (t := T (trace D i)). destruct (fresh_text (trace D i) (t :: Q) (trace_ok D i LD)) as (y & Ly & Fy).
      { rewrite lenN_cons. lia. }
      assert (forall j, (j <= i)%nat -> trace (upd D t y) j = trace D j) as Ea.
      { apply trace_agree. intros j Lj. apply upd_off. intros E. apply Ni. fold t. rewrite <- E. apply Bi. exact Lj. }
      pose proof (Ea i (Nat.le_refl _)) as Et.
      assert (trace (upd D t y) (S i) = trace D i ++ [y]) as Es by (cbn [trace]; rewrite Et; fold t; rewrite upd_at; reflexivity).
      destruct (IH (upd D t y) (S i) (t :: Q)) as (D' & LD' & Ag & E).
      + intros x. unfold upd. destruct (bytes_dec x t); [exact Ly|apply LD].
      + rewrite Es. exact Fy.
      + intros j Lj. destruct (Nat.eq_dec j i) as [->|].
        * rewrite Et. left. reflexivity.
        * right. rewrite Ea by lia. apply Bi. lia.
      + rewrite lenN_cons. lia.
      + exists D'. split; [exact LD'|]. split.
        * intros x I. rewrite Ag by (right; exact I). apply upd_off. intros ->. contradiction.
        * rewrite Nat.add_succ_r. exact E.
  Qed.
  (** a digest function for which the first texts differ *)
  Lemma spread_trace n : N.of_nat n < 256 ^ N.of_nat d -> exists D, (forall x, lenN (D x) = N.of_nat d) /\ NoDup (map (fun j => T (trace D j)) (seq 0 (S n))).
  Proof using Tinj.
    induction n as [|n IH]; intros L.
    - exists (fun _ => enc d 0). split; [intros x; apply enc_len|]. cbn. constructor; [intros []|constructor].
    - destruct (IH ltac:(lia)) as (D & LD & ND). pose (l := map (fun j => T (trace D j)) (seq 0 (S n))). fold l in ND.
      destruct (fresh_text (trace D n) l (trace_ok D n LD)) as (y & Ly & Fy).
      { unfold l, lenN. rewrite map_length, seq_length. lia. }
      assert (l = map (fun j => T (trace D j)) (seq 0 n) ++ [T (trace D n)]) as El by (unfold l; rewrite seq_S, map_app; reflexivity).
      assert (forall j, (j <= n)%nat -> trace (upd D (T (trace D n)) y) j = trace D j) as Ea.
      { apply trace_agree. intros j Lj. apply upd_off. intros E. rewrite El in ND. apply NoDup_remove_2 in ND. rewrite app_nil_r in ND. apply ND.
        rewrite <- E. apply (in_map (fun j => T (trace D j))). apply in_seq. lia. }
      exists (upd D (T (trace D n)) y). split.
      + intros x. unfold upd. destruct (bytes_dec x (T (trace D n))); [exact Ly|apply LD].
      + rewrite seq_S, map_app. cbn [map]. 
        assert (map (fun j => T (trace (upd D (T (trace D n)) y) j)) (seq 0 (S n)) = l) as ->.
        { unfold l. apply map_ext_in. intros j I. apply in_seq in I. rewrite Ea by lia. reflexivity. }
        assert (T (trace (upd D (T (trace D n)) y) (0 + S n)) = T (trace D n ++ [y])) as ->.
        { cbn [Nat.add trace]. rewrite Ea by lia. rewrite upd_at. reflexivity. }
        apply (NoDup_Add (a := T (trace D n ++ [y])) (l := l)); [|split; [exact ND|exact Fy]].
        rewrite <- (app_nil_r l) at 1. apply Add_app.
  Qed.
  Lemma missing_or_not D n Q : (forall j, (j < n)%nat -> In (T (trace D j)) Q) \/
    exists i, (i < n)%nat /\ ~ In (T (trace D i)) Q /\ forall j, (j < i)%nat -> In (T (trace D j)) Q.
  Proof using.
    clear Tinj. induction n as [|n [IH|(i & L & X)]].
    - left. lia.
    - destruct (in_dec bytes_dec (T (trace D n)) Q) as [I|I].
      + left. intros j L. destruct (Nat.eq_dec j n) as [->|]; [exact I|apply IH; lia].
      + right. exists n. split; [lia|]. split; [exact I|exact IH].
    - right. exists i. split; [lia|exact X].
  Qed.
End Trace.

Lemma bsum_inj x y z : lenN x <= lenN z -> lenN y <= lenN z -> bsum x z = bsum y z -> x = y.
Proof. intros Lx Ly E. apply (f_equal (fun s => bdiff s z)) in E. rewrite !bdiff_bsum in E by assumption. exact E. Qed.
Lemma bsum_comm x y : bsum x y = bsum y x.
Proof.
  unfold bsum. revert y. induction x as [|a x IH]; intros [|b y]; try reflexivity. cbn [combine map]. f_equal; [|apply IH]. cbn [fst snd]. f_equal. rewrite N.add_comm. reflexivity.
Qed.

  Lemma bdiff_self_inv x k : lenN k = lenN x -> bdiff x (bdiff x k) = k.
  Proof.
    revert k. unfold bdiff. induction x as [|a x IH]; intros [|b k] L; try reflexivity; try (rewrite lenN_nil, lenN_cons in L; lia).
    rewrite !lenN_cons in L. cbn [combine map]. f_equal; [|apply IH; lia]. cbn [fst snd]. apply b2n_inj. rewrite !b2n_n2b, !N.mod_mod by lia.
    pose proof (b2n_lt a). pose proof (b2n_lt b).
    assert ((256 + b2n a - b2n b) mod 256 = if b2n b <=? b2n a then b2n a - b2n b else 256 + b2n a - b2n b) as ->.
    { destruct (N.leb_spec (b2n b) (b2n a)).
      - symmetry. apply (N.mod_unique _ _ 1); lia.
      - apply N.mod_small. lia. }
    destruct (N.leb_spec (b2n b) (b2n a)).
    - symmetry. apply (N.mod_unique _ _ 1); lia.
    - symmetry. apply (N.mod_unique _ _ 0); lia.
  Qed.
  Lemma bdiff_app_r x y z : length x = length y -> bdiff x (y ++ z) = bdiff x y.
  Proof.
    unfold bdiff. revert y. induction x as [|a x IH]; intros [|b y] L; try discriminate; [reflexivity|].
    cbn [app combine map]. f_equal. apply IH. cbn [length] in L. lia.
  Qed.

Section Known.
  Variable h : header.
  Hypothesis Hh : header_ok h.
  Variable g : bytes.
  Let m1 := salts (h_ch1 h).
  Let n1 := N.to_nat (iterations (h_ch1 h)).
  Let d := N.to_nat (digest_len (h_hmode h)).
  Let zero := repeat x00 d.
  Definition known_text (ds : list bytes) : bytes :=
    let j := length ds in let x := last ds g in
    if (j <? n1)%nat then x ++ salt_at m1 (N.of_nat j)
    else if (j <=? S n1)%nat then bsum (bsum x (h_salt h)) zero
    else bsum x (nth n1 ds []).
  Let dl : N.of_nat d = digest_len (h_hmode h).
  Proof. unfold d. apply N2Nat.id. Qed.
  Lemma known_inj ds y y' : Forall (fun x => lenN x = N.of_nat d) ds -> lenN y = N.of_nat d -> lenN y' = N.of_nat d -> known_text (ds ++ [y]) = known_text (ds ++ [y']) -> y = y'.
  Proof using Hh.
    intros F Ly Ly' E. unfold known_text in E. rewrite !app_length, !last_last in E. cbn [length] in E.
    assert (lenN (h_salt h) = N.of_nat d) as Ls by (rewrite dl; apply Hh).
    assert (lenN zero = N.of_nat d) as Lz by (unfold zero, lenN; rewrite repeat_length; reflexivity).
    destruct (Nat.ltb_spec (length ds + 1) n1).
    - apply app_inv_tail in E. exact E.
    - destruct (Nat.leb_spec (length ds + 1) (S n1)).
      + apply bsum_inj in E; [|rewrite lenN_bsum; lia|rewrite lenN_bsum; lia]. apply bsum_inj in E; [exact E|lia|lia].
      + rewrite !app_nth1 in E by lia.
        assert (lenN (nth n1 ds []) = N.of_nat d) as Ln by (rewrite Forall_forall in F; apply F, nth_In; lia).
        apply bsum_inj in E; [exact E|lia|lia].
  Qed.
  Lemma trace_rounds D k : (k <= n1)%nat -> last (trace known_text D k) g = snd (rounds D m1 g k) /\
    fst (rounds D m1 g k) = map (fun j => known_text (trace known_text D j)) (seq 0 k).
  Proof using.
    induction k as [|k IH]; intros L; [split; reflexivity|]. destruct (IH ltac:(lia)) as (I1 & I2).
    assert (known_text (trace known_text D k) = snd (rounds D m1 g k) ++ salt_at m1 (N.of_nat k)) as Et.
    { unfold known_text at 1. rewrite trace_length. destruct (Nat.ltb_spec k n1); [|lia]. rewrite I1. reflexivity. }
    split.
    - cbn [trace]. rewrite last_last, Et. reflexivity.
    - rewrite seq_S, map_app. cbn [map Nat.add]. rewrite Et, <- I2. reflexivity.
  Qed.
  Lemma known_texts H body known :
    fst (probe_file H h body known g) = map (fun j => known_text (trace known_text (hash_of H (h_hmode h)) j)) (seq 0 (n1 + 3)) /\
    snd (probe_file H h body known g) = if list_eq_dec Byte.byte_eq_dec (takeN (lenN known) (bdiff body (hash_of H (h_hmode h) (known_text (trace known_text (hash_of H (h_hmode h)) (n1 + 2)))))) known then true else false.
  Proof using Hh.
    pose proof (counts h Hh) as (C1 & _). set (D := hash_of H (h_hmode h)).
    destruct (trace_rounds D n1 (Nat.le_refl _)) as (I1 & I2).
    assert (last (trace known_text D n1) g = snd (rounds D m1 g n1)) as I1' by exact I1.
    pose (t1 := bsum (bsum (snd (rounds D m1 g n1)) (h_salt h)) zero).
    assert (known_text (trace known_text D n1) = t1) as E1.
    { unfold known_text at 1. rewrite trace_length, I1. destruct (Nat.ltb_spec n1 n1); [lia|]. destruct (Nat.leb_spec n1 (S n1)); [reflexivity|lia]. }
    pose (t2 := bsum (bsum (D t1) (h_salt h)) zero).
    assert (trace known_text D (S n1) = trace known_text D n1 ++ [D t1]) as R1 by (cbn [trace]; rewrite E1; reflexivity).
    assert (known_text (trace known_text D (S n1)) = t2) as E2.
    { unfold known_text at 1. rewrite trace_length, R1, last_last. destruct (Nat.ltb_spec (S n1) n1); [lia|]. destruct (Nat.leb_spec (S n1) (S n1)); [reflexivity|lia]. }
    assert (trace known_text D (S (S n1)) = trace known_text D n1 ++ [D t1] ++ [D t2]) as R2.
    { change (trace known_text D (S (S n1))) with (trace known_text D (S n1) ++ [D (known_text (trace known_text D (S n1)))]). rewrite E2, R1, <- app_assoc. reflexivity. }
    assert (known_text (trace known_text D (n1 + 2)) = bsum (D t1) (D t2)) as E3.
    { rewrite Nat.add_comm. cbn [Nat.add]. unfold known_text at 1. rewrite trace_length. destruct (Nat.ltb_spec (S (S n1)) n1); [lia|]. destruct (Nat.leb_spec (S (S n1)) (S n1)); [lia|].
      rewrite R2. rewrite app_assoc, last_last, <- app_assoc. rewrite app_nth2 by (rewrite trace_length; lia). rewrite trace_length, Nat.sub_diag. cbn [app nth]. apply bsum_comm. }
    split.
    - rewrite seq_app, map_app. cbn [seq map Nat.add]. rewrite E1, E2. replace (S (S n1)) with (n1 + 2)%nat by lia. rewrite E3.
      unfold probe_file, probe. cbn [fst]. fold D n1 m1 d zero. rewrite I2. reflexivity.
    - rewrite E3. reflexivity.
  Qed.
  Lemma redirect_pad H Q v : hashes_ok H -> lenN Q < 2 ^ 200 -> lenN v = digest_len (h_hmode h) ->
    (exists i, (i < n1 + 3)%nat /\ ~ In (known_text (trace known_text (hash_of H (h_hmode h)) i)) Q /\ forall j, (j < i)%nat -> In (known_text (trace known_text (hash_of H (h_hmode h)) j)) Q) ->
    exists H', hashes_ok H' /\ (forall x, In x Q -> hash_of H' (h_hmode h) x = hash_of H (h_hmode h) x) /\
      hash_of H' (h_hmode h) (known_text (trace known_text (hash_of H' (h_hmode h)) (n1 + 2))) = v.
  Proof using Hh.
    intros HH LQ Lv (i & Li & Ni & Bi). pose proof (mode_ok h Hh) as M. pose proof (counts h Hh) as (C1 & _).
    destruct (retrace d known_text known_inj v (n1 + 2 - i) ltac:(rewrite dl; exact Lv) (hash_of H (h_hmode h)) i Q) as (D' & LD & Ag & E).
    - intros x. rewrite dl. apply hash_len; assumption.
    - exact Ni.
    - exact Bi.
    - assert (2 ^ 200 + 2 ^ 32 < 256 ^ N.of_nat d) as B.
      { apply N.lt_le_trans with (256 ^ 32); [vm_compute; reflexivity|]. apply N.pow_le_mono_r; [lia|].
        destruct (d_cases h Hh) as [X|[X|X]]; fold d in X; rewrite X; lia. }
      assert (N.of_nat (n1 + 2 - i) <= 2 ^ 32) by (apply (N.le_trans _ 1000000002); [unfold n1; lia|vm_compute; discriminate]). lia.
    - replace (i + (n1 + 2 - i))%nat with (n1 + 2)%nat in E by lia.
      exists (with_hash (h_hmode h) D' H). rewrite with_hash_of by exact M. split; [|split; assumption].
      apply with_hash_ok; [exact M|exact HH|]. intros x. rewrite LD. exact dl.
  Qed.

  (** a pad for which the beginning of [body] decrypts to [known], and one for which it does not *)
  Definition good_pad (body known : bytes) : bytes := bdiff (takeN (lenN known) body) known ++ repeat x00 (d - length known).
  Definition bad_pad (body known : bytes) : bytes :=
    match body, known with b :: _, k :: _ => n2b (b2n b + 255 - b2n k) :: repeat x00 (d - 1) | _, _ => zero end.
  Lemma good_pad_len body known : lenN known <= N.of_nat d -> lenN known <= lenN body -> lenN (good_pad body known) = N.of_nat d.
  Proof using h.
    intros L1 L2. unfold good_pad. rewrite lenN_app, lenN_bdiff, lenN_takeN. unfold lenN in *. rewrite repeat_length. lia.
  Qed.
  Lemma good_pad_good body known : lenN known <= lenN body -> takeN (lenN known) (bdiff body (good_pad body known)) = known.
  Proof using.
    intros L. rewrite CipherFacts.bdiff_take. unfold good_pad.
    assert (lenN (takeN (lenN known) body) = lenN known) as E by (rewrite lenN_takeN; lia).
    rewrite bdiff_app_r by (rewrite bdiff_length; unfold lenN in *; lia). apply bdiff_self_inv. symmetry. exact E.
  Qed.
  Lemma bad_pad_len body known : lenN (bad_pad body known) = N.of_nat d.
  Proof using Hh.
    unfold bad_pad. assert (lenN zero = N.of_nat d) as Lz by (unfold zero, lenN; rewrite repeat_length; reflexivity).
    destruct body; [exact Lz|]. destruct known; [exact Lz|]. unfold lenN. cbn [length]. rewrite repeat_length.
    destruct (d_cases h Hh) as [X|[X|X]]; fold d in X; lia.
  Qed.
  Lemma bad_pad_bad body known : known <> [] -> lenN known <= lenN body -> takeN (lenN known) (bdiff body (bad_pad body known)) <> known.
  Proof using h.
    clear dl. intros Nk L E. destruct known as [|k known]; [contradiction Nk; reflexivity|]. destruct body as [|b body]; [rewrite lenN_nil, lenN_cons in L; lia|].
    unfold bad_pad, bdiff in E. cbn [combine map fst snd] in E. unfold takeN, lenN in E. cbn [length] in E. rewrite Nat2N.id in E. cbn [firstn] in E.
    injection E as E _. apply (f_equal b2n) in E. rewrite !b2n_n2b, !N.mod_mod in E by lia. pose proof (b2n_lt b). pose proof (b2n_lt k).
    assert ((b2n b + 255 - b2n k) mod 256 = if b2n k <=? b2n b then (if b2n b =? b2n k then 255 else b2n b - b2n k - 1) else b2n b + 255 - b2n k) as X.
    { destruct (N.leb_spec (b2n k) (b2n b)); [destruct (N.eqb_spec (b2n b) (b2n k))|].
      - symmetry. apply (N.mod_unique _ _ 0); lia.
      - symmetry. apply (N.mod_unique _ _ 1); lia.
      - apply N.mod_small. lia. }
    rewrite X in E. destruct (N.leb_spec (b2n k) (b2n b)); [destruct (N.eqb_spec (b2n b) (b2n k))|].
    - assert ((256 + b2n b - 255) mod 256 <> b2n k); [|contradiction]. rewrite e. intros Y. destruct (N.eq_dec (b2n k) 255) as [Z|Z].
      + rewrite Z in Y. vm_compute in Y. discriminate.
      + rewrite N.mod_small in Y by lia. lia.
    - assert (b2n k + 1 = (256 + b2n b - (b2n b - b2n k - 1)) mod 256) as Y by (apply (N.mod_unique _ _ 1); lia). lia.
    - rewrite N.mod_small in E by lia. lia.
  Qed.
End Known.
