From Coq Require Import FinFun.
From Verif Require Import Base BaseFacts BytesModel BytesSpec BytesFacts CipherModel CipherSpec CipherFacts PwModel PwSpec ChModel ChSpec HeaderModel HeaderSpec FileModel ApiModel ApiSpec WorkModel WorkSpec.
From Verif Require Import CworkSpec CworkFacts4 LeakSpec SecSpec QuerySpec QueryFacts QueryFacts2 QueryFacts3.
Open Scope N_scope.
Open Scope list_scope.

Section Fresh.
  Variable d : nat.
  Definition sized (D : bytes -> bytes) : Prop := forall x, lenN (D x) = N.of_nat d.
  (** a value whose images under two injective functions are new *)
  Lemma fresh_two (f g : bytes -> bytes) B :
    (forall y y', lenN y = N.of_nat d -> lenN y' = N.of_nat d -> f y = f y' -> y = y') ->
    (forall y y', lenN y = N.of_nat d -> lenN y' = N.of_nat d -> g y = g y' -> y = y') ->
    2 * lenN B < 256 ^ N.of_nat d -> exists y, lenN y = N.of_nat d /\ ~ In (f y) B /\ ~ In (g y) B.
  Proof using.
    intros If Ig L. pose (k := S (2 * length B)).
    pose (bad := fun i => (if in_dec bytes_dec (f (enc d (N.of_nat i))) B then true else false) || (if in_dec bytes_dec (g (enc d (N.of_nat i))) B then true else false)).
    assert (forall i, In i (seq 0 k) -> N.of_nat i < 256 ^ N.of_nat d) as Sm by (intros i I; apply in_seq in I; unfold lenN in L; lia).
    assert (forall u : bytes -> bytes, (forall y y', lenN y = N.of_nat d -> lenN y' = N.of_nat d -> u y = u y' -> y = y') -> forall l, NoDup l -> (forall i, In i l -> N.of_nat i < 256 ^ N.of_nat d) ->
      NoDup (map (fun i => u (enc d (N.of_nat i))) l)) as NDm.
    { clear. intros u Iu l ND. induction ND as [|i l Ni ND IH]; intros Sm; [constructor|]. cbn [map]. constructor; [|apply IH; intros j I; apply Sm; right; exact I].
      intros I. apply in_map_iff in I. destruct I as (j & E & I). apply Iu in E; [|apply enc_len|apply enc_len]. apply (f_equal be_val) in E. unfold enc in E. rewrite !be_list_val in E.
      rewrite !N.mod_small in E by (apply Sm; [right; exact I] || (apply Sm; left; reflexivity)). apply Nat2N.inj in E. subst j. contradiction. }
    destruct (find (fun i => negb (bad i)) (seq 0 k)) as [i|] eqn:E.
    - apply find_some in E. destruct E as (_ & E). exists (enc d (N.of_nat i)). split; [apply enc_len|]. unfold bad in E.
      destruct (in_dec bytes_dec (f (enc d (N.of_nat i))) B); [discriminate|]. destruct (in_dec bytes_dec (g (enc d (N.of_nat i))) B); [discriminate|]. split; assumption.
    - exfalso. pose (lf := filter (fun i => if in_dec bytes_dec (f (enc d (N.of_nat i))) B then true else false) (seq 0 k)).
      pose (lg := filter (fun i => if in_dec bytes_dec (g (enc d (N.of_nat i))) B then true else false) (seq 0 k)).
      assert (forall (u : bytes -> bytes), (forall y y', lenN y = N.of_nat d -> lenN y' = N.of_nat d -> u y = u y' -> y = y') ->
        (length (filter (fun i => if in_dec bytes_dec (u (enc d (N.of_nat i))) B then true else false) (seq 0 k)) <= length B)%nat) as Len.
      { intros u Iu. rewrite <- (map_length (fun i => u (enc d (N.of_nat i)))). apply NoDup_incl_length.
        - apply NDm; [exact Iu|apply NoDup_filter, seq_NoDup|]. intros i I. apply filter_In in I. apply Sm, I.
        - intros t I. apply in_map_iff in I. destruct I as (i & <- & I). apply filter_In in I. destruct I as (_ & I).
          destruct (in_dec bytes_dec (u (enc d (N.of_nat i))) B); [assumption|discriminate]. }
      assert (incl (seq 0 k) (lf ++ lg)) as IC.
      { intros i I. pose proof (find_none _ _ E i I) as X. apply Bool.negb_false_iff in X. unfold bad in X. apply Bool.orb_true_iff in X. apply in_app_iff.
        destruct X as [X|X]; [left|right]; apply filter_In; split; assumption. }
      pose proof (NoDup_incl_length (seq_NoDup k 0) IC) as X. rewrite seq_length, app_length in X.
      pose proof (Len f If). pose proof (Len g Ig). fold lf in H. fold lg in H0. unfold k in X. lia.
  Qed.

  (** digest functions that agree on a list *)
  Definition same_on (B : list bytes) (D D' : bytes -> bytes) : Prop := forall x, In x B -> D' x = D x.
  Lemma upd_sized D t y : sized D -> lenN y = N.of_nat d -> sized (upd D t y).
  Proof using. intros Sz L x. unfold upd. destruct (bytes_dec x t); [exact L|apply Sz]. Qed.
  Lemma upd_same B D t y : ~ In t B -> same_on B D (upd D t y).
  Proof using. intros I x Ix. apply upd_off. intros ->. contradiction. Qed.

  (** the texts of a chain *)
  Definition chain_in (s : nat -> bytes) (D : bytes -> bytes) (x : bytes) (n : nat) (B : list bytes) : Prop := forall j, (j < n)%nat -> In (text s D x j) B.
  Lemma chain_same s D D' x n B : chain_in s D x n B -> same_on B D D' -> forall j, (j <= n)%nat -> val s D' x j = val s D x j.
  Proof using. intros C A. apply text_agree. intros j L. apply A, C, L. Qed.

  (** a chain whose first text is new can be led to any value, by new texts that avoid a list [A] *)
  Lemma lead s v : lenN v = N.of_nat d -> forall n x D B A, (0 < n)%nat -> sized D -> ~ In (x ++ s 0%nat) B -> ~ In (x ++ s 0%nat) A ->
    2 * (lenN A + lenN B + N.of_nat n) < 256 ^ N.of_nat d ->
    exists D' B', sized D' /\ same_on B D D' /\ incl B B' /\ (forall t, In t A -> ~ In t B -> ~ In t B') /\ lenN B' <= lenN B + N.of_nat n /\
      val s D' x n = v /\ chain_in s D' x n B'.
  Proof using.
    intros Lv n. revert s. induction n as [|n IH]; intros s x D B A P Sz NB NA Sp; [lia|].
    destruct n as [|n].
    - exists (upd D (x ++ s 0%nat) v), ((x ++ s 0%nat) :: B). split; [apply upd_sized; assumption|]. split; [apply upd_same; exact NB|].
      split; [intros z I; right; exact I|]. split; [intros t I I' [E|E]; [subst t; contradiction|contradiction]|]. split; [rewrite lenN_cons; lia|].
      split; [cbn [val]; apply upd_at|]. intros j L. assert (j = 0%nat) as -> by lia. left. reflexivity.
    - destruct (fresh_two (fun y => y ++ s 1%nat) (fun y => y ++ s 1%nat) (A ++ (x ++ s 0%nat) :: B)) as (y & Ly & Fy & _).
      + intros a b _ _ E. apply app_inv_tail in E. exact E.
      + intros a b _ _ E. apply app_inv_tail in E. exact E.
      + rewrite lenN_app, lenN_cons. lia.
      + rewrite in_app_iff in Fy.
        destruct (IH (fun j => s (S j)) y (upd D (x ++ s 0%nat) y) ((x ++ s 0%nat) :: B) A) as (D' & B' & S' & A' & I' & V' & L' & E' & C').
        * lia.
        * apply upd_sized; assumption.
        * intros I. apply Fy. right. exact I.
        * intros I. apply Fy. left. exact I.
        * rewrite lenN_cons. lia.
        * assert (D' (x ++ s 0%nat) = y) as Ex by (rewrite (A' (x ++ s 0%nat)) by (left; reflexivity); apply upd_at).
          assert (forall j, val s D' x (S j) = val (fun j => s (S j)) D' y j) as Sh.
          { induction j as [|j IHj]; [cbn [val]; exact Ex|]. change (val s D' x (S (S j))) with (D' (val s D' x (S j) ++ s (S j))). rewrite IHj. reflexivity. }
          exists D', B'. split; [exact S'|]. split.
          { intros z I. rewrite (A' z) by (right; exact I). apply upd_same with (B := B); assumption. }
          split; [intros z I; apply I'; right; exact I|]. split.
          { intros t I NI. apply V'; [exact I|]. intros [E|E]; [subst t; contradiction|contradiction]. }
          split; [rewrite lenN_cons in L'; lia|]. split; [rewrite Sh; exact E'|].
          intros j L. destruct j as [|j]; [apply I'; left; reflexivity|]. unfold text. rewrite Sh. apply (C' j). lia.
  Qed.

  (** the pads of a cipher text can be chosen freely *)
  Definition t1 (st : kstate) : bytes := let '(k, s, l) := st in bsum (bsum k s) l.
  Definition state_ok (st : kstate) : Prop := let '(k, s, l) := st in lenN k = N.of_nat d /\ lenN s = N.of_nat d /\ lenN l = N.of_nat d.
  Definition pad_for (c p : bytes) : bytes := bdiff c p ++ repeat x00 (d - length p).
  Lemma pad_for_len c p : lenN c = lenN p -> lenN p <= N.of_nat d -> lenN (pad_for c p) = N.of_nat d.
  Proof using. intros E L. unfold pad_for. rewrite lenN_app, lenN_bdiff. unfold lenN in *. rewrite repeat_length. lia. Qed.
  Lemma bsum_app_r x y z : length x = length y -> bsum x (y ++ z) = bsum x y.
  Proof using.
    clear. unfold bsum. revert y. induction x as [|a x IH]; intros [|b y] L; try discriminate; [reflexivity|].
    cbn [app combine map]. f_equal. apply IH. cbn [length] in L. lia.
  Qed.
  Lemma pad_for_is c p : lenN c = lenN p -> bsum p (pad_for c p) = c.
  Proof using.
    clear. intros E. unfold pad_for. rewrite bsum_app_r by (rewrite bdiff_length; unfold lenN in E; lia).
    rewrite bsum_comm. apply bsum_bdiff. lia.
  Qed.
  Lemma bsum_zero_ne x l : lenN x = N.of_nat d -> lenN l = N.of_nat d -> l <> repeat x00 d -> bsum x l <> x.
  Proof using.
    intros Lx Ll N0 E. apply N0. clear N0. revert x l Lx Ll E. induction d as [|k IH]; intros [|a x] [|b l] Lx Ll E; unfold lenN in *; cbn [length] in *; try lia; [reflexivity|].
    unfold bsum in E. cbn [combine map fst snd] in E. injection E as E0 E. cbn [repeat]. f_equal.
    - apply b2n_inj. apply (f_equal b2n) in E0. rewrite b2n_n2b, N.mod_mod in E0 by lia. pose proof (b2n_lt a). pose proof (b2n_lt b). change (b2n x00) with 0.
      destruct (N.lt_ge_cases (b2n a + b2n b) 256) as [Z|Z]; [rewrite N.mod_small in E0 by lia; lia|].
      assert (b2n a + b2n b - 256 = (b2n a + b2n b) mod 256) by (apply (N.mod_unique _ _ 1); lia). lia.
    - apply (IH x l); [lia|lia|exact E].
  Qed.
  Lemma lead_pads : forall ps body st D B, lenN body = lenN (concat ps) -> Forall (fun p => lenN p <= N.of_nat d) ps -> state_ok st -> sized D -> ~ In (t1 st) B ->
    (forall p, In p (removelast ps) -> In p B /\ D p <> repeat x00 d) ->
    2 * (lenN B + 3 * lenN ps) < 256 ^ N.of_nat d ->
    exists D', sized D' /\ same_on B D D' /\ enc_blocks D' st ps = body.
  Proof using.
    induction ps as [|p r IH]; intros body st D B Lb Fp St Sz Nt Zp Sp.
    - exists D. split; [exact Sz|]. split; [intros x _; reflexivity|]. cbn in Lb. apply lenN_0 in Lb. subst body. reflexivity.
    - destruct st as ((k & s) & l). destruct St as (Lk & Ls & Ll). cbn [t1] in Nt. rewrite lenN_cons in Sp. inversion Fp as [|p' r' Lp Fr]; subst p' r'.
      pose (T1 := bsum (bsum k s) l). fold T1 in Nt.
      destruct (fresh_two (fun y => bsum (bsum y s) l) (fun y => bsum (bsum y s) l) (T1 :: B)) as (k1 & Lk1 & F2 & _).
      { intros y y' Ly Ly' E. apply bsum_inj in E; [|rewrite lenN_bsum; lia|rewrite lenN_bsum; lia]. apply bsum_inj in E; [exact E|lia|lia]. }
      { intros y y' Ly Ly' E. apply bsum_inj in E; [|rewrite lenN_bsum; lia|rewrite lenN_bsum; lia]. apply bsum_inj in E; [exact E|lia|lia]. }
      { rewrite lenN_cons. lia. }
      pose (T2 := bsum (bsum k1 s) l). fold T2 in F2.
      assert (lenN (D p) = N.of_nat d) as Ldp by apply Sz.
      destruct (fresh_two (fun y => bsum k1 y) (fun y => bsum (bsum k1 y) (D p)) (T2 :: T1 :: B)) as (s1 & Ls1 & F3 & F1').
      { intros y y' Ly Ly' E. rewrite (bsum_comm k1 y), (bsum_comm k1 y') in E. apply bsum_inj in E; [exact E|lia|lia]. }
      { intros y y' Ly Ly' E. apply bsum_inj in E; [|rewrite lenN_bsum; lia|rewrite lenN_bsum; lia]. rewrite (bsum_comm k1 y), (bsum_comm k1 y') in E. apply bsum_inj in E; [exact E|lia|lia]. }
      { rewrite !lenN_cons. lia. }
      pose (T3 := bsum k1 s1). fold T3 in F3, F1'.
      pose (c := takeN (lenN p) body).
      assert (lenN c = lenN p) as Lc by (unfold c; rewrite lenN_takeN, Lb; cbn [concat]; rewrite lenN_app; lia).
      pose (D1 := upd (upd (upd D T1 k1) T2 s1) T3 (pad_for c p)).
      assert (same_on (T1 :: B) (upd D T1 k1) D1) as Sa.
      { intros x I. unfold D1. rewrite upd_off by (intros ->; apply F3; right; exact I). apply upd_off. intros ->. contradiction. }
      assert (same_on B D D1) as Sb.
      { intros x I. rewrite (Sa x) by (right; exact I). apply upd_off. intros ->. contradiction. }
      assert (D1 T1 = k1) as E1 by (rewrite (Sa T1) by (left; reflexivity); apply upd_at).
      assert (D1 T2 = s1) as E2.
      { unfold D1. rewrite upd_off by (intros X; apply F3; left; exact X). apply upd_at. }
      assert (D1 T3 = pad_for c p) as E3 by apply upd_at.
      assert (sized D1) as S1 by (unfold D1; repeat apply upd_sized; try assumption; apply pad_for_len; assumption).
      assert (forall D', same_on (T3 :: T2 :: T1 :: B) D1 D' -> kpad D' (k, s, l) = pad_for c p /\ knext_key D' (k, s, l) = k1 /\ knext_salt D' (k, s, l) = s1) as Pd.
      { intros D' A. assert (knext_key D' (k, s, l) = k1) as K1 by (cbn [knext_key]; fold T1; rewrite (A T1) by (right; right; left; reflexivity); exact E1).
        assert (knext_salt D' (k, s, l) = s1) as K2.
        { unfold knext_salt. rewrite K1. fold T2. rewrite (A T2) by (right; left; reflexivity). exact E2. }
        split; [|split; assumption]. unfold kpad. rewrite K1, K2. fold T3. rewrite (A T3) by (left; reflexivity). exact E3. }
      destruct r as [|q r].
      + exists D1. split; [exact S1|]. split; [exact Sb|]. cbn [enc_blocks]. destruct (Pd D1 (fun x _ => eq_refl)) as (-> & _).
        rewrite app_nil_r, pad_for_is by exact Lc. unfold c. apply takeN_all. rewrite Lb. cbn [concat]. rewrite app_nil_r. lia.
      + assert (In p B /\ D p <> repeat x00 d) as (Ip & Zd) by (apply Zp; cbn [removelast]; left; reflexivity).
        destruct (IH (dropN (lenN p) body) (k1, s1, D p) D1 (T3 :: T2 :: T1 :: B)) as (D' & S' & A' & E').
        * rewrite lenN_dropN, Lb. change (concat (p :: q :: r)) with (p ++ concat (q :: r)). rewrite lenN_app. lia.
        * exact Fr.
        * repeat split; assumption.
        * exact S1.
        * cbn [t1]. fold T3. intros [X|X]; [|contradiction]. symmetry in X. revert X. apply bsum_zero_ne; [unfold T3; rewrite lenN_bsum; lia|exact Ldp|exact Zd].
        * intros b I. destruct (Zp b) as (I1 & I2); [cbn [removelast]; right; exact I|]. split; [right; right; right; exact I1|]. rewrite (Sb b I1). exact I2.
        * rewrite !lenN_cons in *. lia.
        * exists D'. split; [exact S'|]. split.
          { intros x I. rewrite (A' x) by (right; right; right; exact I). apply Sb. exact I. }
          change (enc_blocks D' (k, s, l) (p :: q :: r)) with (bsum p (kpad D' (k, s, l)) ++ enc_blocks D' (kafter D' (k, s, l) p) (q :: r)).
          destruct (Pd D' A') as (P1 & P2 & P3). rewrite P1, pad_for_is by exact Lc.
          assert (kafter D' (k, s, l) p = (k1, s1, D p)) as -> by (unfold kafter; rewrite P2, P3, (A' p) by (right; right; right; exact Ip); rewrite (Sb p Ip); reflexivity).
          rewrite E'. unfold c. apply takeN_dropN.
  Qed.
End Fresh.
