(** Lemmas for C96. *)
From Verif Require Import Base BaseFacts BytesModel BytesFacts MiscModel MiscFacts CipherModel CipherSpec CipherFacts CipherFacts2 PwModel PwSpec PwFacts ChModel ChSpec ChFacts ChFacts2
  HeaderModel HeaderSpec HeaderFacts HeaderFacts2 HeaderFacts3 HeaderFacts4 HeaderFacts5 HeaderFacts8 HeaderFacts9 FileModel ApiModel ApiSpec FileFacts FileFacts2 ApiFacts ApiFacts2 ApiFacts3 ApiFacts4 ApiFacts5 ApiFacts6 ApiFacts7 ApiFacts8 ApiFacts9 SecSpec SecFacts
  RefSpec RefFacts RefSpec2 RefFacts2 LeakSpec LeakFacts WorkModel WorkSpec WorkFacts WorkFacts2 TamperSpec.
Open Scope N_scope.
Open Scope list_scope.

(** ** going on *)
Lemma go_on_iterated D m x n k : (1 <= n)%nat -> go_on D m (iterated D m x (n - 1)) n k = iterated D m x (n - 1 + k).
Proof.
  intros L. induction k as [|k IH]; [rewrite Nat.add_0_r; reflexivity|]. cbn [go_on]. rewrite IH.
  replace (n - 1 + S k)%nat with (S (n - 1 + k)) by lia. cbn [iterated]. replace (S (n - 1 + k))%nat with (n + k)%nat by lia. reflexivity.
Qed.
Section Tamper.
  Variable H : hashes.
  Hypothesis HH : hashes_ok H.
  Variable bd : build.
  Lemma slowed_key n h pw : key_of H (slowed H n h) pw = key_of H h pw.
  Proof. unfold slowed. destruct (h_ch2 h) as [[m n2] b]. reflexivity. Qed.
  Lemma slowed_len n h : hdr_len (slowed H n h) = hdr_len h.
  Proof. unfold slowed. destruct (h_ch2 h) as [[m n2] b] eqn:E. unfold hdr_len. cbn. rewrite E. reflexivity. Qed.
  Lemma go_on_len m D x i k : 1 <= m <= 3 -> D = hash_of H m -> lenN x = digest_len m -> forall s, lenN (go_on D s x i k) = digest_len m.
  Proof using HH. intros M -> L s. destruct k; [exact L|]. cbn [go_on]. apply hash_len; assumption. Qed.
  Lemma slowed_ok n h : header_ok h -> iterations (h_ch2 h) <= n <= 1000000000 -> header_ok (slowed H n h).
  Proof using HH.
    intros Hok L. pose proof (iters_ok h Hok) as [A B]. destruct Hok as (H1 & H2 & H3 & H4 & H5 & H6 & H7 & H8 & H9 & H10). unfold slowed, iterations in *. destruct (h_ch2 h) as [[m n2] b]. cbn [fst snd] in *.
    unfold header_ok. cbn [h_fmode h_hmode h_blocks h_ch1 h_ch2 h_valid h_salt h_encs]. destruct H6 as (K1 & K2 & K3). cbn [fst snd] in *.
    spl; try assumption; try (split; [|split]); cbn [fst snd]; try assumption; try lia. apply go_on_len; auto.
  Qed.
  Lemma slowed_opens n h pw : header_ok h -> opens H h pw -> iterations (h_ch2 h) <= n -> opens H (slowed H n h) pw.
  Proof.
    intros Hok O L. unfold opens in *. unfold validator in *. rewrite slowed_key. destruct (iters_ok h Hok) as [_ B]. unfold slowed, iterations, chain_value in *. destruct (h_ch2 h) as [[m n2] b]. cbn [fst snd h_hmode h_ch2 h_valid] in *.
    rewrite O. replace (N.to_nat (n2 - 1)) with (N.to_nat n2 - 1)%nat by lia. rewrite go_on_iterated by lia. f_equal. lia.
  Qed.
  Theorem slow_sealed n h pw data c : sealed H h pw data c -> no_empty_block h -> lenN data < 2 ^ 31 -> iterations (h_ch2 h) <= n <= 1000000000 ->
    exists c', slow_down bd H n c = Some c' /\ sealed H (slowed H n h) pw data c' /\ lenN c' = lenN c.
  Proof using HH.
    intros S Ne L Ln. unfold slow_down. rewrite (read_sealed H HH bd h pw data c S Ne L). destruct (sealed_written H HH h pw data c S Ne L) as (Lc & _). destruct S as (Hok & O & _).
    destruct (N.leb_spec (iterations (h_ch2 h)) n); [|lia]. destruct (N.leb_spec n 1000000000); [|lia]. cbn [andb]. eexists. split; [reflexivity|].
    pose proof (slowed_ok n h Hok Ln) as K. assert (cipher_of H (slowed H n h) pw data = cipher_of H h pw data) as EC by (unfold cipher_of; rewrite slowed_key; unfold slowed; destruct (h_ch2 h) as [[m n2] b]; reflexivity).
    split; [split; [exact K|split; [apply slowed_opens; tauto|]]|].
    - rewrite EC, Lc, slowed_len. reflexivity.
    - rewrite lenN_app, ser_len, (cipher_len H HH), slowed_len by assumption. lia.
  Qed.
  (** the slow file in a session *)
  Lemma slowed_its n h : iterations (h_ch2 (slowed H n h)) = n /\ iterations (h_ch1 (slowed H n h)) = iterations (h_ch1 h).
  Proof. unfold slowed. destruct (h_ch2 h) as [[m n2] b]. split; reflexivity. Qed.
  Lemma slowed_blocks n h : no_empty_block h -> no_empty_block (slowed H n h).
  Proof. unfold no_empty_block, slowed. destruct (h_ch2 h) as [[m n2] b]. auto. Qed.
  Theorem slow_session ws p l f n h pw data c c' t : (forall i, at_hand bd H (ws i) p l) -> enc_path p -> sealed H h pw data c -> no_empty_block h -> lenN data < 2 ^ 31 ->
    iterations (h_ch2 h) <= n <= 1000000000 -> slow_down bd H n c = Some c' -> f l = Some c' -> t < 2 ^ 64 ->
    (verify_in_time (ws 1%nat) t (iterations (h_ch1 h)) n -> patient (ws 2%nat) (lenN data) ->
      exists b a', calls [(ws 0%nat, OSelect p); (ws 1%nat, OVerify pw t); (ws 2%nat, ODecrypt)] (fresh 1) f = Some ([ROk; ROk; RData (mkFD (Some 1) (Some b))], a', f) /\ bdata b = data) /\
    (~ verify_in_time (ws 1%nat) t (iterations (h_ch1 h)) n -> exists a', calls [(ws 0%nat, OSelect p); (ws 1%nat, OVerify pw t)] (fresh 1) f = Some ([ROk; RErr TIMEOUT ERR_TIMEOUT], a', f)).
  Proof using HH.
    intros A Ep S Ne L Ln Sd F Lt. destruct (slow_sealed n h pw data c S Ne L Ln) as (c2 & E & S2 & _). rewrite Sd in E. injection E as <-.
    destruct (slowed_its n h) as [I2 I1]. pose proof (slowed_blocks n h Ne) as Ne2. split.
    - intros T Pt. destruct (reopen_data H HH bd ws p l f (slowed H n h) pw data c' t A Ep F S2 Ne2 L Lt) as (b & a' & X & Y & _); [rewrite I1, I2; exact T|exact Pt|]. exists b, a'. auto.
    - intros T. destruct (sealed_written H HH _ _ _ _ S2 Ne2 L) as (Lc & Dc & L63 & L104 & Wr).
      pose proof (A 0%nat) as (W0 & (S0 & R0 & _) & E0). assert (openable (ws 0%nat) f p c') as Op by (unfold openable; rewrite E0; auto).
      pose proof (select_written bd H (ws 0%nat) f p c' _ _ _ _ _ W0 Op Wr L104 L63 ltac:(auto)) as Se. set (a1 := mkApi FILE_SELECTED _ _ _ _ _ _) in Se. pose proof (A 1%nat) as (W1 & _ & _).
      destruct (verify_obj H HH bd a1 (ws 1%nat) f c' _ _ _ _ _ _ pw t W1 Lt Wr L63 eq_refl) as [_ V]. rewrite I1, I2 in V. specialize (V T).
      exists a1. cbn [calls]. change (step (ws 0%nat) (fresh 1) f (OSelect p)) with (f, selectFile (ws 0%nat) (fresh 1) f p). rewrite Se, V. reflexivity.
  Qed.
  Theorem slow_work mode tr a w f p n h pw data c c' pw' t : history bd H mode tr a -> world_ok bd H w -> t < 2 ^ 64 -> a_state a = FILE_SELECTED ->
    sealed H h pw data c -> no_empty_block h -> lenN data < 2 ^ 31 -> iterations (h_ch2 h) <= n <= 1000000000 -> slow_down bd H n c = Some c' -> selected tr = Some (p, c') ->
    verify_in_time w t (iterations (h_ch1 h)) n -> digests (fst (step_w w a f (OVerify pw' t))) = iterations (h_ch1 h) + n.
  Proof using HH.
    intros P W Lt Es S Ne L Ln Sd Q T. destruct (slow_sealed n h pw data c S Ne L Ln) as (c2 & E & S2 & _). rewrite Sd in E. injection E as <-.
    destruct (slowed_its n h) as [I2 I1]. destruct (sealed_written H HH _ _ _ _ S2 (slowed_blocks n h Ne) L) as (Lc & Dc & L63 & L104 & Wr).
    destruct (verify_call_work H HH bd mode tr a w f p c' _ _ _ _ _ pw' t P W Lt Es Q Wr) as [_ X]. rewrite I1, I2 in X. apply X. exact T.
  Qed.

  (** ** parts that are not looked at *)
  Theorem rehead h h' pw data c : sealed H h pw data c -> no_empty_block h -> lenN data < 2 ^ 31 -> header_ok h' -> same_check h h' ->
    exists c' data', reheaded bd c h' = Some c' /\ sealed H h' pw data' c' /\ lenN data' = lenN data /\ (h_salt h' = h_salt h -> data' = data).
  Proof using HH.
    intros S Ne L Hok' (E1 & E2 & E3 & E4). unfold reheaded. rewrite (read_sealed H HH bd h pw data c S Ne L). destruct S as (Hok & O & _).
    assert (key_of H h' pw = key_of H h pw) as EK by (unfold key_of; rewrite E1, E2; reflexivity).
    assert (opens H h' pw) as O' by (unfold opens, validator in *; rewrite EK, E1, E3, E4; exact O).
    destruct (any_body H HH h' pw (cipher_of H h pw data) Hok' O') as [X Y]. eexists _, _. split; [reflexivity|]. split; [exact X|]. split; [rewrite Y; apply (cipher_len H HH); exact Hok|].
    intros Es. unfold plain_of. rewrite EK, E1, Es. change (decrypt_with H (key_of H h pw) h (cipher_of H h pw data) = data). apply (decrypt_own H HH); exact Hok.
  Qed.

  (** ** other chains *)
  Lemma check_last h pw : header_ok h -> hash_of H (h_hmode h) (check_input H h pw (N.to_nat (check_rounds h) - 1)) = validator H h (key_of H h pw).
  Proof.
    intros Hok. destruct (iters_ok h Hok) as [A B]. unfold check_input, check_rounds. destruct (Nat.ltb_spec (N.to_nat (iterations (h_ch1 h) + iterations (h_ch2 h)) - 1) (N.to_nat (iterations (h_ch1 h)))); [lia|].
    rewrite <- round_value. unfold validator, chain_value. f_equal. unfold iterations in *. lia.
  Qed.
  Lemma check_next h pw k : header_ok h -> N.of_nat (S k) < check_rounds h -> exists s, check_input H h pw (S k) = hash_of H (h_hmode h) (check_input H h pw k) ++ s.
  Proof.
    intros Hok L. destruct (iters_ok h Hok) as [A B]. unfold check_input, check_rounds in *. set (n1 := N.to_nat (iterations (h_ch1 h))) in *. destruct (Nat.ltb_spec (S k) n1), (Nat.ltb_spec k n1); try lia.
    - eexists. unfold round_input at 1. rewrite round_value. reflexivity.
    - replace (S k - n1)%nat with O by lia. eexists. unfold round_input at 1. unfold key_of, chain_value. rewrite round_value. do 3 f_equal. subst n1. unfold iterations in *. lia.
    - replace (S k - n1)%nat with (S (k - n1)) by lia. eexists. unfold round_input at 1. rewrite round_value. reflexivity.
  Qed.
  Lemma app_digest m x y s s' : 1 <= m <= 3 -> hash_of H m x ++ s = hash_of H m y ++ s' -> hash_of H m x = hash_of H m y.
  Proof using HH.
    intros M E. apply (f_equal (takeN (digest_len m))) in E. rewrite <- (hash_len H HH m x M) in E at 1. rewrite <- (hash_len H HH m y M) in E at 1. rewrite !takeN_app_exact in E. exact E.
  Qed.
  Lemma back h pw h' pw' : header_ok h -> header_ok h' -> h_hmode h' = h_hmode h -> check_rounds h <= check_rounds h' ->
    hash_of H (h_hmode h) (check_input H h pw (N.to_nat (check_rounds h) - 1)) = hash_of H (h_hmode h) (check_input H h' pw' (N.to_nat (check_rounds h') - 1)) ->
    forall i, (i < N.to_nat (check_rounds h))%nat -> collide2 H h pw h' pw' \/
      (forall k, (N.to_nat (check_rounds h) - 1 - i <= k)%nat -> N.of_nat k < check_rounds h -> check_input H h pw k = check_input H h' pw' (k + N.to_nat (check_rounds h' - check_rounds h))).
  Proof using HH.
    intros Hok Hok' Em Le Ev. set (n := N.to_nat (check_rounds h)) in *. set (n' := N.to_nat (check_rounds h')) in *. set (d := N.to_nat (check_rounds h' - check_rounds h)).
    assert (n' = n + d)%nat as En by lia.
    assert (forall k, N.of_nat k < check_rounds h -> hash_of H (h_hmode h) (check_input H h pw k) = hash_of H (h_hmode h) (check_input H h' pw' (k + d)) ->
      collide2 H h pw h' pw' \/ check_input H h pw k = check_input H h' pw' (k + d)) as Dec.
    { intros k Lk Eh. destruct (bytes_dec (check_input H h pw k) (check_input H h' pw' (k + d))) as [X|X]; [right; exact X|left]. exists k. cbv zeta. fold d. auto. }
    induction i as [|i IH]; intros Li.
    - destruct (Dec (n - 1)%nat) as [X|X]; [lia|replace (n - 1 + d)%nat with (n' - 1)%nat by lia; exact Ev|left; exact X|right]. intros k K1 K2. replace k with (n - 1)%nat by lia. exact X.
    - destruct IH as [IH|IH]; [lia|left; exact IH|]. pose proof (IH (n - 1 - i)%nat ltac:(lia) ltac:(lia)) as E.
      destruct (check_next h pw (n - 1 - S i) Hok ltac:(lia)) as [s Es]. destruct (check_next h' pw' (n - 1 - S i + d) Hok' ltac:(lia)) as [s' Es'].
      replace (S (n - 1 - S i)) with (n - 1 - i)%nat in Es by lia. replace (S (n - 1 - S i + d)) with (n - 1 - i + d)%nat in Es' by lia.
      rewrite Es, Es', Em in E. apply app_digest in E; [|apply Hok]. destruct (Dec (n - 1 - S i)%nat ltac:(lia) E) as [X|X]; [left; exact X|right].
      intros k K1 K2. destruct (Nat.eq_dec k (n - 1 - S i)) as [->|Nk]; [exact X|]. apply IH; lia.
  Qed.
  Theorem two_headers h pw h' pw' : header_ok h -> header_ok h' -> h_hmode h' = h_hmode h -> h_valid h' = h_valid h -> opens H h pw -> opens H h' pw' ->
    check_rounds h <= check_rounds h' -> collide2 H h pw h' pw' \/ end_of H h pw h' pw'.
  Proof using HH.
    intros Hok Hok' Em Ev O O' Le. destruct (iters_ok h Hok) as [A B]. assert (0 < check_rounds h) as Lp by (unfold check_rounds; lia).
    destruct (back h pw h' pw' Hok Hok' Em Le) with (i := (N.to_nat (check_rounds h) - 1)%nat) as [X|X]; [|lia|left; exact X|right].
    - rewrite (check_last h pw Hok). rewrite <- Em. rewrite (check_last h' pw' Hok'). rewrite <- O, <- O'. symmetry. exact Ev.
    - intros k Lk. apply X; lia.
  Qed.
  Theorem accepted_after_change mode tr a w f p c' hsz l1 l2 h' rest h pw pw' t f' a' : history bd H mode tr a -> world_ok bd H w -> t < 2 ^ 64 -> selected tr = Some (p, c') ->
    written_as c' hsz l1 l2 h' rest -> header_ok h -> opens H h pw -> h_hmode h' = h_hmode h -> h_valid h' = h_valid h -> step w a f (OVerify pw' t) = (f', Ret (a', ROk)) ->
    (check_rounds h <= check_rounds h' -> collide2 H h pw h' pw' \/ end_of H h pw h' pw') /\
    (check_rounds h' <= check_rounds h -> collide2 H h' pw' h pw \/ end_of H h' pw' h pw).
  Proof using HH.
    intros P W Lt Q Wr Hok O Em Ev St.
    assert (a_state a = FILE_SELECTED) as Es by (cbn [step] in St; destruct (a_state a); try discriminate St; reflexivity).
    destruct (verify_outcome H HH bd mode tr a w f p c' _ _ _ h' _ pw' t P W Lt Es Q Wr) as [A B].
    assert (opens H h' pw') as O'.
    { destruct (bytes_dec (h_valid h') (validator H h' (key_of H h' pw'))) as [O'|O']; [exact O'|]. exfalso.
      assert (~ ~ verify_in_time w t (iterations (h_ch1 h')) (iterations (h_ch2 h'))) as NN by (intros T; rewrite (B T) in St; discriminate St).
      apply NN. intros T. destruct (A T) as [_ A2]. rewrite (A2 O') in St. discriminate St. }
    pose proof (proj1 Wr) as Hok'. split; intros L; apply two_headers; auto.
  Qed.
End Tamper.
