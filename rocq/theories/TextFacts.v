(** Facts about the texts. *)
From Coq Require Import Strings.String.
From Verif Require Import Base BaseFacts BytesModel BytesFacts MiscModel MiscFacts PwModel ChModel HeaderModel FileModel ApiModel TextModel TextSpec.
Open Scope N_scope.
Open Scope list_scope.

(** ** decimal *)
Lemma value_app s c : value (s ++ [c]) = value s * 10 + (b2n c - 48).
Proof. unfold value. rewrite fold_left_app. reflexivity. Qed.
Lemma digits_spec fuel : forall n acc, n < 10 ^ N.of_nat fuel -> 0 < N.of_nat fuel -> exists d, digits fuel n acc = d ++ acc /\ value d = n /\ Forall is_digit d /\ d <> [].
Proof.
  induction fuel as [|fuel IH]; intros n acc B P; [lia|].
  pose proof (N.mod_lt n 10 ltac:(discriminate)) as M.
  assert (b2n (n2b (48 + n mod 10)) = 48 + n mod 10) as Hd by (rewrite b2n_n2b; apply N.mod_small; lia).
  assert (n = 10 * (n / 10) + n mod 10) as Q by (apply N.div_mod; discriminate).
  cbn [digits]. destruct (N.eqb_spec (n / 10) 0) as [Z|Z].
  - exists [n2b (48 + n mod 10)]. split; [reflexivity|]. split; [unfold value; cbn [fold_left]; rewrite Hd; lia|]. split; [|discriminate].
    constructor; [|constructor]. unfold is_digit. rewrite Hd. lia.
  - destruct fuel as [|fuel]; [change (10 ^ N.of_nat 1) with 10 in B; apply N.div_small in B; lia|].
    destruct (IH (n / 10) (n2b (48 + n mod 10) :: acc)) as (d & E & V & F & X).
    + apply N.div_lt_upper_bound; [discriminate|]. rewrite Nnat.Nat2N.inj_succ, N.pow_succ_r' in B. exact B.
    + lia.
    + exists (d ++ [n2b (48 + n mod 10)]). split; [|split; [|split]].
      * rewrite <- app_assoc. exact E.
      * rewrite value_app, V, Hd. lia.
      * apply Forall_app. split; [exact F|]. constructor; [|constructor]. unfold is_digit. rewrite Hd. lia.
      * destruct d; discriminate.
Qed.
Lemma decimal_spec n : value (decimal n) = n /\ Forall is_digit (decimal n) /\ decimal n <> [].
Proof.
  unfold decimal. destruct (digits_spec (S (N.to_nat (N.log2 n))) n []) as (d & E & V & F & X).
  - rewrite Nnat.Nat2N.inj_succ, Nnat.N2Nat.id. destruct (N.eq_dec n 0) as [->|Z]; [reflexivity|].
    eapply N.lt_le_trans; [apply N.log2_spec; lia|]. apply N.pow_le_mono_l. lia.
  - lia.
  - rewrite E, app_nil_r. auto.
Qed.
Lemma decimal_inj n m : decimal n = decimal m -> n = m.
Proof. intros E. rewrite <- (proj1 (decimal_spec n)), E. apply decimal_spec. Qed.

(** ** the modes *)
Ltac modes m := destruct m as [|[[[|[]|]|[|[]|]|]|[[|[]|]|[|[]|]|]|]].
Lemma hash_info_iff m o : (exists t, hash_getInfo m o = Ret t) <-> 1 <= m <= 3.
Proof.
  unfold hash_getInfo, hash_name. split.
  - intros (t & E). destruct m as [|[[]|[]|]]; try discriminate; lia.
  - intros B. assert (m = 1 \/ m = 2 \/ m = 3) as [-> |[-> | ->]] by lia; eexists; reflexivity.
Qed.
Lemma hash_info_throws m o : ~ 1 <= m <= 3 -> hash_getInfo m o = Throw InvalidArgument.
Proof.
  intros B. destruct (hash_getInfo m o) eqn:E; unfold hash_getInfo in E; destruct (hash_name m) eqn:E'; try discriminate; try congruence.
  destruct B. apply (hash_info_iff m o). unfold hash_getInfo. rewrite E'. eexists; reflexivity.
Qed.
Lemma ch_info_iff m : (exists t, ch_getInfo m = Ret t) <-> 1 <= m <= 5.
Proof.
  split.
  - intros (t & E). unfold ch_getInfo in E. destruct m as [|[[[]|[]|]|[[]|[]|]|]]; try discriminate; lia.
  - intros B. assert (m = 1 \/ m = 2 \/ m = 3 \/ m = 4 \/ m = 5) as [-> |[-> |[-> |[-> | ->]]]] by lia; eexists; reflexivity.
Qed.
Lemma ch_info_throws m : ~ 1 <= m <= 5 -> ch_getInfo m = Throw InvalidArgument /\ ch_getShortInfo m = Throw InvalidArgument.
Proof.
  intros B. unfold ch_getInfo, ch_getShortInfo. destruct m as [|[[[]|[]|]|[[]|[]|]|]]; try (split; reflexivity); exfalso; apply B; lia.
Qed.
Lemma file_info_throws m : m <> 1 -> exists printed, file_getInfo m = (printed, Throw LogicError) /\ printed <> [].
Proof.
  intros B. unfold file_getInfo. destruct m as [|[]]; try congruence; (eexists; split; [reflexivity|discriminate]).
Qed.
Lemma hash_infos m m' o t : hash_getInfo m o = Ret t -> hash_getInfo m' o = Ret t -> m = m'.
Proof.
  intros E E'. assert (1 <= m <= 3) as B by (apply (hash_info_iff m o); eauto). assert (1 <= m' <= 3) as B' by (apply (hash_info_iff m' o); eauto).
  assert (m = 1 \/ m = 2 \/ m = 3) as C by lia. assert (m' = 1 \/ m' = 2 \/ m' = 3) as C' by lia.
  rewrite <- E' in E. clear E' B B'.
  destruct C as [-> |[-> | ->]], C' as [-> |[-> | ->]]; try reflexivity; destruct o; vm_compute in E; discriminate.
Qed.
Lemma ch_infos m m' t : ch_getInfo m = Ret t -> ch_getInfo m' = Ret t -> m = m'.
Proof.
  intros E E'. assert (1 <= m <= 5) as B by (apply ch_info_iff; eauto). assert (1 <= m' <= 5) as B' by (apply ch_info_iff; eauto).
  assert (m = 1 \/ m = 2 \/ m = 3 \/ m = 4 \/ m = 5) as C by lia. assert (m' = 1 \/ m' = 2 \/ m' = 3 \/ m' = 4 \/ m' = 5) as C' by lia.
  rewrite <- E' in E. clear E' B B'.
  destruct C as [-> |[-> |[-> |[-> | ->]]]], C' as [-> |[-> |[-> |[-> | ->]]]]; try reflexivity; vm_compute in E; discriminate.
Qed.
Lemma ch_shorts m m' t : ch_getShortInfo m = Ret t -> ch_getShortInfo m' = Ret t -> m = m'.
Proof.
  intros E E'. unfold ch_getShortInfo in *.
  destruct m as [|[[[]|[]|]|[[]|[]|]|]]; try discriminate E; (destruct m' as [|[[[]|[]|]|[[]|[]|]|]]; try discriminate E'; try reflexivity);
    rewrite <- E' in E; vm_compute in E; discriminate.
Qed.
Lemma mode_texts :
  (forall m o, (exists t, hash_getInfo m o = Ret t) <-> 1 <= m <= 3) /\ (forall m o, ~ 1 <= m <= 3 -> hash_getInfo m o = Throw InvalidArgument) /\
  (forall m, (exists t, ch_getInfo m = Ret t) <-> 1 <= m <= 5) /\ (forall m, (exists t, ch_getShortInfo m = Ret t) <-> 1 <= m <= 5) /\
  (forall m, ~ 1 <= m <= 5 -> ch_getInfo m = Throw InvalidArgument /\ ch_getShortInfo m = Throw InvalidArgument) /\
  (exists t, file_getInfo 1 = ([], Ret t)) /\ (forall m, m <> 1 -> exists printed, file_getInfo m = (printed, Throw LogicError) /\ printed <> []).
Proof.
  split; [exact hash_info_iff|]. split; [exact hash_info_throws|]. split; [exact ch_info_iff|]. split.
  { intros m. split.
    - intros (t & E). destruct (N.leb_spec 1 m), (N.leb_spec m 5); try lia; destruct (ch_info_throws m) as [_ X]; try lia; congruence.
    - intros B. assert (m = 1 \/ m = 2 \/ m = 3 \/ m = 4 \/ m = 5) as [-> |[-> |[-> |[-> | ->]]]] by lia; eexists; reflexivity. }
  split; [exact ch_info_throws|]. split; [eexists; reflexivity|exact file_info_throws].
Qed.
Lemma mode_texts_differ :
  (forall m m' o t, hash_getInfo m o = Ret t -> hash_getInfo m' o = Ret t -> m = m') /\
  (forall m m' t, ch_getInfo m = Ret t -> ch_getInfo m' = Ret t -> m = m') /\ (forall m m' t, ch_getShortInfo m = Ret t -> ch_getShortInfo m' = Ret t -> m = m').
Proof. split; [exact hash_infos|]. split; [exact ch_infos|exact ch_shorts]. Qed.
Lemma mode_numbers :
  (forall m t, ch_getInfo m = Ret t -> exists x y, t = x ++ decimal m ++ y) /\ (forall m t, hash_getInfo m false = Ret t -> exists x y, t = x ++ decimal m ++ y) /\
  (forall m t t', hash_getInfo m false = Ret t -> hash_getInfo m true = Ret t' -> endsWith t t' = true).
Proof.
  split; [|split].
  - intros m t E. exists (takeN 19 t), (dropN 20 t). unfold ch_getInfo in E.
    destruct m as [|[[[]|[]|]|[[]|[]|]|]]; try discriminate E; vm_compute in E; injection E as <-; vm_compute; reflexivity.
  - intros m t E. exists (takeN 14 t), (dropN 15 t). assert (m = 1 \/ m = 2 \/ m = 3) as C by (assert (1 <= m <= 3) by (apply (hash_info_iff m false); eauto); lia).
    destruct C as [-> |[-> | ->]]; vm_compute in E; injection E as <-; vm_compute; reflexivity.
  - intros m t t' E E'. unfold hash_getInfo in *. destruct (hash_name m) as [x|]; [|discriminate]. injection E as <-. injection E' as <-.
    apply endsWith_spec. exists (str "The hash mode " ++ decimal m ++ str " corresponds to hash function: "). reflexivity.
Qed.

(** ** error messages *)
Lemma app_neq (x y p q : bytes) : (exists i a b, nth_error x i = Some a /\ nth_error y i = Some b /\ a <> b) -> x ++ p <> y ++ q.
Proof.
  intros (i & a & b & A & B & D) E. apply D.
  assert (nth_error (x ++ p) i = Some a) as A' by (rewrite nth_error_app1; [exact A|apply nth_error_Some; congruence]).
  assert (nth_error (y ++ q) i = Some b) as B' by (rewrite nth_error_app1; [exact B|apply nth_error_Some; congruence]).
  congruence.
Qed.
(** the two texts differ at a place that both have *)
Fixpoint clash (x y : bytes) : bool :=
  match x, y with a :: x', b :: y' => negb (Byte.eqb a b) || clash x' y' | _, _ => false end.
Lemma clash_spec x : forall y, clash x y = true -> exists i a b, nth_error x i = Some a /\ nth_error y i = Some b /\ a <> b.
Proof.
  induction x as [|a x IH]; intros [|b y] E; try discriminate. cbn [clash] in E. destruct (Byte.eqb a b) eqn:Q.
  - destruct (IH y E) as (i & c & d & A & B & D). exists (S i), c, d. auto.
  - exists 0%nat, a, b. split; [reflexivity|]. split; [reflexivity|]. intros ->. destruct b; discriminate Q.
Qed.
Fixpoint common (x y : bytes) : bytes :=
  match x, y with a :: x', b :: y' => if Byte.eqb a b then a :: common x' y' else [] | _, _ => [] end.
(** what a message consists of if there are details: text before them, whether they are shown, text after them *)
Definition before (c : N) : bytes := common (getErrorMessage FAIL c [x00] [] false) (getErrorMessage FAIL c [x01] [] false).
Definition shown (c : N) : bool := negb (eqb_bytes (getErrorMessage FAIL c [x00] [] false) (getErrorMessage FAIL c [x01] [] false)).
Definition behind (c : N) : bytes :=
  if shown c then rev (common (rev (getErrorMessage FAIL c [x00] [] false)) (rev (getErrorMessage FAIL c [x01] [] false))) else [].
Definition ending (v : bool) (what : bytes) : bytes := if v then exception_message ++ what else [].
Definition codes : list N := map N.of_nat (seq 0 45).
Lemma known_in c : known c -> In c codes.
Proof. intros K. apply in_map_iff. exists (N.to_nat c). split; [lia|]. apply in_seq. unfold known in K. lia. Qed.
Ltac each_code K := unfold known in K;
  match type of K with ?c <= 44 => destruct c as [|p]; [|do 6 (try (destruct p as [p|p|]))] end; try (exfalso; lia).
Lemma message_parts s c info what v : s <> SUCCESS -> known c -> info <> [] ->
  getErrorMessage s c info what v = before c ++ (if shown c then info else []) ++ behind c ++ ending v what.
Proof.
  intros S K I. destruct info as [|b info]; [contradiction|].
  destruct s; [contradiction| |]; each_code K; reflexivity.
Qed.

Lemma plain_parts s c what v : s <> SUCCESS -> known c ->
  getErrorMessage s c [] what v = getErrorMessage FAIL c [] [] false ++ ending v what.
Proof. intros S K. destruct s; [contradiction| |]; each_code K; reflexivity. Qed.
Lemma ending_all s c info what v : s <> SUCCESS -> getErrorMessage s c info what v = getErrorMessage s c info what false ++ ending v what.
Proof.
  intros S. destruct (N.leb_spec c 44) as [K|K].
  - destruct info as [|b i].
    + rewrite (plain_parts s c what v), (plain_parts s c what false) by assumption. rewrite app_nil_r. reflexivity.
    + rewrite !message_parts by (assumption || discriminate). rewrite !app_nil_r, <- !app_assoc. reflexivity.
  - assert (forall x, getErrorMessage s c info what x = str "Unknown error" ++ ending x what) as U.
    { intros x. destruct s; [contradiction| |]; (destruct c as [|p]; [lia|]); do 6 (try (destruct p as [p|p|])); try (exfalso; lia); reflexivity. }
    rewrite !U, app_nil_r. reflexivity.
Qed.
Lemma unknown_text s c info what v : s <> SUCCESS -> 44 < c -> getErrorMessage s c info what v = str "Unknown error" ++ ending v what.
Proof. intros S K. destruct s; [contradiction| |]; (destruct c as [|p]; [lia|]); do 6 (try (destruct p as [p|p|])); try (exfalso; lia); reflexivity. Qed.

(** two codes whose messages begin differently *)
Definition heads_clash : bool := forallb (fun c => forallb (fun d => (c =? d) || clash (before c) (before d)) (filter (fun c => negb ((c =? 2) || (c =? 24) || (c =? 25) || ((27 <=? c) && (c <=? 32)))) codes))
  (filter (fun c => negb ((c =? 2) || (c =? 24) || (c =? 25) || ((27 <=? c) && (c <=? 32)))) codes).
Lemma heads_clash_true : heads_clash = true.
Proof. vm_compute. reflexivity. Qed.
Lemma head_of s c info what v : s <> SUCCESS -> known c -> ~ free_text c -> ~ details_first c -> exists r, getErrorMessage s c info what v = before c ++ r.
Proof.
  intros S K A B. destruct info as [|b i].
  - unfold free_text, details_first in *. destruct s; [contradiction| |]; each_code K; try (exfalso; lia); (eexists; reflexivity).
  - rewrite message_parts by (assumption || discriminate). eexists. reflexivity.
Qed.
Lemma named_filter c : known c -> ~ free_text c -> ~ details_first c ->
  In c (filter (fun c => negb ((c =? 2) || (c =? 24) || (c =? 25) || ((27 <=? c) && (c <=? 32)))) codes).
Proof.
  intros K A B. apply filter_In. split; [apply known_in, K|]. unfold free_text, details_first in *.
  destruct (N.eqb_spec c 2), (N.eqb_spec c 24), (N.eqb_spec c 25), (N.leb_spec 27 c), (N.leb_spec c 32); cbn; try reflexivity; exfalso; lia.
Qed.
Lemma told_apart s s' c c' info info' what what' v v' : s <> SUCCESS -> s' <> SUCCESS -> known c -> known c' -> ~ free_text c -> ~ free_text c' -> ~ details_first c -> ~ details_first c' ->
  getErrorMessage s c info what v = getErrorMessage s' c' info' what' v' -> c = c'.
Proof.
  intros S S' K K' A A' B B' E. destruct (N.eq_dec c c') as [|D]; [assumption|exfalso].
  destruct (head_of s c info what v S K A B) as (r & R). destruct (head_of s' c' info' what' v' S' K' A' B') as (r' & R'). rewrite R, R' in E. revert E. apply app_neq, clash_spec.
  pose proof heads_clash_true as H. unfold heads_clash in H. rewrite forallb_forall in H. specialize (H c (named_filter c K A B)). rewrite forallb_forall in H.
  specialize (H c' (named_filter c' K' A' B')). destruct (N.eqb_spec c c'); [contradiction|exact H].
Qed.

(** with the same details *)
Definition weight (s : bytes) : N := fold_right (fun b n => 65536 + b2n b + n) 0 s.
Lemma weight_app x y : weight (x ++ y) = weight x + weight y.
Proof. induction x as [|a x IH]; [reflexivity|]. cbn [app weight fold_right]. fold (weight (x ++ y)). fold (weight x). rewrite IH. lia. Qed.
Definition apart (c d : N) : bool :=
  match shown c, shown d with
  | true, true => negb (weight (before c) + weight (behind c) =? weight (before d) + weight (behind d))
  | true, false => negb (eqb_bytes (takeN (lenN (before c)) (before d)) (before c) && endsWith (before d) (behind c))
  | false, true => negb (eqb_bytes (takeN (lenN (before d)) (before c)) (before d) && endsWith (before c) (behind d))
  | false, false => negb (eqb_bytes (before c) (before d))
  end.
Definition all_apart : bool := forallb (fun c => forallb (fun d => (c =? d) || (c =? 2) || (d =? 2) || apart c d) codes) codes.
Lemma all_apart_true : all_apart = true.
Proof. vm_compute. reflexivity. Qed.
Definition plain_apart : bool :=
  forallb (fun c => forallb (fun d => (c =? d) || negb (eqb_bytes (getErrorMessage FAIL c [] [] false) (getErrorMessage FAIL d [] [] false))) codes) codes.
Lemma plain_apart_true : plain_apart = true.
Proof. vm_compute. reflexivity. Qed.
Lemma behind_hidden c : shown c = false -> behind c = [].
Proof. intros H. unfold behind. rewrite H. reflexivity. Qed.
Lemma mixed x i y z : x ++ i ++ y = z -> eqb_bytes (takeN (lenN x) z) x = true /\ endsWith z y = true.
Proof.
  intros <-. split.
  - rewrite eqb_bytes_spec. apply takeN_app_exact.
  - apply endsWith_spec. exists (x ++ i). rewrite <- app_assoc. reflexivity.
Qed.
Lemma same_details s s' c c' info what v : s <> SUCCESS -> s' <> SUCCESS -> known c -> known c' -> info = [] \/ (~ free_text c /\ ~ free_text c') ->
  getErrorMessage s c info what v = getErrorMessage s' c' info what v -> c = c'.
Proof.
  intros S S' K K' F E. destruct (N.eq_dec c c') as [|D]; [assumption|exfalso]. destruct info as [|b i].
  - rewrite (plain_parts s), (plain_parts s') in E by assumption. apply app_inv_tail in E.
    pose proof plain_apart_true as H. unfold plain_apart in H. rewrite forallb_forall in H. specialize (H c (known_in c K)). rewrite forallb_forall in H.
    specialize (H c' (known_in c' K')). destruct (N.eqb_spec c c'); [contradiction|]. rewrite <- E in H.
    assert (forall x, eqb_bytes x x = true) as R by (intros x; apply eqb_bytes_spec; reflexivity). rewrite R in H. discriminate.
  - destruct F as [F|[F F']]; [discriminate|]. rewrite !message_parts in E by (assumption || discriminate). set (info := b :: i) in *.
    rewrite !app_assoc in E. apply app_inv_tail in E. rewrite <- !app_assoc in E.
    pose proof all_apart_true as H. unfold all_apart in H. rewrite forallb_forall in H. specialize (H c (known_in c K)). rewrite forallb_forall in H.
    specialize (H c' (known_in c' K')). unfold free_text in *.
    destruct (N.eqb_spec c c'); [contradiction|]. destruct (N.eqb_spec c 2); [contradiction|]. destruct (N.eqb_spec c' 2); [contradiction|]. cbn [orb] in H.
    unfold apart in H. destruct (shown c) eqn:Sc, (shown c') eqn:Sc'.
    + apply (f_equal weight) in E. rewrite !weight_app in E. destruct (N.eqb_spec (weight (before c) + weight (behind c)) (weight (before c') + weight (behind c'))); [discriminate|lia].
    + rewrite (behind_hidden c' Sc'), !app_nil_r in E. apply mixed in E as [E1 E2]. rewrite E1, E2 in H. discriminate.
    + rewrite (behind_hidden c Sc), !app_nil_r in E. symmetry in E. apply mixed in E as [E1 E2]. rewrite E1, E2 in H. discriminate.
    + rewrite (behind_hidden c Sc), (behind_hidden c' Sc'), !app_nil_r in E. rewrite E in H.
      assert (forall x, eqb_bytes x x = true) as R by (intros x; apply eqb_bytes_spec; reflexivity). rewrite R in H. discriminate.
Qed.

(** which messages show the details *)
Lemma hidden_spec c : known c -> (shown c = false <-> details_hidden c).
Proof.
  intros K. unfold details_hidden. each_code K;
    (match goal with |- context [shown ?n] => let r := eval vm_compute in (shown n) in change (shown n) with r end; split; intros X; first [reflexivity|discriminate X|lia|exfalso; lia]).
Qed.
Lemma hides s c info info' what v : details_hidden c -> getErrorMessage s c info what v = getErrorMessage s c info' what v.
Proof.
  intros D. destruct s; [reflexivity| |]; (destruct (N.leb_spec c 44) as [K|K]; [|rewrite !unknown_text by (assumption || discriminate); reflexivity]);
    unfold details_hidden in D; each_code K; try (exfalso; lia); reflexivity.
Qed.
Lemma shows s c info info' what v : s <> SUCCESS -> known c -> ~ details_hidden c -> ~ free_text c ->
  (exists x y, getErrorMessage s c info what v = x ++ info ++ y) /\ (getErrorMessage s c info what v = getErrorMessage s c info' what v -> info = info').
Proof.
  intros S K D F. assert (shown c = true) as Sh by (destruct (shown c) eqn:X; [reflexivity|apply hidden_spec in X; [contradiction|assumption]]).
  split.
  - destruct info as [|b i].
    + exists [], (getErrorMessage s c [] what v). reflexivity.
    + rewrite message_parts by (assumption || discriminate). rewrite Sh. eexists _, _. reflexivity.
  - intros E. rewrite (ending_all s c info), (ending_all s c info') in E by assumption. apply app_inv_tail in E.
    destruct info as [|b i], info' as [|b' i']; [reflexivity| | |].
    + exfalso. rewrite (plain_parts s c what false), (message_parts s c (b' :: i')) in E by (assumption || discriminate). rewrite Sh, !app_nil_r in E. apply (f_equal (@length byte)) in E.
      rewrite !app_length in E. revert E. unfold free_text, details_hidden in *. clear Sh. each_code K; try (exfalso; lia); vm_compute length; cbn [length]; intros E; try lia.
    + exfalso. rewrite (plain_parts s c what false), (message_parts s c (b :: i)) in E by (assumption || discriminate). rewrite Sh, !app_nil_r in E. apply (f_equal (@length byte)) in E.
      rewrite !app_length in E. revert E. unfold free_text, details_hidden in *. clear Sh. each_code K; try (exfalso; lia); vm_compute length; cbn [length]; intros E; try lia.
    + rewrite !message_parts in E by (assumption || discriminate). rewrite Sh in E. apply app_inv_head in E. rewrite !app_assoc in E. do 2 apply app_inv_tail in E. exact E.
Qed.
(** the codes of the model have the numbers of different enumerators, and none that means "no error" *)
Lemma code_numbers : (forall c, known (code_number c) /\ 2 <= code_number c) /\ (forall c d, code_number c = code_number d -> c = d).
Proof.
  split; [intros []; split; vm_compute; discriminate|]. intros c d.
  destruct c; destruct d; cbn [code_number]; intros E; first [reflexivity|discriminate E].
Qed.

(** the message says what its code is about *)
Definition within_text (a m : bytes) : Prop := exists x y, m = x ++ a ++ y.
Fixpoint starts (a m : bytes) : bool := match a, m with [], _ => true | x :: a', y :: m' => Byte.eqb x y && starts a' m' | _, [] => false end.
Fixpoint infixb (a m : bytes) : bool := starts a m || match m with [] => false | _ :: m' => infixb a m' end.
Lemma starts_spec a : forall m, starts a m = true -> exists y, m = a ++ y.
Proof.
  induction a as [|x a IH]; intros m E; [exists m; reflexivity|]. destruct m as [|y m]; [discriminate|]. cbn [starts] in E. apply Bool.andb_true_iff in E. destruct E as (A & B).
  apply Byte.byte_dec_bl in A. subst y. destruct (IH m B) as (z & ->). exists z. reflexivity.
Qed.
Lemma infixb_spec a m : infixb a m = true -> within_text a m.
Proof.
  induction m as [|y m IH]; cbn [infixb]; intros E; apply Bool.orb_true_iff in E; destruct E as [E|E]; try discriminate; try (apply starts_spec in E; destruct E as (z & ->); exists [], z; reflexivity).
  destruct (IH E) as (x & z & ->). exists (y :: x), z. reflexivity.
Qed.
Lemma within_left a m r : within_text a m -> within_text a (m ++ r).
Proof. intros (x & y & ->). exists x, (y ++ r). rewrite <- !app_assoc. reflexivity. Qed.
Lemma within_right a m r : within_text a m -> within_text a (r ++ m).
Proof. intros (x & y & ->). exists (r ++ x), y. rewrite <- !app_assoc. reflexivity. Qed.
Lemma says s c info what v : s <> SUCCESS -> exists x y, getErrorMessage s (code_number c) info what v = x ++ about c ++ y.
Proof.
  intros S. change (within_text (about c) (getErrorMessage s (code_number c) info what v)). unfold getErrorMessage. destruct s; [congruence| |];
  (destruct c; cbn [code_number]; [exists [], (match info with [] => str "An error occurred" ++ (if v then exception_message ++ what else []) | _ => info ++ (if v then exception_message ++ what else []) end); destruct info; reflexivity|..]; destruct info as [|i0 info];
   first [apply within_left, infixb_spec; vm_compute; reflexivity | apply within_right, within_left, infixb_spec; vm_compute; reflexivity]).
Qed.

(** ** the default directory *)
Lemma enc_dir w :
  (w_stat w default_dir = false -> getEncDirPath w = Crash Terminate) /\
  (w_stat w default_dir = true -> exists e c, getEncDirPath w = Ret (e, c) /\
     (w_dir w default_dir = Missing -> c = Some ERR_FILEPATH_INVALID /\ err_step e OpValue = Throw LogicError /\ err_step e OpRef = Throw LogicError /\ err_step e OpMove = Throw LogicError /\
        getAllEncFileNames w default_dir = Ret (inl ERR_FILEPATH_INVALID)) /\
     (w_dir w default_dir <> Missing -> c = None /\ err_step e OpValue = Ret (e, Some (str "data/enc")) /\ getAllEncFileNames w default_dir <> Ret (inl ERR_FILEPATH_INVALID))).
Proof.
  unfold getEncDirPath, getAllEncFileNames. change (lenN default_dir =? 0) with false. cbn match. split; intros ->; [reflexivity|].
  destruct (w_dir w default_dir) as [| |l]; cbn [noexcept]; eexists _, _; (split; [reflexivity|]); (split; [intros X; try discriminate X|intros X; try (destruct (X eq_refl))]).
  - repeat split.
  - split; [reflexivity|]. split; [reflexivity|]. discriminate.
  - split; [reflexivity|]. split; [reflexivity|]. discriminate.
Qed.
