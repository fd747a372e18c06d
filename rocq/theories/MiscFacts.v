(** Proofs about the utilities, and the small specifications they meet. *)
From Verif Require Import Base BaseFacts BytesModel BytesSpec BytesFacts BytesFacts2 MiscModel.
From Verif Require Export MiscSpec.
Ltac Zify.zify_post_hook ::= Z.div_mod_to_equations.

(** ** readData *)
Lemma takeN_split {A} a b (l : list A) : takeN (a + b) l = takeN a l ++ takeN b (dropN a l).
Proof.
  unfold takeN, dropN. rewrite N2Nat.inj_add. generalize (N.to_nat a) as i, (N.to_nat b) as j. intros i j.
  revert l; induction i as [|i IH]; intros [|x l]; cbn [firstn skipn Nat.add app]; try reflexivity.
  - destruct j; reflexivity.
  - rewrite IH. reflexivity.
Qed.
Lemma readData_loop_ok fuel : forall g i (peeked : bool) size read acc s,
  read <= size -> (N.to_nat (size - read) + (if peeked then 1 else 2) <= fuel)%nat ->
  readData_loop fuel g i peeked size read acc s =
    if size - read <=? lenN s
    then Ret (true, acc ++ takeN (size - read) s, dropN (size - read) s)
    else Ret (false, acc ++ s, []).
Proof.
  induction fuel as [|fuel IH]; intros g i peeked size read acc s Hr Hf; [destruct peeked; lia|].
  cbn [readData_loop].
  set (avail := if peeked then N.max 1 (g i) else g i).
  set (m := N.min (size - read) (N.min avail (lenN s))).
  destruct (N.leb_spec (size - read) (lenN s)) as [Hle|Hgt].
  - destruct (N.eqb_spec (read + m) size) as [E|E].
    + cbn [negb andb]. replace m with (size - read) by lia. reflexivity.
    + cbn [negb andb]. rewrite lenN_dropN. destruct (N.eqb_spec (lenN s - m) 0); [subst m; lia|].
      assert (Hm : peeked = true -> 1 <= m).
      { intros ->. subst m avail. lia. }
      rewrite IH; [|subst m; lia|destruct peeked; [specialize (Hm eq_refl)|]; lia].
      rewrite lenN_dropN. destruct (N.leb_spec (size - (read + m)) (lenN s - m)); [|subst m; lia].
      rewrite <- app_assoc, dropN_dropN.
      replace (size - (read + m) + m) with (size - read) by (subst m; lia).
      rewrite <- takeN_split. replace (m + (size - (read + m))) with (size - read) by (subst m; lia). reflexivity.
  - destruct (N.eqb_spec (read + m) size) as [E|E]; [subst m; lia|]. cbn [negb andb].
    rewrite lenN_dropN. destruct (N.eqb_spec (lenN s - m) 0) as [E2|E2].
    + rewrite takeN_all, dropN_all by lia. reflexivity.
    + assert (Hm : peeked = true -> 1 <= m).
      { intros ->. subst m avail. lia. }
      rewrite IH; [|subst m; lia|destruct peeked; [specialize (Hm eq_refl)|]; lia].
      rewrite lenN_dropN. destruct (N.leb_spec (size - (read + m)) (lenN s - m)); [subst m; lia|].
      rewrite <- app_assoc, takeN_dropN. reflexivity.
Qed.

Lemma readData_ok g size data s fuel : getLen data <= bmax data -> bmax data < two64 ->
  (N.to_nat size + 2 <= fuel)%nat ->
  (size <= bmax data - getLen data /\ size <= lenN s ->
     readData fuel g size data s = Ret (true, mkBytes (bdata data ++ takeN size s) (bmax data), dropN size s)) /\
  (~ (size <= bmax data - getLen data /\ size <= lenN s) ->
     exists s', readData fuel g size data s = Ret (false, data, s')).
Proof.
  intros Hw H64 Hf. unfold readData.
  assert (E : sub64 (bmax data) (getLen data) = bmax data - getLen data).
  { unfold sub64. replace (bmax data + two64 - getLen data) with (bmax data - getLen data + 1 * two64) by lia.
    rewrite N.mod_add by (unfold two64; lia). apply N.mod_small. lia. }
  rewrite E. split.
  - intros [H1 H2]. destruct (N.ltb_spec (bmax data - getLen data) size); [lia|].
    rewrite readData_loop_ok by (rewrite ?N.sub_0_r; lia). rewrite N.sub_0_r.
    destruct (N.leb_spec size (lenN s)); [|lia]. reflexivity.
  - intros Hn. destruct (N.ltb_spec (bmax data - getLen data) size); [eexists; reflexivity|].
    rewrite readData_loop_ok by (rewrite ?N.sub_0_r; lia). rewrite N.sub_0_r.
    destruct (N.leb_spec size (lenN s)); [lia|]. eexists; reflexivity.
Qed.

(** ** endsWith *)
Lemma endsWith_spec full ending : endsWith full ending = true <-> exists p, full = p ++ ending.
Proof.
  unfold endsWith. destruct (N.leb_spec (lenN ending) (lenN full)) as [Hl|Hl].
  - rewrite eqb_bytes_spec. rewrite takeN_all by (rewrite lenN_dropN; lia). split.
    + intros E. exists (takeN (lenN full - lenN ending) full). rewrite <- E at 2. rewrite takeN_dropN. reflexivity.
    + intros [p ->]. rewrite lenN_app. replace (lenN p + lenN ending - lenN ending) with (lenN p) by lia.
      apply dropN_app_exact.
  - split; [discriminate|]. intros [p ->]. rewrite lenN_app in Hl. lia.
Qed.

(** ** isValidNumber *)

Lemma dec_val_fold s acc : fold_left (fun a c => a * 10 + (b2n c - 48)) s acc = dec_val s acc.
Proof. revert acc; induction s as [|c s IH]; intros acc; cbn; [reflexivity|apply IH]. Qed.

Lemma all_digits_true s : Forall is_digit s -> all_digits s = Ret true.
Proof.
  induction 1 as [|c s Hc Hs IH]; cbn [all_digits]; [reflexivity|]. unfold isdigit, is_digit in *.
  destruct (N.leb_spec 128 (b2n c)); [lia|]. cbn [bind].
  destruct (N.leb_spec 48 (b2n c)); [|lia]. destruct (N.leb_spec (b2n c) 57); [|lia]. exact IH.
Qed.
Lemma all_digits_inv s : all_digits s = Ret true -> Forall is_digit s.
Proof.
  induction s as [|c s IH]; cbn [all_digits]; [constructor|]. unfold isdigit.
  destruct (N.leb_spec 128 (b2n c)); [discriminate|]. cbn [bind].
  destruct (N.leb_spec 48 (b2n c)); cbn [andb]; [|discriminate].
  destruct (N.leb_spec (b2n c) 57); [|discriminate]. intros E. constructor; [unfold is_digit; lia|auto].
Qed.
Lemma all_digits_cases s : Forall (fun c => b2n c < 128) s -> all_digits s = Ret true \/ all_digits s = Ret false.
Proof.
  induction 1 as [|c s Hc Hs IH]; cbn [all_digits]; [auto|]. unfold isdigit.
  destruct (N.leb_spec 128 (b2n c)); [lia|]. cbn [bind]. destruct (_ && _); auto.
Qed.
Lemma all_digits_undef s : all_digits s = Crash Undefined <->
  exists p c r, s = p ++ c :: r /\ Forall is_digit p /\ 128 <= b2n c.
Proof.
  split.
  - induction s as [|c s IH]; cbn [all_digits]; [discriminate|]. unfold isdigit.
    destruct (N.leb_spec 128 (b2n c)).
    + intros _. exists [], c, s. auto.
    + cbn [bind]. destruct (N.leb_spec 48 (b2n c)); cbn [andb]; [|discriminate].
      destruct (N.leb_spec (b2n c) 57); [|discriminate]. intros E.
      destruct (IH E) as (p & c' & r & -> & Hp & Hc'). exists (c :: p), c', r.
      split; [reflexivity|]. split; [constructor; [unfold is_digit; lia|assumption]|assumption].
  - intros (p & c & r & -> & Hp & Hc). induction Hp as [|d p Hd Hp IH]; cbn [app all_digits].
    + unfold isdigit. destruct (N.leb_spec 128 (b2n c)); [reflexivity|lia].
    + unfold is_digit in *. unfold isdigit at 1. destruct (N.leb_spec 128 (b2n d)); [lia|]. cbn [bind].
      destruct (N.leb_spec 48 (b2n d)); [|lia]. destruct (N.leb_spec (b2n d) 57); [|lia]. exact IH.
Qed.

Lemma isValidNumber_spec s blank lo hi : Forall (fun c => b2n c < 128) s ->
  exists r, isValidNumber s blank lo hi = Ret r /\
    (r = true <-> (s = [] /\ blank = true) \/
      (s <> [] /\ Forall is_digit s /\ dec_val s 0 < 2 ^ 64 /\ lo <= dec_val s 0 <= hi)).
Proof.
  intros HA. destruct s as [|c s].
  - exists blank. split; [reflexivity|]. split; [auto|]. intros [[_ E]|[E _]]; congruence.
  - unfold isValidNumber. destruct (all_digits_cases _ HA) as [E|E]; rewrite E; cbn [bind].
    + unfold stoul. rewrite dec_val_fold. change (2 ^ 64) with two64. apply all_digits_inv in E.
      destruct (N.ltb_spec (dec_val (c :: s) 0) two64) as [Hlt|Hge].
      * eexists; split; [reflexivity|]. split.
        -- intros Ht. right. split; [congruence|]. split; [exact E|]. lia.
        -- intros [[? _]|(_ & _ & _ & ?)]; [congruence|lia].
      * exists false. split; [reflexivity|]. split; [discriminate|].
        intros [[? _]|(_ & _ & ? & _)]; [congruence|lia].
    + exists false. split; [reflexivity|]. split; [discriminate|].
      intros [[? _]|(_ & HF & _)]; [congruence|]. rewrite (all_digits_true _ HF) in E. discriminate.
Qed.
Lemma isValidNumber_undef s blank lo hi : isValidNumber s blank lo hi = Crash Undefined <->
  exists p c r, s = p ++ c :: r /\ Forall is_digit p /\ 128 <= b2n c.
Proof.
  rewrite <- all_digits_undef. destruct s as [|c s]; [cbn; split; discriminate|].
  unfold isValidNumber. destruct (all_digits (c :: s)) as [[|]| | |]; cbn [bind].
  - destruct (stoul (c :: s)); split; discriminate.
  - split; discriminate.
  - split; congruence.
  - split; congruence.
  - split; congruence.
Qed.

(** ** random values *)
Lemma get_random_byte_range rnd lower upper n r : get_random_byte rnd lower upper n = Ret r ->
  (b2n lower < b2n upper -> b2n lower <= b2n r < b2n upper) /\ (lower = upper -> r = lower) /\ b2n lower <= b2n upper /\ 1 <= n <= 8.
Proof.
  unfold get_random_byte. destruct (N.ltb_spec n 1); [discriminate|]. destruct (N.ltb_spec 8 n); [discriminate|]. cbn [orb].
  destruct (N.leb_spec (b2n upper) (b2n lower)).
  - destruct (N.eqb_spec (b2n upper) (b2n lower)) as [E|]; [|discriminate]. intros Er. injection Er as <-.
    apply b2n_inj in E. subst. repeat split; try lia; auto.
  - destruct (rnd n) as [bs|]; [|discriminate].
    destruct (toLong (mkBytes bs n)) as [v| | |]; [|discriminate|discriminate|discriminate]. cbn [bind]. intros Er. injection Er as <-.
    pose proof (b2n_lt upper).
    assert (v mod (b2n upper - b2n lower) < b2n upper - b2n lower) by (apply N.mod_lt; lia).
    rewrite b2n_n2b_small by lia. repeat split; try lia. intros ->. lia.
Qed.
Lemma get_random_byte_onto lower upper n x : b2n lower <= b2n x < b2n upper -> 1 <= n <= 8 ->
  exists rnd, (forall k, exists bs, rnd k = Some bs /\ lenN bs = k) /\ get_random_byte rnd lower upper n = Ret x.
Proof.
  intros Hx Hn. set (v := b2n x - b2n lower).
  exists (fun k => Some (repeat x00 (N.to_nat (k - 1)) ++ (if k =? 0 then [] else [n2b v]))). split.
  - intros k. eexists; split; [reflexivity|]. rewrite lenN_app, lenN_repeat.
    destruct (N.eqb_spec k 0); [rewrite lenN_nil|change (lenN [n2b v]) with 1]; lia.
  - unfold get_random_byte. destruct (N.ltb_spec n 1); [lia|]. destruct (N.ltb_spec 8 n); [lia|]. cbn [orb].
    destruct (N.leb_spec (b2n upper) (b2n lower)); [lia|].
    destruct (N.eqb_spec n 0); [lia|].
    rewrite toLong_val by (unfold getLen; cbn [bdata]; rewrite lenN_app, lenN_repeat; change (lenN [n2b v]) with 1; lia).
    cbn [bind bdata]. rewrite be_val_app, be_val_single.
    assert (Ez : forall j, be_val (repeat x00 j) = 0).
    { induction j as [|j IH]; [reflexivity|]. cbn [repeat]. change (x00 :: repeat x00 j) with ([x00] ++ repeat x00 j).
      rewrite be_val_app, IH. change (be_val [x00]) with 0. lia. }
    rewrite Ez. pose proof (b2n_lt upper). rewrite N.mul_0_l, N.add_0_l, b2n_n2b_small by (subst v; lia).
    rewrite N.mod_small by (subst v; lia). replace (v + b2n lower) with (b2n x) by (subst v; lia).
    rewrite n2b_b2n. reflexivity.
Qed.
Lemma get_random_byte_inverted rnd lower upper n : b2n upper < b2n lower -> get_random_byte rnd lower upper n = Throw LogicError.
Proof.
  intros Hl. unfold get_random_byte. destruct (_ || _); [reflexivity|].
  destruct (N.leb_spec (b2n upper) (b2n lower)); [|lia]. destruct (N.eqb_spec (b2n upper) (b2n lower)); [lia|reflexivity].
Qed.

Lemma is_letter_model c : isLetter c = is_letter c.
Proof. destruct c; reflexivity. Qed.
Lemma pick_letters_inv num buf : forall res, lenN res < num ->
  match pick_letters num buf res with
  | inr r => lenN r = num /\ exists p, (exists q, buf = p ++ q) /\ r = res ++ filter is_letter p
  | inl r => lenN r < num /\ r = res ++ filter is_letter buf
  end.
Proof.
  induction buf as [|b buf IH]; intros res Hl; cbn [pick_letters].
  - rewrite app_nil_r. auto.
  - rewrite is_letter_model. destruct (is_letter b) eqn:Eb.
    + destruct (N.eqb_spec (lenN (res ++ [b])) num) as [E|E].
      * split; [exact E|]. exists [b]. split; [exists buf; reflexivity|]. cbn [filter]. rewrite Eb. reflexivity.
      * specialize (IH (res ++ [b])). rewrite lenN_app in *. change (lenN [b]) with 1 in *.
        specialize (IH ltac:(lia)). destruct (pick_letters num buf (res ++ [b])) as [r|r].
        -- destruct IH as (H1 & ->). split; [exact H1|]. cbn [filter]. rewrite Eb, <- app_assoc. reflexivity.
        -- destruct IH as (H1 & p & (q & ->) & ->). split; [exact H1|].
           exists (b :: p). split; [exists q; reflexivity|]. cbn [filter]. rewrite Eb, <- app_assoc. reflexivity.
    + destruct (N.eqb_spec (lenN res) num); [lia|].
      specialize (IH res Hl). destruct (pick_letters num buf res) as [r|r].
      * cbn [filter]. rewrite Eb. exact IH.
      * destruct IH as (H1 & p & (q & ->) & ->). split; [exact H1|].
        exists (b :: p). split; [exists q; reflexivity|]. cbn [filter]. rewrite Eb. reflexivity.
Qed.
Lemma random_string_loop_spec rnd num fuel : forall i res, lenN res < num ->
  match random_string_loop fuel rnd i num res with
  | Ret r => exists k, (k <= fuel)%nat /\ (forall j, (j < k)%nat -> rnd (i + j)%nat <> None) /\
      num <= lenN (res ++ filter is_letter (drawn rnd i k)) /\ r = takeN num (res ++ filter is_letter (drawn rnd i k))
  | Throw e => e = RuntimeError /\ exists k, (k < fuel)%nat /\ (forall j, (j < k)%nat -> rnd (i + j)%nat <> None) /\
      rnd (i + k)%nat = None /\ lenN (res ++ filter is_letter (drawn rnd i k)) < num
  | OutOfFuel => (forall j, (j < fuel)%nat -> rnd (i + j)%nat <> None) /\ lenN (res ++ filter is_letter (drawn rnd i fuel)) < num
  | Crash _ => False
  end.
Proof.
  induction fuel as [|fuel IH]; intros i res Hl; cbn [random_string_loop].
  - split; [intros j Hj; lia|]. cbn. rewrite app_nil_r. exact Hl.
  - destruct (rnd i) as [buf|] eqn:Ei.
    2: { split; [reflexivity|]. exists O. split; [lia|]. split; [intros j Hj; lia|]. rewrite Nat.add_0_r. split; [exact Ei|]. cbn. rewrite app_nil_r. exact Hl. }
    assert (W : forall k, (forall j, (j < k)%nat -> rnd (S i + j)%nat <> None) -> forall j, (j < S k)%nat -> rnd (i + j)%nat <> None).
    { intros k Hk [|j] Hj; [rewrite Nat.add_0_r, Ei; discriminate|]. rewrite Nat.add_succ_r. apply Hk. lia. }
    assert (D : forall k, drawn rnd i (S k) = buf ++ drawn rnd (S i) k) by (intros k; cbn [drawn]; rewrite Ei; reflexivity).
    pose proof (pick_letters_inv num buf res Hl) as HP. destruct (pick_letters num buf res) as [r|r].
    + destruct HP as (H1 & ->). specialize (IH (S i) _ H1). destruct (random_string_loop fuel rnd (S i) num _) as [r|e|c|].
      * destruct IH as (k & A & B & C & ->). exists (S k). rewrite D, filter_app, app_assoc. split; [lia|]. split; [exact (W k B)|]. split; [exact C|reflexivity].
      * destruct IH as (-> & k & A & B & C & E). split; [reflexivity|]. exists (S k). rewrite D, filter_app, app_assoc, Nat.add_succ_r.
        split; [lia|]. split; [exact (W k B)|]. split; [exact C|exact E].
      * contradiction.
      * destruct IH as (A & B). rewrite D, filter_app, app_assoc. split; [exact (W fuel A)|exact B].
    + destruct HP as (H1 & p & (q & ->) & ->). exists 1%nat. rewrite D, !filter_app, <- app_assoc, app_assoc. split; [lia|]. split; [apply (W O); intros j Hj; lia|].
      split; [rewrite lenN_app; lia|]. rewrite <- H1. symmetry. apply takeN_app_exact.
Qed.
Lemma get_random_string_spec fuel rnd num :
  match get_random_string fuel rnd num with
  | Ret r => 1 <= num /\ exists k, (k <= fuel)%nat /\ draws_work rnd k /\ num <= lenN (filter is_letter (drawn rnd 0 k)) /\ r = takeN num (filter is_letter (drawn rnd 0 k))
  | Throw LogicError => num = 0
  | Throw RuntimeError => exists k, (k < fuel)%nat /\ draws_work rnd k /\ rnd k = None /\ lenN (filter is_letter (drawn rnd 0 k)) < num
  | OutOfFuel => draws_work rnd fuel /\ lenN (filter is_letter (drawn rnd 0 fuel)) < num
  | _ => False
  end.
Proof.
  unfold get_random_string. destruct (N.ltb_spec num 1); [lia|].
  pose proof (random_string_loop_spec rnd num fuel 0 [] ltac:(rewrite lenN_nil; lia)) as L. cbn [app Nat.add] in L.
  destruct (random_string_loop fuel rnd 0 num []) as [r|e|c|]; [|destruct L as (-> & L)| |]; auto.
Qed.
Lemma get_random_string_shape fuel rnd num r : get_random_string fuel rnd num = Ret r -> lenN r = num /\ Forall (fun c => In c letters) r.
Proof.
  intros E. pose proof (get_random_string_spec fuel rnd num) as S. rewrite E in S. destruct S as (_ & k & _ & _ & L & ->). split; [rewrite lenN_takeN; lia|].
  apply Forall_forall. intros c I. assert (I' : In c (filter is_letter (drawn rnd 0 k))) by (rewrite <- (takeN_dropN num); apply in_or_app; left; exact I). clear I. rename I' into I. apply filter_In in I. destruct I as (_ & I). unfold is_letter in I.
  apply existsb_exists in I. destruct I as (x & X & Y). apply Byte.byte_dec_bl in Y. subst x. exact X.
Qed.
Lemma drawn_more rnd n : forall i k, (k <= n)%nat -> exists r, drawn rnd i n = drawn rnd i k ++ r.
Proof.
  induction n as [|n IH]; intros i k Hk; [exists []; replace k with O by lia; reflexivity|]. destruct k as [|k]; [exists (drawn rnd i (S n)); reflexivity|].
  cbn [drawn]. destruct (IH (S i) k ltac:(lia)) as (r & ->). exists r. rewrite app_assoc. reflexivity.
Qed.
Lemma get_random_string_ends rnd num k : 1 <= num -> draws_work rnd k ->
  num <= lenN (filter is_letter (drawn rnd 0 k)) ->
  forall fuel, (k <= fuel)%nat -> get_random_string fuel rnd num = Ret (takeN num (filter is_letter (drawn rnd 0 k))).
Proof.
  intros Hn Hr Hd fuel Hf. pose proof (get_random_string_spec fuel rnd num) as S.
  assert (M : forall j, (k <= j)%nat -> num <= lenN (filter is_letter (drawn rnd 0 j))).
  { intros j Hj. destruct (drawn_more rnd j 0 k Hj) as (r & ->). rewrite filter_app, lenN_app. lia. }
  destruct (get_random_string fuel rnd num) as [r|[]| |]; try contradiction; try lia.
  - destruct S as (_ & j & A & B & C & ->). f_equal. destruct (Nat.le_gt_cases j k) as [L|L].
    + destruct (drawn_more rnd k 0 j L) as (r & ->). rewrite filter_app. symmetry. apply takeN_app_le. lia.
    + destruct (drawn_more rnd j 0 k ltac:(lia)) as (r & ->). rewrite filter_app. apply takeN_app_le. lia.
  - destruct S as (j & A & B & C & D). destruct (Nat.le_gt_cases k j) as [L|L]; [specialize (M j L); lia|]. destruct (Hr j L C).
  - destruct S as (A & B). specialize (M fuel Hf). lia.
Qed.

(** ** Timer *)
Definition trep (t : timer) (p : phase) : Prop :=
  match p with
  | Idle => t_started t = false /\ t_stopped t = false
  | Running last laps => t_started t = true /\ t_stopped t = false /\ t_last t = last /\ t_laps t = laps
  | Stopped laps => t_started t = false /\ t_stopped t = true /\ t_laps t = laps /\ laps <> []
  end.

Lemma slowest_max laps : slowest laps = maxlap laps.
Proof.
  unfold slowest, maxlap.
  assert (G : forall l m, fold_left (fun m l => if m <? l then l else m) l m = N.max m (fold_right N.max 0 l)).
  { induction l as [|x l IH]; intros m; cbn [fold_left fold_right]; [lia|]. rewrite IH.
    destruct (N.ltb_spec m x); lia. }
  rewrite G. lia.
Qed.
Lemma sum_small laps : forall s, s + sumlaps laps < two64 ->
  fold_left (fun s l => w64 (s + l)) laps s = s + sumlaps laps.
Proof.
  unfold sumlaps. induction laps as [|x l IH]; intros s Hs; cbn [fold_left fold_right] in *; [lia|].
  unfold w64 at 2. rewrite N.mod_small by lia. rewrite IH by lia. lia.
Qed.
Lemma avg_sum laps : laps <> [] -> sumlaps laps < two64 -> avg laps = sumlaps laps / lenN laps.
Proof.
  intros Hne Hs. unfold avg. destruct laps as [|x l]; [congruence|]. rewrite sum_small by (rewrite N.add_0_l; exact Hs).
  rewrite N.add_0_l. reflexivity.
Qed.

Lemma timer_step_refines t p now o : trep t p -> sumlaps (phase_laps p) < two64 ->
  match phase_step p now o with
  | Some (p', v) => exists t', timer_step t now o = Ret (t', v) /\ trep t' p'
  | None => timer_step t now o = Throw LogicError
  end.
Proof.
  intros HR Hs. destruct p as [|last laps|laps]; cbn [phase_laps] in Hs.
  - destruct HR as (H1 & H2). destruct o; cbn [phase_step timer_step]; unfold require; rewrite ?H1, ?H2; cbn [negb]; try reflexivity.
    eexists; split; [reflexivity|]. cbn. auto.
  - destruct HR as (H1 & H2 & H3 & H4). destruct o; cbn [phase_step timer_step]; unfold require; rewrite ?H1, ?H2, ?H3, ?H4; cbn [negb]; try reflexivity.
    + eexists; split; [reflexivity|]. cbn. repeat split; auto. destruct laps; discriminate.
    + eexists; split; [reflexivity|]. cbn. auto.
    + eexists; split; [reflexivity|]. cbn. auto.
  - destruct HR as (H1 & H2 & H3 & H4). destruct o; cbn [phase_step timer_step]; unfold require; rewrite ?H1, ?H2, ?H3; cbn [negb]; try reflexivity.
    + eexists; split; [reflexivity|]. cbn. auto.
    + rewrite avg_sum by assumption. eexists; split; [reflexivity|]. cbn. auto.
    + rewrite slowest_max. eexists; split; [reflexivity|]. cbn. auto.
    + rewrite avg_sum by assumption. eexists. split; [|cbn; eauto].
      do 3 f_equal. unfold w64. rewrite N.mul_comm. apply N.mod_small.
      assert (lenN laps <> 0) by (intros E; apply lenN_0 in E; congruence).
      pose proof (N.mul_div_le (sumlaps laps) (lenN laps)). lia.
    + eexists; split; [reflexivity|]. cbn. auto.
Qed.

Lemma timer_run_refines ops : forall t p, trep t p -> sums_ok p ops ->
  snd (timer_run t ops) = snd (phase_run p ops) /\ trep (fst (timer_run t ops)) (fst (phase_run p ops)).
Proof.
  induction ops as [|[now o] r IH]; intros t p HR HS; cbn [timer_run phase_run]; [auto|].
  cbn [sums_ok] in HS. destruct HS as [H1 H2]. pose proof (timer_step_refines t p now o HR H1) as HT.
  destruct (phase_step p now o) as [[p' v]|].
  - destruct HT as (t' & -> & HR'). specialize (IH t' p' HR' H2).
    destruct (timer_run t' r), (phase_run p' r). cbn in *. destruct IH as [-> IH]. auto.
  - rewrite HT. specialize (IH t p HR H2). destruct (timer_run t r), (phase_run p r). cbn in *. destruct IH as [-> IH]. auto.
Qed.

Lemma total_time_bounds laps : laps <> [] ->
  let total := lenN laps * (sumlaps laps / lenN laps) in
  total <= sumlaps laps < total + lenN laps /\ (total = sumlaps laps <-> (sumlaps laps) mod (lenN laps) = 0).
Proof.
  intros Hne. assert (lenN laps <> 0) by (intros E; apply lenN_0 in E; congruence).
  cbv zeta. pose proof (N.div_mod (sumlaps laps) (lenN laps) H). pose proof (N.mod_lt (sumlaps laps) (lenN laps) H). lia.
Qed.

(** ** ErrorStruct *)
Lemma err_value_only_success {T} (e : errstruct T) o e' v : err_step e o = Ret (e', Some v) ->
  e_success e = SUCCESS /\ e_value e = Some v.
Proof.
  unfold err_step, isSuccess. destruct e as [mv im sc val]; cbn [e_moved e_input_moved e_success e_value].
  destruct o; destruct mv, im, sc, val; cbn; intros E; try discriminate; injection E as _ <-; auto.
Qed.
Lemma err_moved_stays {T} ops : forall e : errstruct T, e_moved e = true -> e_moved (err_run e ops) = true.
Proof.
  induction ops as [|o r IH]; intros e He; cbn [err_run]; [exact He|].
  destruct (err_step e o) as [[e' x]| | |] eqn:E; try (apply IH; exact He). apply IH.
  unfold err_step in E. destruct o; rewrite ?He in E;
    repeat match type of E with context [match ?x with _ => _ end] => destruct x end; try discriminate; injection E as <- <-; cbn; auto.
Qed.
Lemma err_no_value_after_move {T} (e : errstruct T) e' v ops o :
  err_step e OpMove = Ret (e', v) -> o = OpValue \/ o = OpRef -> err_step (err_run e' ops) o = Throw LogicError.
Proof.
  intros E Ho. assert (Hm : e_moved e' = true).
  { unfold err_step in E. destruct (negb (isSuccess e)); [discriminate|]. destruct (e_value e); [|discriminate]. injection E as <- <-. reflexivity. }
  apply (err_moved_stays ops) in Hm. destruct Ho as [->| ->]; unfold err_step; rewrite Hm; reflexivity.
Qed.

(** ** ErrorStruct *)
Lemma run_app {T} (e : errstruct T) a b : err_run e (a ++ b) = err_run (err_run e a) b.
Proof. revert e. induction a as [|o a IH]; intros e; [reflexivity|]. cbn [app err_run]. destruct (err_step e o) as [[e' v]| | |]; apply IH. Qed.
Lemma err_members {T} (m : made T) ops : e_success (err_run (make m) ops) = success_at m ops /\ e_value (err_run (make m) ops) = value_at m ops /\
  e_input_moved (err_run (make m) ops) = match m with ByMove _ => true | _ => false end /\ (e_moved (err_run (make m) ops) = true <-> moved_at m ops).
Proof.
  induction ops as [|o ops IH] using rev_ind.
  - destruct m; repeat split; try discriminate; intros (b & a & E & _); destruct b; discriminate E.
  - destruct IH as (A & B & C & D). rewrite run_app. unfold success_at, value_at. rewrite !fold_left_app. fold (success_at m ops) (value_at m ops). cbn [fold_left].
    assert (moved_at m (ops ++ [o]) <-> moved_at m ops \/ (o = OpMove /\ result_at m ops <> None)) as M.
    { split.
      - intros (b & a & E & R). destruct a as [|x a] using rev_ind.
        + apply app_inj_tail in E as [<- <-]. right. split; [reflexivity|exact R].
        + rewrite app_comm_cons, app_assoc in E. apply app_inj_tail in E as [-> ->]. left. exists b, a. split; [reflexivity|exact R].
      - intros [(b & a & -> & R)|[-> R]]; [exists b, (a ++ [o]); rewrite <- app_assoc; split; [reflexivity|exact R]|exists ops, []; split; [reflexivity|exact R]]. }
    rewrite M. clear M. set (e := err_run (make m) ops) in *. cbn [err_run]. unfold result_at.
    destruct o as [ | | |v|s]; cbn [err_step]; unfold isSuccess; rewrite <- A, <- B in *.
    + destruct (e_moved e) eqn:Q; [cbn; repeat split; tauto || congruence|]. destruct (e_input_moved e) eqn:Q2, (e_success e) eqn:Q3; cbn [negb]; try destruct (e_value e) eqn:Q4; cbn; rewrite ?Q, ?Q2, ?Q3, ?Q4; repeat split; intuition congruence.
    + destruct (e_moved e) eqn:Q, (e_success e) eqn:Q3; cbn [negb]; try destruct (e_value e) eqn:Q4; cbn; rewrite ?Q, ?Q3, ?Q4; repeat split; intuition congruence.
    + destruct (e_success e) eqn:Q3; cbn [negb]; try destruct (e_value e) eqn:Q4; cbn; rewrite ?Q3, ?Q4; repeat split; intuition congruence.
    + cbn. repeat split; intuition congruence.
    + cbn. repeat split; intuition congruence.
Qed.
Lemma err_reference {T} (m : made T) ops :
  given (err_run (make m) ops) OpMove = result_at m ops /\
  (moved_at m ops -> given (err_run (make m) ops) OpRef = None) /\ (~ moved_at m ops -> given (err_run (make m) ops) OpRef = result_at m ops) /\
  given (err_run (make m) ops) OpValue = (match m with ByMove _ => None | _ => given (err_run (make m) ops) OpRef end) /\
  isSuccess (err_run (make m) ops) = match success_at m ops with SUCCESS => true | _ => false end /\
  (forall o, given (err_run (make m) ops) o = None -> match o with OpSet _ | OpSetSuccess _ => True | _ => err_step (err_run (make m) ops) o = Throw LogicError end).
Proof.
  destruct (err_members m ops) as (A & B & C & D). set (e := err_run (make m) ops) in *. unfold given, err_step, result_at, isSuccess. rewrite A, B, C.
  destruct (e_moved e) eqn:Q.
  - assert (moved_at m ops) as M by (apply D; reflexivity). split; [destruct (success_at m ops), (value_at m ops); reflexivity|]. split; [reflexivity|]. split; [contradiction|].
    split; [destruct m; reflexivity|]. split; [reflexivity|]. intros o; destruct o; trivial; destruct (success_at m ops), (value_at m ops); cbn; trivial; discriminate.
  - assert (~ moved_at m ops) as M by (intros M; apply D in M; discriminate). split; [destruct (success_at m ops), (value_at m ops); reflexivity|]. split; [contradiction|].
    split; [intros _; destruct (success_at m ops), (value_at m ops); reflexivity|]. split; [destruct m; reflexivity|]. split; [reflexivity|].
    intros o; destruct o; trivial; destruct m, (success_at _ ops), (value_at _ ops); cbn; trivial; discriminate.
Qed.
