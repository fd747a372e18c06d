(** How random strings are distributed: src/rng.cpp 8-38. *)
From Verif Require Import Base BytesModel BaseFacts BytesSpec BytesFacts MiscModel MiscSpec MiscFacts CountSpec CountFacts.
From Coq Require Import Lia FinFun.
Open Scope N_scope.
Open Scope list_scope.

Definition all_bytes : bytes := map n2b (below 256).
Definition sum (l : list N) : N := fold_right N.add 0 l.
Lemma all_bytes_in b : In b all_bytes.
Proof. apply in_map_iff. exists (b2n b). split; [apply n2b_b2n|]. apply in_below. apply b2n_lt. Qed.
Lemma all_bytes_nodup : NoDup all_bytes.
Proof.
  assert (map b2n all_bytes = below 256) as E by (vm_compute; reflexivity). apply (NoDup_map_inv b2n). rewrite E. apply below_nodup.
Qed.

Lemma number_false n (P : bytes -> Prop) : (forall l, ~ P l) -> number n P 0.
Proof. intros F. exists []. split; [constructor|]. split; [|reflexivity]. intros l. split; [intros []|intros [_ H]; elim (F l H)]. Qed.
Lemma number_nil_true (P : bytes -> Prop) : P [] -> number 0 P 1.
Proof.
  intros H. exists [[]]. split; [constructor; [intros []|constructor]|]. split; [|reflexivity]. intros l. split.
  - intros [<-|[]]. split; [reflexivity|exact H].
  - intros [L _]. left. symmetry. apply lenN_0. exact L.
Qed.
Lemma number_nil_false (P : bytes -> Prop) : ~ P [] -> number 0 P 0.
Proof. intros H. exists []. split; [constructor|]. split; [|reflexivity]. intros l. split; [intros []|]. intros [L Q]. apply lenN_0 in L. subst l. contradiction. Qed.

Lemma NoDup_app_intro {A} (l k : list A) : NoDup l -> NoDup k -> (forall x, In x l -> ~ In x k) -> NoDup (l ++ k).
Proof.
  induction l as [|a l IH]; intros D1 D2 D; [exact D2|]. apply NoDup_cons_iff in D1. destruct D1 as [Na D1]. cbn. constructor.
  - rewrite in_app_iff. intros [H|H]; [contradiction|]. apply (D a); [left; reflexivity|exact H].
  - apply IH; [exact D1|exact D2|]. intros x Hx. apply D. right. exact Hx.
Qed.
Lemma number_cons n (P : bytes -> Prop) k : (forall b, number n (fun l => P (b :: l)) (k b)) -> number (1 + n) P (sum (map k all_bytes)).
Proof.
  intros H.
  assert (forall bs, NoDup bs -> exists ls, NoDup ls /\ (forall l, In l ls <-> exists b r, l = b :: r /\ In b bs /\ lenN r = n /\ P l) /\ lenN ls = sum (map k bs)) as A.
  { induction bs as [|b bs IH]; intros D.
    - exists []. split; [constructor|]. split; [|reflexivity]. intros l. split; [intros []|intros (b & r & _ & [] & _)].
    - apply NoDup_cons_iff in D. destruct D as [Nb D]. destruct (IH D) as (ls & L1 & L2 & L3). destruct (H b) as (ms & M1 & M2 & M3).
      exists (map (cons b) ms ++ ls). split; [|split].
      + apply NoDup_app_intro; [apply Injective_map_NoDup; [intros x y E; congruence|exact M1]|exact L1|].
        intros l Hl Hl2. apply in_map_iff in Hl. destruct Hl as (r & <- & Hr). apply L2 in Hl2. destruct Hl2 as (b' & r' & E & Hb & _). congruence.
      + intros l. rewrite in_app_iff, in_map_iff. split.
        * intros [(r & <- & Hr)|Hl]; [apply M2 in Hr; exists b, r; split; [reflexivity|]; split; [left; reflexivity|]; exact Hr|].
          apply L2 in Hl. destruct Hl as (b' & r & E & Hb & Q). exists b', r. split; [exact E|]. split; [right; exact Hb|exact Q].
        * intros (b' & r & -> & [<-|Hb] & Lr & Q); [left; exists r; split; [reflexivity|]; apply M2; split; assumption|]. right. apply L2. exists b', r. auto.
      + cbn [map sum fold_right]. rewrite lenN_app, lenN_map, M3, L3. reflexivity. }
  destruct (A all_bytes all_bytes_nodup) as (ls & L1 & L2 & L3). exists ls. split; [exact L1|]. split; [|exact L3].
  intros l. rewrite L2. split.
  - intros (b & r & -> & _ & Lr & Q). split; [rewrite lenN_cons; lia|exact Q].
  - intros [Ll Q]. destruct l as [|b r]; [rewrite lenN_nil in Ll; lia|]. exists b, r. rewrite lenN_cons in Ll. split; [reflexivity|]. split; [apply all_bytes_in|]. split; [lia|exact Q].
Qed.
Lemma sum_two (p q : byte -> bool) A B bs :
  sum (map (fun b => if p b then A else if q b then B else 0) bs) = A * lenN (filter p bs) + B * lenN (filter (fun b => negb (p b) && q b) bs).
Proof.
  induction bs as [|b bs IH]; [change (0 = A * 0 + B * 0); lia|]. cbn [map sum fold_right filter]. fold (sum (map (fun b => if p b then A else if q b then B else 0) bs)). rewrite IH.
  destruct (p b); cbn [negb andb]; [rewrite lenN_cons; lia|]. destruct (q b); [rewrite lenN_cons; lia|lia].
Qed.

(** ** the letters of a list *)
Fixpoint cnt (L m : nat) : N :=
  match m, L with O, _ => 256 ^ N.of_nat L | S _, O => 0 | S m', S L' => cnt L' m' + 204 * cnt L' m end.
Fixpoint un (L m : nat) : N :=
  match m, L with O, _ => 0 | S _, O => 1 | S m', S L' => 52 * un L' m' + 204 * un L' m end.
Definition begins (s l : bytes) : Prop := takeN (lenN s) (filter is_letter l) = s.

Lemma letter_spec c : is_letter c = true <-> In c letters.
Proof.
  unfold is_letter. rewrite existsb_exists. split.
  - intros (x & Hx & E). apply Byte.byte_dec_bl in E. subst x. exact Hx.
  - intros H. exists c. split; [exact H|apply Byte.byte_dec_lb; reflexivity].
Qed.
Lemma letter_counts c : In c letters ->
  lenN (filter (fun b => Byte.eqb b c) all_bytes) = 1 /\ lenN (filter (fun b => negb (Byte.eqb b c) && negb (is_letter b)) all_bytes) = 204.
Proof.
  intros H. assert (forallb (fun c => (lenN (filter (fun b => Byte.eqb b c) all_bytes) =? 1) && (lenN (filter (fun b => negb (Byte.eqb b c) && negb (is_letter b)) all_bytes) =? 204)) letters = true) as F
    by (vm_compute; reflexivity).
  rewrite forallb_forall in F. specialize (F c H). apply andb_true_iff in F. rewrite !N.eqb_eq in F. exact F.
Qed.
Lemma letter_counts2 : lenN (filter is_letter all_bytes) = 52 /\ lenN (filter (fun b => negb (is_letter b) && true) all_bytes) = 204.
Proof. vm_compute. split; reflexivity. Qed.

Lemma number_true L : number (N.of_nat L) (fun _ => True) (256 ^ N.of_nat L).
Proof.
  induction L as [|L IH]; [apply number_nil_true; exact Logic.I|]. replace (N.of_nat (S L)) with (1 + N.of_nat L) by lia.
  replace (256 ^ (1 + N.of_nat L)) with (sum (map (fun _ : byte => 256 ^ N.of_nat L) all_bytes)); [apply number_cons; intros b; exact IH|].
  rewrite N.pow_add_r. change (256 ^ 1) with 256. generalize (256 ^ N.of_nat L) as v. intros v.
  pose proof (sum_two (fun _ => true) (fun _ => true) v v all_bytes) as E. cbn [negb andb] in E. rewrite E. replace (lenN (filter (fun _ => true) all_bytes)) with 256 by (vm_compute; reflexivity).
  replace (lenN (filter (fun _ => false) all_bytes)) with 0 by (vm_compute; reflexivity). lia.
Qed.

Lemma begins_number L : forall s, all_letters s -> number (N.of_nat L) (begins s) (cnt L (List.length s)).
Proof.
  induction L as [|L IH]; intros s F; destruct s as [|c s]; cbn [cnt List.length].
  - apply number_nil_true. reflexivity.
  - apply number_nil_false. unfold begins. cbn [filter]. destruct (N.to_nat (lenN (c :: s))) eqn:E; unfold takeN; rewrite E; cbn; discriminate.
  - eapply number_iff; [|apply (number_true (S L))]. intros l _. cbn. split; [intros _; reflexivity|intros _; exact Logic.I].
  - inversion F as [|? ? Hc Fs]; subst. destruct (letter_counts c Hc) as [C1 C2].
    replace (N.of_nat (S L)) with (1 + N.of_nat L) by lia.
    set (k := fun b : byte => if Byte.eqb b c then cnt L (List.length s) else if negb (is_letter b) then cnt L (S (List.length s)) else 0).
    replace (cnt L (List.length s) + 204 * cnt L (S (List.length s))) with (sum (map k all_bytes)).
    2:{ unfold k. rewrite (sum_two (fun b => Byte.eqb b c) (fun b => negb (is_letter b))). rewrite C1, C2. lia. }
    apply number_cons. intros b. unfold k. destruct (Byte.eqb b c) eqn:Eb.
    + apply Byte.byte_dec_bl in Eb. subst b. eapply number_iff; [|apply (IH s Fs)]. intros l _. unfold begins. cbn [filter].
      apply letter_spec in Hc. rewrite Hc. rewrite lenN_cons. unfold takeN. replace (N.to_nat (1 + lenN s)) with (S (N.to_nat (lenN s))) by lia. cbn [firstn].
      split; [intros ->; reflexivity|intros E; congruence].
    + destruct (is_letter b) eqn:El; cbn [negb].
      * apply number_false. intros l. unfold begins. cbn [filter]. rewrite El, lenN_cons. unfold takeN. replace (N.to_nat (1 + lenN s)) with (S (N.to_nat (lenN s))) by lia. cbn [firstn].
        intros E. injection E as E _. subst b. rewrite Byte.byte_dec_lb in Eb by reflexivity. discriminate.
      * eapply number_iff; [|apply (IH (c :: s) F)]. intros l _. unfold begins. cbn [filter]. rewrite El. reflexivity.
Qed.
Lemma few_number L : forall m, number (N.of_nat L) (fun l => lenN (filter is_letter l) < N.of_nat m) (un L m).
Proof.
  induction L as [|L IH]; intros m; destruct m as [|m]; cbn [un].
  - apply number_false. intros l. lia.
  - apply number_nil_true. cbn [filter]. rewrite lenN_nil. lia.
  - apply number_false. intros l. lia.
  - destruct letter_counts2 as [C1 C2]. replace (N.of_nat (S L)) with (1 + N.of_nat L) by lia.
    set (k := fun b : byte => if is_letter b then un L m else if true then un L (S m) else 0).
    replace (52 * un L m + 204 * un L (S m)) with (sum (map k all_bytes)).
    2:{ unfold k. rewrite (sum_two is_letter (fun b => true)). rewrite C1, C2. lia. }
    apply number_cons. intros b. unfold k. destruct (is_letter b) eqn:El.
    + eapply number_iff; [|apply (IH m)]. intros l _. cbn [filter]. rewrite El, lenN_cons. lia.
    + eapply number_iff; [|apply (IH (S m))]. intros l _. cbn [filter]. rewrite El. reflexivity.
Qed.

Lemma un_mono L : forall m, un L m <= un L (S m).
Proof. induction L as [|L IH]; intros m; [destruct m; cbn; lia|]. destruct m as [|m]; [cbn [un]; lia|]. pose proof (IH m). pose proof (IH (S m)). cbn [un] in *. lia. Qed.
Lemma total L : forall m, 52 ^ N.of_nat m * cnt L m + un L m = 256 ^ N.of_nat L.
Proof.
  induction L as [|L IH]; intros m; destruct m as [|m]; cbn [cnt un].
  - reflexivity.
  - change (256 ^ N.of_nat 0) with 1. lia.
  - change (52 ^ N.of_nat 0) with 1. lia.
  - pose proof (IH m) as A. pose proof (IH (S m)) as B. rewrite Nat2N.inj_succ, N.pow_succ_r' in *. rewrite (Nat2N.inj_succ L), N.pow_succ_r'.
    set (x := 52 ^ N.of_nat m) in *. set (y := 256 ^ N.of_nat L) in *. transitivity (52 * (x * cnt L m + un L m) + 204 * (52 * x * cnt L (S m) + un L (S m))); [lia|]. rewrite A, B. lia.
Qed.
Lemma un_le a : forall L m, un (a + L) m <= 256 ^ N.of_nat a * un L m.
Proof.
  induction a as [|a IH]; intros L m; [cbn; lia|]. destruct m as [|m]; [cbn [Nat.add un]; lia|]. cbn [Nat.add un]. pose proof (IH L m) as A. pose proof (IH L (S m)) as B. pose proof (un_mono L m) as C.
  rewrite Nat2N.inj_succ, N.pow_succ_r'. assert (256 ^ N.of_nat a * un L m <= 256 ^ N.of_nat a * un L (S m)) by (apply N.mul_le_mono_l; exact C). lia.
Qed.
Lemma un_lt a : forall L m, (m <= a)%nat -> un (a + L) m <= (256 ^ N.of_nat a - 52 ^ N.of_nat a) * un L m.
Proof.
  induction a as [|a IH]; intros L m Hm; [replace m with O by lia; destruct L; cbn [Nat.add un]; lia|]. destruct m as [|m]; [destruct L; cbn [Nat.add un]; lia|]. cbn [Nat.add un].
  pose proof (IH L m ltac:(lia)) as A. pose proof (un_le a L (S m)) as B. pose proof (un_mono L m) as C. rewrite Nat2N.inj_succ, !N.pow_succ_r'.
  pose proof (N.pow_le_mono_l 52 256 (N.of_nat a) ltac:(lia)) as D. set (x := 256 ^ N.of_nat a) in *. set (y := 52 ^ N.of_nat a) in *.
  assert ((x - y) * un L m <= (x - y) * un L (S m)) by (apply N.mul_le_mono_l; exact C). replace (256 * x - 52 * y) with (52 * (x - y) + 204 * x) by lia. lia.
Qed.
Lemma un_bound num k : un (k * num) num <= (256 ^ N.of_nat num - 52 ^ N.of_nat num) ^ N.of_nat k.
Proof.
  induction k as [|k IH]; [change (un 0 num <= 1); destruct num; cbn [un]; lia|]. cbn [Nat.mul]. etransitivity; [apply un_lt; lia|]. rewrite Nat2N.inj_succ, N.pow_succ_r'. apply N.mul_le_mono_l. exact IH.
Qed.

(** ** get_random_string *)
Lemma drawn_buffers num l k : forall i, lenN l = (N.of_nat i + N.of_nat k) * num -> drawn (buffers num l) i k = dropN (N.of_nat i * num) l.
Proof.
  induction k as [|k IH]; intros i L; cbn [drawn]; [symmetry; apply dropN_all; nia|]. rewrite IH by lia. unfold buffers. cbn beta iota.
  replace (N.of_nat (S i) * num) with (num + N.of_nat i * num) by lia. rewrite <- dropN_dropN. apply takeN_dropN.
Qed.
Lemma string_cases k num l : 1 <= num -> lenN l = N.of_nat k * num ->
  get_random_string k (buffers num l) num = if num <=? lenN (filter is_letter l) then Ret (takeN num (filter is_letter l)) else OutOfFuel.
Proof.
  intros Hn L. assert (drawn (buffers num l) 0 k = l) as D by (rewrite drawn_buffers by (cbn; exact L); reflexivity).
  assert (draws_work (buffers num l) k) as W by (intros j _; discriminate).
  destruct (N.leb_spec num (lenN (filter is_letter l))) as [C|C].
  - rewrite (get_random_string_ends (buffers num l) num k Hn W) with (fuel := k); rewrite ?D; auto.
  - pose proof (get_random_string_spec k (buffers num l) num) as S. destruct (get_random_string k (buffers num l) num) as [r|e|c|]; [exfalso|exfalso|contradiction|reflexivity].
    + destruct S as (_ & j & Hj & _ & G & _). destruct (drawn_more (buffers num l) k 0 j Hj) as (q & E). rewrite D in E. rewrite E, filter_app, lenN_app in C. lia.
    + destruct e; try contradiction; [lia|]. destruct S as (j & _ & _ & E & _). discriminate.
Qed.
Lemma string_number num k : 1 <= num -> exists c u,
  (forall s, all_letters s -> lenN s = num -> number (N.of_nat k * num) (fun l => get_random_string k (buffers num l) num = Ret s) c) /\
  number (N.of_nat k * num) (fun l => get_random_string k (buffers num l) num = OutOfFuel) u /\
  c * 52 ^ num + u = 256 ^ (N.of_nat k * num) /\ u <= (256 ^ num - 52 ^ num) ^ N.of_nat k.
Proof.
  intros Hn. set (n := N.to_nat num). assert (num = N.of_nat n) as En by lia. assert (N.of_nat k * num = N.of_nat (k * n)) as El by lia.
  exists (cnt (k * n) n), (un (k * n) n). split; [|split; [|split]].
  - intros s F Ls. rewrite El. assert (n = List.length s) as Es by (unfold lenN in Ls; lia). eapply (number_iff _ (begins s)); [|pose proof (begins_number (k * n) s F) as B; rewrite <- Es in B; exact B].
    intros l Hl. rewrite string_cases by lia. unfold begins. rewrite Ls. destruct (N.leb_spec num (lenN (filter is_letter l))) as [C|C].
    + split; [intros ->; reflexivity|intros E; congruence].
    + split; [|discriminate]. intros E. rewrite <- E, lenN_takeN in Ls. lia.
  - rewrite El. eapply number_iff; [|apply few_number]. intros l Hl. rewrite string_cases by lia. rewrite <- En. destruct (N.leb_spec num (lenN (filter is_letter l))); split; try discriminate; try reflexivity; lia.
  - rewrite El, En. rewrite N.mul_comm. apply total.
  - rewrite En. apply un_bound.
Qed.
