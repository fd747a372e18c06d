(** Lemmas for C95: how much work, how often the clock is read, what the duration depends on. *)
From Verif Require Import Base BaseFacts BytesModel BytesFacts MiscModel MiscFacts CipherModel CipherSpec CipherFacts CipherFacts2 PwModel PwSpec PwFacts ChModel ChSpec ChFacts ChFacts2
  HeaderModel HeaderSpec HeaderFacts HeaderFacts2 HeaderFacts3 HeaderFacts4 HeaderFacts5 HeaderFacts8 HeaderFacts9 FileModel ApiModel ApiSpec FileFacts FileFacts2 ApiFacts ApiFacts2 ApiFacts3 ApiFacts4 ApiFacts5 ApiFacts6 ApiFacts7
  WorkModel WorkSpec WorkFacts.
Open Scope N_scope.
Open Scope list_scope.
Ltac Zify.zify_post_hook ::= Z.div_mod_to_equations.

(** ** number of digests *)
Lemma digests_app a b : digests (a ++ b) = digests a + digests b.
Proof. unfold digests. rewrite filter_app, lenN_app. reflexivity. Qed.
Lemma digests_hash x l : digests (EvHash x :: l) = 1 + digests l.
Proof. unfold digests. cbn [filter is_hash]. apply lenN_cons. Qed.
Lemma digests_clock r l : digests (EvClock r :: l) = digests l.
Proof. reflexivity. Qed.
Lemma until_late_on t l : late t l = false -> until_late t l = l.
Proof.
  induction l as [|e l IH]; [reflexivity|]. cbn [late existsb until_late]. intros E. apply Bool.orb_false_iff in E as [-> E]. f_equal. apply IH. exact E.
Qed.
Lemma until_late_le t l : digests (until_late t l) <= digests l.
Proof.
  induction l as [|[x|r] l IH]; [reflexivity|cbn [until_late is_late]; rewrite !digests_hash; lia|]. rewrite until_late_clock, !digests_clock.
  destruct (t <=? r); [change (digests []) with 0; lia|exact IH].
Qed.
Lemma string_round_1 H m x t clk i : digests (string_round H m x t clk i) = 1.
Proof. unfold string_round. rewrite digests_hash. destruct (_ || _ || _); reflexivity. Qed.
Lemma bytes_round_1 H m x t clk i : digests (bytes_round H m x t clk i) = 1.
Proof. unfold bytes_round. rewrite digests_hash. destruct (_ || _); reflexivity. Qed.
Lemma rounds_count (g : nat -> list event) : (forall i, digests (g i) = 1) -> forall k i, digests (flat_map g (seq i k)) = N.of_nat k.
Proof. intros G. induction k as [|k IH]; intros i; [reflexivity|]. cbn [seq flat_map]. rewrite digests_app, G, IH. lia. Qed.
Lemma string_count H m x n t clk : digests (string_events H m x n t clk) <= n /\ (~ reached clk t (readings_string n) -> digests (string_events H m x n t clk) = n).
Proof.
  pose proof (rounds_count _ (string_round_1 H m x t clk) (N.to_nat n) 0) as C. split.
  - unfold string_events. pose proof (until_late_le t (flat_map (string_round H m x t clk) (seq 0 (N.to_nat n)))). lia.
  - intros R. rewrite <- string_late in R. unfold string_events in *. rewrite late_until in R. rewrite until_late_on; [lia|]. apply Bool.not_true_is_false. exact R.
Qed.
Lemma bytes_count H m x n t clk : digests (bytes_events H m x n t clk) <= n /\ (~ reached clk t (readings_bytes n) -> digests (bytes_events H m x n t clk) = n).
Proof.
  pose proof (rounds_count _ (bytes_round_1 H m x t clk) (N.to_nat n) 0) as C. split.
  - unfold bytes_events. pose proof (until_late_le t (flat_map (bytes_round H m x t clk) (seq 0 (N.to_nat n)))). lia.
  - intros R. rewrite <- bytes_late in R. unfold bytes_events in *. rewrite late_until in R. rewrite until_late_on; [lia|]. apply Bool.not_true_is_false. exact R.
Qed.
Section Count.
  Variable H : hashes.
  Lemma verify_count w h pw t : digests (verify_events H w h pw t) <= iterations (h_ch1 h) + iterations (h_ch2 h) /\
    (verify_in_time w t (iterations (h_ch1 h)) (iterations (h_ch2 h)) -> digests (verify_events H w h pw t) = iterations (h_ch1 h) + iterations (h_ch2 h)).
  Proof.
    unfold verify_events. cbv zeta. unfold first_events, second_events.
    destruct (string_count (hash_of H (h_hmode h)) (salts (h_ch1 h)) pw (iterations (h_ch1 h)) t (w_clk1 w)) as [A1 A2].
    destruct (bytes_count (hash_of H (h_hmode h)) (salts (h_ch2 h)) (key_of H h pw) (iterations (h_ch2 h)) ((t + 2 ^ 64 - w_elapsed w) mod 2 ^ 64) (w_clk2 w)) as [B1 B2]. split.
    - destruct (late t _); [lia|]. rewrite digests_app, digests_clock. destruct (_ && _); [change (digests []) with 0|]; lia.
    - intros (T1 & T2 & T3). rewrite <- string_late with (H := hash_of H (h_hmode h)) (m := salts (h_ch1 h)) (x := pw) in T1.
      destruct (late t _) eqn:E; [exfalso; auto|]. rewrite digests_app, digests_clock.
      assert (negb (t =? 0) && (w_elapsed w =? t) = false) as ->.
      { destruct (N.eqb_spec t 0) as [Z|Z]; [reflexivity|]. destruct (N.eqb_spec (w_elapsed w) t) as [Q|Q]; [|reflexivity]. exfalso. exact (T2 Z Q). }
      rewrite (B2 T3), A2; [reflexivity|]. rewrite <- string_late, E. discriminate.
  Qed.
  Lemma create_count w h pw t : digests (create_events H w h pw t) <= iterations (h_ch1 h) + iterations (h_ch2 h) /\
    (create_in_time w t (iterations (h_ch1 h)) (iterations (h_ch2 h)) -> digests (create_events H w h pw t) = iterations (h_ch1 h) + iterations (h_ch2 h)).
  Proof.
    unfold create_events. cbv zeta. unfold first_events, second_events.
    destruct (string_count (hash_of H (h_hmode h)) (salts (h_ch1 h)) pw (iterations (h_ch1 h)) t (w_clk1 w)) as [A1 A2].
    destruct (bytes_count (hash_of H (h_hmode h)) (salts (h_ch2 h)) (key_of H h pw) (iterations (h_ch2 h)) (t - w_elapsed w) (w_clk2 w)) as [B1 B2]. split.
    - destruct (late t _); [lia|]. rewrite digests_app, digests_clock. destruct (_ && _); [change (digests []) with 0|]; lia.
    - intros (T1 & T2 & T3). rewrite <- string_late with (H := hash_of H (h_hmode h)) (m := salts (h_ch1 h)) (x := pw) in T1.
      destruct (late t _) eqn:E; [exfalso; auto|]. rewrite digests_app, digests_clock.
      assert (negb (t =? 0) && (t <=? w_elapsed w) = false) as ->.
      { destruct (N.eqb_spec t 0) as [Z|Z]; [reflexivity|]. destruct (N.leb_spec t (w_elapsed w)) as [Q|Q]; [|reflexivity]. specialize (T2 Z). lia. }
      rewrite (B2 T3), A2; [reflexivity|]. rewrite <- string_late, E. discriminate.
  Qed.
End Count.

(** ** what the duration depends on *)
Lemma seen_app a b : seen (a ++ b) = seen a ++ seen b.
Proof. apply map_app. Qed.
Lemma seen_late t : forall l l', seen l = seen l' -> late t l = late t l' /\ seen (until_late t l) = seen (until_late t l').
Proof.
  induction l as [|e l IH]; intros [|e' l'] E; try discriminate E; [auto|]. injection E as E1 E2. destruct (IH l' E2) as [I1 I2].
  assert (is_late t e = is_late t e') as Q by (destruct e, e'; try discriminate; [reflexivity|injection E1 as ->; reflexivity]).
  cbn [late existsb until_late]. rewrite Q. split; [f_equal; exact I1|]. destruct (is_late t e'); cbn [seen map]; rewrite E1; [reflexivity|]. f_equal. exact I2.
Qed.
Lemma seen_rounds (g g' : nat -> list event) : (forall i, seen (g i) = seen (g' i)) -> forall l, seen (flat_map g l) = seen (flat_map g' l).
Proof. intros G. induction l as [|i l IH]; [reflexivity|]. cbn [flat_map]. rewrite !seen_app, G, IH. reflexivity. Qed.
Lemma input_len (H : bytes -> bytes) n m x x' i : (forall y, lenN (H y) = n) -> lenN x = lenN x' -> lenN (input H m x i) = lenN (input H m x' i).
Proof.
  intros Hn L. destruct i as [|i]; cbn [input]; rewrite !lenN_app; [congruence|]. f_equal. destruct i; cbn [iterated]; rewrite !Hn; reflexivity.
Qed.
Lemma string_seen (H : bytes -> bytes) d m x x' n t clk : (forall y, lenN (H y) = d) -> lenN x = lenN x' ->
  late t (string_events H m x n t clk) = late t (string_events H m x' n t clk) /\ seen (string_events H m x n t clk) = seen (string_events H m x' n t clk).
Proof.
  intros Hn L. unfold string_events. rewrite !late_until. apply seen_late. apply seen_rounds. intros i. unfold string_round. cbn [seen map]. f_equal. f_equal. exact (input_len H d m x x' i Hn L).
Qed.
Lemma bytes_seen (H : bytes -> bytes) d m x x' n t clk : (forall y, lenN (H y) = d) -> lenN x = lenN x' ->
  seen (bytes_events H m x n t clk) = seen (bytes_events H m x' n t clk).
Proof.
  intros Hn L. unfold bytes_events. apply seen_late. apply seen_rounds. intros i. unfold bytes_round. cbn [seen map]. f_equal. f_equal. exact (input_len H d m x x' i Hn L).
Qed.
Section Seen.
  Variable H : hashes.
  Hypothesis HH : hashes_ok H.
  Lemma hash_of_len m : exists d, forall y, lenN (hash_of H m y) = d.
  Proof using HH. destruct HH as (A & B & C). unfold hash_of. destruct m as [|[p|p|]]; eauto. destruct p; eauto. Qed.
  Lemma key_len h pw pw' : lenN (key_of H h pw) = lenN (key_of H h pw').
  Proof using HH.
    destruct (hash_of_len (h_hmode h)) as [d D]. unfold key_of, chain_value. generalize (N.to_nat (snd (fst (h_ch1 h)) - 1)). intros k. destruct k; cbn [iterated]; rewrite !D; reflexivity.
  Qed.
  Lemma verify_seen w h pw pw' t : lenN pw = lenN pw' -> seen (verify_events H w h pw t) = seen (verify_events H w h pw' t).
  Proof using HH.
    intros L. unfold verify_events. cbv zeta. unfold first_events, second_events. destruct (hash_of_len (h_hmode h)) as [d D].
    destruct (string_seen _ d (salts (h_ch1 h)) pw pw' (iterations (h_ch1 h)) t (w_clk1 w) D L) as [A B]. rewrite A. clear A. destruct (late t _); [exact B|].
    rewrite !seen_app, B. f_equal. cbn [seen map]. f_equal. destruct (_ && _); [reflexivity|]. apply (bytes_seen _ d _ _ _ _ _ _ D). apply key_len.
  Qed.
  Lemma create_seen w h pw pw' t : lenN pw = lenN pw' -> seen (create_events H w h pw t) = seen (create_events H w h pw' t).
  Proof using HH.
    intros L. unfold create_events. cbv zeta. unfold first_events, second_events. destruct (hash_of_len (h_hmode h)) as [d D].
    destruct (string_seen _ d (salts (h_ch1 h)) pw pw' (iterations (h_ch1 h)) t (w_clk1 w) D L) as [A B]. rewrite A. clear A. destruct (late t _); [exact B|].
    rewrite !seen_app, B. f_equal. cbn [seen map]. f_equal. destruct (_ && _); [reflexivity|]. apply (bytes_seen _ d _ _ _ _ _ _ D). apply key_len.
  Qed.
End Seen.

(** ** nothing after a late reading *)
Lemma until_late_fix t l : until_late t l = l -> stops t l.
Proof.
  intros E a. revert l E. induction a as [|e a IH]; intros l E r b -> L; cbn [app until_late is_late] in E.
  - destruct (N.leb_spec t r); [|lia]. injection E as <-. reflexivity.
  - destruct (is_late t e); [injection E as E; destruct a; discriminate|]. injection E as E. exact (IH _ E _ _ eq_refl L).
Qed.
Lemma until_late_app t a b : late t a = false -> until_late t (a ++ b) = a ++ until_late t b.
Proof.
  induction a as [|e a IH]; [reflexivity|]. cbn [late existsb until_late app]. intros E. apply Bool.orb_false_iff in E as [-> E]. f_equal. apply IH. exact E.
Qed.
Lemma until_late_twice t t' l : t' <= t -> until_late t (until_late t' l) = until_late t' l.
Proof.
  intros L. induction l as [|[x|r] l IH]; [reflexivity|cbn [until_late is_late]; f_equal; exact IH|]. rewrite (until_late_clock t').
  destruct (N.leb_spec t' r); rewrite until_late_clock; [destruct (t <=? r); reflexivity|]. destruct (N.leb_spec t r); [lia|]. f_equal. exact IH.
Qed.
Lemma create_stops H w h pw t : t <> 0 -> stops t (create_events H w h pw t).
Proof.
  intros T. apply until_late_fix. unfold create_events. cbv zeta. destruct (late t _) eqn:E; [apply until_late_twice; lia|].
  rewrite until_late_app by exact E. f_equal. rewrite until_late_clock. f_equal. destruct (N.eqb_spec t 0) as [Z|_]; [contradiction|]. cbn [negb andb].
  destruct (t <=? w_elapsed w); [reflexivity|]. apply until_late_twice. lia.
Qed.
Lemma first_stops H h pw t clk : stops t (first_events H h pw t clk).
Proof. apply until_late_fix. apply until_late_twice. lia. Qed.
(** verifyPassword goes on after the limit *)
Lemma verify_runs_on H w h pw t : t <> 0 -> t < w_elapsed w -> w_elapsed w < 2 ^ 64 -> ~ reached (w_clk1 w) t (readings_string (iterations (h_ch1 h))) ->
  (forall i, w_clk2 w i < 2 ^ 64 - (w_elapsed w - t)) -> exists b, verify_events H w h pw t = first_events H h pw t (w_clk1 w) ++ EvClock (w_elapsed w) :: b /\ digests b = iterations (h_ch2 h).
Proof.
  intros T L Le R C. unfold verify_events. cbv zeta. unfold first_events at 1. destruct (late t _) eqn:E; [exfalso; apply R; apply (proj1 (string_late _ _ _ _ _ _) E)|].
  destruct (N.eqb_spec (w_elapsed w) t) as [Q|Q]; [lia|]. rewrite Bool.andb_false_r. eexists. split; [reflexivity|]. unfold second_events. apply bytes_count.
  intros (_ & k & _ & K). specialize (C k). rewrite N.mod_small in K by lia. lia.
Qed.

(** ** the clock is read often enough *)
Fixpoint steady (n cur : N) (l : list event) : Prop :=
  match l with [] => True | EvHash _ :: r => cur + 1 <= n /\ steady n (cur + 1) r | EvClock _ :: r => steady n 0 r end.
Lemma steady_less n l : forall c c', c' <= c -> steady n c l -> steady n c' l.
Proof. induction l as [|[x|r] l IH]; intros c c' L S; [exact I| |exact S]. cbn [steady] in *. split; [lia|]. apply (IH (c + 1)); [lia|apply S]. Qed.
Lemma steady_drop n a : forall c l, steady n c (a ++ l) -> steady n 0 l.
Proof.
  induction a as [|[x|r] a IH]; intros c l S; cbn [app steady] in S; [exact (steady_less n l c 0 ltac:(lia) S)|exact (IH _ _ (proj2 S))|exact (IH _ _ S)].
Qed.
Lemma steady_run n b : forall cur c, cur <= n -> steady n cur (b ++ c) -> forallb is_hash b = true -> cur + lenN b <= n.
Proof.
  induction b as [|[x|r] b IH]; intros cur c L S F; [change (lenN (@nil event)) with 0; lia| |discriminate].
  cbn [app steady] in S. rewrite lenN_cons. specialize (IH (cur + 1) c (proj1 S) (proj2 S) F). lia.
Qed.
Lemma steady_paced n l : steady n 0 l -> paced n l.
Proof. intros S a b c -> F. apply steady_drop in S. pose proof (steady_run n b 0 c ltac:(lia) S F). lia. Qed.
Lemma steady_until n t l : forall c, steady n c l -> steady n c (until_late t l).
Proof.
  induction l as [|[x|r] l IH]; intros c S; [exact I| |].
  - cbn [until_late is_late steady] in *. split; [apply S|apply IH, S].
  - rewrite until_late_clock. cbn [steady] in *. destruct (t <=? r); [exact I|apply IH, S].
Qed.
Lemma steady_app n x l' : steady n 0 l' -> forall l c, steady n c l -> steady n c (l ++ EvClock x :: l').
Proof. intros S'. induction l as [|[y|r] l IH]; intros c S; cbn [app steady] in *; [exact S'|split; [apply S|apply IH, S]|apply IH, S]. Qed.
Lemma string_steady H m x t clk : t <> 0 -> forall k i, steady 1001 (N.of_nat (if Nat.leb i 1000 then i else (i - 1) mod 1000)) (flat_map (string_round H m x t clk) (seq i k)).
Proof.
  intros T. induction k as [|k IH]; intros i; [exact I|]. cbn [seq flat_map]. unfold string_round at 1. cbn [app steady]. specialize (IH (S i)).
  destruct (N.eqb_spec t 0) as [Z|_]; [contradiction|]. cbn [orb]. destruct (Nat.eqb_spec i 0) as [Z|Z]; cbn [orb app].
  - subst i. split; [destruct (Nat.leb_spec 0 1000); lia|]. refine (steady_less _ _ _ _ _ IH). destruct (Nat.leb_spec 0 1000), (Nat.leb_spec 1 1000); lia.
  - destruct (Nat.eqb_spec (i mod 1000) 0) as [E|E]; cbn [negb app steady].
    + split; [destruct (Nat.leb_spec i 1000); lia|]. refine (steady_less _ _ _ _ _ IH). lia.
    + split; [destruct (Nat.leb_spec i 1000); lia|]. refine (steady_less _ _ _ _ _ IH). destruct (Nat.leb_spec i 1000), (Nat.leb_spec (S i) 1000); lia.
Qed.
Lemma bytes_steady H m x t clk : t <> 0 -> forall k i, steady 1001 (N.of_nat (match i with O => 0%nat | S j => j mod 1000 end)) (flat_map (bytes_round H m x t clk) (seq i k)).
Proof.
  intros T. induction k as [|k IH]; intros i; [exact I|]. cbn [seq flat_map]. unfold bytes_round at 1. cbn [app steady]. specialize (IH (S i)).
  destruct (N.eqb_spec t 0) as [Z|_]; [contradiction|]. cbn [orb].
  destruct (Nat.eqb_spec (i mod 1000) 0) as [E|E]; cbn [negb app steady].
  - split; [destruct i; lia|]. refine (steady_less _ _ _ _ _ IH). lia.
  - split; [destruct i; lia|]. refine (steady_less _ _ _ _ _ IH). destruct i; lia.
Qed.
Lemma string_events_steady H m x n t clk : t <> 0 -> steady 1001 0 (string_events H m x n t clk).
Proof. intros T. apply steady_until. exact (string_steady H m x t clk T (N.to_nat n) 0). Qed.
Lemma bytes_events_steady H m x n t clk : t <> 0 -> steady 1001 0 (bytes_events H m x n t clk).
Proof. intros T. apply steady_until. exact (bytes_steady H m x t clk T (N.to_nat n) 0). Qed.
Lemma verify_paced H w h pw t : t <> 0 -> t < 2 ^ 64 -> w_elapsed w < 2 ^ 64 -> paced 1001 (verify_events H w h pw t).
Proof.
  intros T Lt Le. apply steady_paced. unfold verify_events. cbv zeta. destruct (late t _); [apply string_events_steady; exact T|].
  apply steady_app; [|apply string_events_steady; exact T]. destruct (N.eqb_spec t 0) as [Z|_]; [contradiction|]. cbn [negb andb].
  destruct (N.eqb_spec (w_elapsed w) t) as [Q|Q]; [exact I|]. apply bytes_events_steady. pose proof (sub64_zero t (w_elapsed w) Lt Le) as Z.
  destruct (N.eqb_spec t (w_elapsed w)) as [Y|_]; [congruence|]. apply N.eqb_neq in Z. exact Z.
Qed.
Lemma create_paced H w h pw t : t <> 0 -> paced 1001 (create_events H w h pw t).
Proof.
  intros T. apply steady_paced. unfold create_events. cbv zeta. destruct (late t _); [apply string_events_steady; exact T|].
  apply steady_app; [|apply string_events_steady; exact T]. destruct (N.eqb_spec t 0) as [Z|_]; [contradiction|]. cbn [negb andb].
  destruct (N.leb_spec t (w_elapsed w)) as [Q|Q]; [exact I|]. apply bytes_events_steady. lia.
Qed.

(** ** one after the other *)
Definition follows (D : bytes -> bytes) (p : option bytes) (y : bytes) : Prop := match p with Some x => exists s, y = D x ++ s | None => True end.
Fixpoint linked (D : bytes -> bytes) (p : option bytes) (l : list event) : Prop :=
  match l with [] => True | EvHash x :: r => follows D p x /\ linked D (Some x) r | EvClock _ :: r => linked D p r end.
Fixpoint last_text (p : option bytes) (l : list event) : option bytes :=
  match l with [] => p | EvHash x :: r => last_text (Some x) r | EvClock _ :: r => last_text p r end.
Lemma texts_hash x l : texts (EvHash x :: l) = x :: texts l.
Proof. reflexivity. Qed.
Lemma texts_clock r l : texts (EvClock r :: l) = texts l.
Proof. reflexivity. Qed.
Lemma linked_sequential D l : forall p, linked D p l -> (forall y b, texts l = y :: b -> follows D p y) /\ sequential D l.
Proof.
  induction l as [|[x|r] l IH]; intros p L.
  - split; [discriminate|]. intros a x y b E. destruct a; discriminate.
  - cbn [linked] in L. destruct L as [F L]. destruct (IH _ L) as [I1 I2]. split.
    + rewrite texts_hash. intros y b [= <- _]. exact F.
    + intros a u y b. rewrite texts_hash. destruct a as [|z a]; cbn [app]; intros [= E1 E2]; [subst u; exact (I1 _ _ E2)|exact (I2 _ _ _ _ E2)].
  - destruct (IH p L) as [I1 I2]. split; [exact I1|exact I2].
Qed.
Lemma linked_app D l l' : forall p, linked D p l -> linked D (last_text p l) l' -> linked D p (l ++ l').
Proof. induction l as [|[x|r] l IH]; intros p L L'; cbn [app linked last_text] in *; [exact L'|split; [apply L|apply IH; [apply L|exact L']]|apply IH; assumption]. Qed.
Lemma linked_until D t l : forall p, linked D p l -> linked D p (until_late t l).
Proof.
  induction l as [|[x|r] l IH]; intros p L; [exact I| |].
  - cbn [until_late is_late linked] in *. split; [apply L|apply IH, L].
  - rewrite until_late_clock. cbn [linked] in *. destruct (t <=? r); [exact I|apply IH, L].
Qed.
Definition ends_with (D : bytes -> bytes) (m : saltmode) (x : bytes) (g : nat -> list event) : Prop :=
  forall i, exists l, g i = EvHash (input D m x i) :: l /\ forall r, In r l -> is_hash r = false.
Lemma quiet_linked D l l' : (forall r, In r l -> is_hash r = false) -> forall p, linked D p l' -> linked D p (l ++ l').
Proof.
  induction l as [|[x|r] l IH]; intros Q p L; cbn [app linked]; [exact L|specialize (Q _ (or_introl eq_refl)); discriminate|]. apply IH; [intros y J; apply Q; right; exact J|exact L].
Qed.
Lemma quiet_last l l' : (forall r, In r l -> is_hash r = false) -> forall p, last_text p (l ++ l') = last_text p l'.
Proof.
  induction l as [|[x|r] l IH]; intros Q p; cbn [app last_text]; [reflexivity|specialize (Q _ (or_introl eq_refl)); discriminate|]. apply IH. intros y J; apply Q; right; exact J.
Qed.
Lemma chain_linked D m x g : ends_with D m x g -> forall k i p, follows D p (input D m x i) -> linked D p (flat_map g (seq i k)) /\
  last_text p (flat_map g (seq i k)) = match k with O => p | S j => Some (input D m x (i + j)) end.
Proof.
  intros G. induction k as [|k IH]; intros i p F; [split; [exact I|reflexivity]|]. cbn [seq flat_map]. destruct (G i) as (l & -> & Q). cbn [app linked last_text].
  assert (follows D (Some (input D m x i)) (input D m x (S i))) as F' by (exists (salt_at m (N.of_nat (S i))); destruct i; reflexivity).
  destruct (IH (S i) (Some (input D m x i)) F') as [I1 I2]. split.
  - split; [exact F|]. apply quiet_linked; assumption.
  - rewrite (quiet_last _ _ Q), I2. destruct k as [|k]; f_equal; f_equal; lia.
Qed.
Lemma string_ends D m x t clk : ends_with D m x (string_round D m x t clk).
Proof. intros i. eexists. split; [reflexivity|]. intros r. destruct (_ || _ || _); [intros []|intros [<-|[]]; reflexivity]. Qed.
Lemma bytes_ends D m x t clk : ends_with D m x (bytes_round D m x t clk).
Proof. intros i. eexists. split; [reflexivity|]. intros r. destruct (_ || _); [intros []|intros [<-|[]]; reflexivity]. Qed.
Lemma iterated_input D m x n : iterated D m x n = D (input D m x n).
Proof. destruct n; reflexivity. Qed.
Lemma two_chains D m1 m2 pw n1 n2 t t2 clk clk2 y : 1 <= n1 -> late t (string_events D m1 pw n1 t clk) = false ->
  linked D None (string_events D m1 pw n1 t clk ++ EvClock y :: bytes_events D m2 (iterated D m1 pw (N.to_nat (n1 - 1))) n2 t2 clk2).
Proof.
  intros L E. unfold string_events in *. rewrite late_until in E. rewrite until_late_on by exact E.
  destruct (chain_linked D m1 pw _ (string_ends D m1 pw t clk) (N.to_nat n1) 0 None I) as [I1 I2]. apply linked_app; [exact I1|]. rewrite I2.
  replace (N.to_nat n1) with (S (N.to_nat (n1 - 1))) by lia. cbn [linked]. apply linked_until.
  refine (proj1 (chain_linked D m2 _ _ (bytes_ends D m2 _ t2 clk2) (N.to_nat n2) 0 _ _)).
  cbn [input follows Nat.add]. exists (salt_at m2 0). rewrite iterated_input. reflexivity.
Qed.
Lemma first_linked D m pw n t clk : linked D None (string_events D m pw n t clk).
Proof. apply linked_until. apply (chain_linked D m pw _ (string_ends D m pw t clk) (N.to_nat n) 0 None I). Qed.
Lemma verify_sequential H w h pw t : 1 <= iterations (h_ch1 h) -> sequential (hash_of H (h_hmode h)) (verify_events H w h pw t).
Proof.
  intros L. apply (linked_sequential _ _ None). unfold verify_events. cbv zeta. destruct (late t _) eqn:E; [apply first_linked|].
  destruct (_ && _); [apply linked_app; [apply first_linked|exact I]|]. apply two_chains; assumption.
Qed.
Lemma create_sequential H w h pw t : 1 <= iterations (h_ch1 h) -> sequential (hash_of H (h_hmode h)) (create_events H w h pw t).
Proof.
  intros L. apply (linked_sequential _ _ None). unfold create_events. cbv zeta. destruct (late t _) eqn:E; [apply first_linked|].
  destruct (_ && _); [apply linked_app; [apply first_linked|exact I]|]. apply two_chains; assumption.
Qed.

(** ** calls *)
Section CallWork.
  Variable H : hashes.
  Hypothesis HH : hashes_ok H.
  Variable bd : build.
  Lemma written_iters c hsz l1 l2 h rest : written_as c hsz l1 l2 h rest -> 1 <= iterations (h_ch1 h) <= 1000000000 /\ 1 <= iterations (h_ch2 h) <= 1000000000.
  Proof. intros ((_ & _ & _ & _ & (_ & A & _) & (_ & B & _) & _) & _). unfold iterations. lia. Qed.
  Lemma complete_settings ds : set_isComplete ds = true -> settings_complete ds.
  Proof. apply complete_iff. Qed.
  Lemma created_exists w ds pw : settings_complete ds -> exists h, created H w ds pw h.
  Proof.
    intros (_ & A & B1 & B2 & C1 & C2). unfold created, opens.
    destruct (s_hmode ds) as [hm|]; [|contradiction]. destruct (s_ch1 ds) as [m1|]; [|contradiction]. destruct (s_ch2 ds) as [m2|]; [|contradiction].
    destruct (s_n1 ds) as [n1|]; [|contradiction]. destruct (s_n2 ds) as [n2|]; [|contradiction].
    pose (x1 := (m1, n1, w_rnd w 0 (mode_size m1))). pose (x2 := (m2, n2, w_rnd w 1 (mode_size m2))).
    exists (mkHeader 1 hm (map (fun b => (db_type b, bdata (db_data b))) (s_dec ds)) x1 x2
      (chain_value (hash_of H hm) x2 (chain_value (hash_of H hm) x1 pw)) (w_rnd w 2 (digest_len hm))
      (map (fun e => (db_type (eb_block e), eb_len e, bdata (db_data (eb_block e)))) (s_enc ds))).
    cbn [h_fmode h_hmode h_blocks h_ch1 h_ch2 h_valid h_salt h_encs]. spl; try reflexivity; eexists _, _; spl; reflexivity.
  Qed.
  Lemma verify_call_work mode tr a w f p c hsz l1 l2 h rest pw t : history bd H mode tr a -> world_ok bd H w -> t < 2 ^ 64 -> a_state a = FILE_SELECTED ->
    selected tr = Some (p, c) -> written_as c hsz l1 l2 h rest ->
    digests (fst (step_w w a f (OVerify pw t))) <= iterations (h_ch1 h) + iterations (h_ch2 h) /\
    (verify_in_time w t (iterations (h_ch1 h)) (iterations (h_ch2 h)) -> digests (fst (step_w w a f (OVerify pw t))) = iterations (h_ch1 h) + iterations (h_ch2 h)).
  Proof using HH. intros P W L S Q Wr. rewrite (verify_call H HH bd mode tr a w f p c hsz l1 l2 h rest pw t P W L S Q Wr). apply verify_count. Qed.
  Lemma create_call_work mode tr a w f ds pw t n1 n2 : history bd H mode tr a -> world_ok bd H w -> t < 2 ^ 64 -> a_state a = EMPTY_FILE_SELECTED \/ a_state a = DECRYPTED ->
    settings_made ds -> settings_complete ds -> s_n1 ds = Some n1 -> s_n2 ds = Some n2 ->
    digests (fst (step_w w a f (OHeader pw ds t))) <= n1 + n2 /\ (create_in_time w t n1 n2 -> digests (fst (step_w w a f (OHeader pw ds t))) = n1 + n2).
  Proof using HH.
    intros P W L S SM SC E1 E2. destruct (created_exists w ds pw SC) as [h Cr]. rewrite (create_call H HH bd mode tr a w f ds pw t h P W L S SM SC Cr).
    destruct Cr as (_ & _ & (m1 & k1 & G1 & G2 & G3) & (m2 & k2 & G4 & G5 & G6) & _). assert (n1 = iterations (h_ch1 h)) as -> by (rewrite G3; cbn; congruence). assert (n2 = iterations (h_ch2 h)) as -> by (rewrite G6; cbn; congruence).
    apply create_count.
  Qed.
  Lemma quiet_call w a f o : (forall pw t, o = OVerify pw t -> a_state a <> FILE_SELECTED) ->
    (forall pw ds t, o = OHeader pw ds t -> settings_complete ds -> a_state a <> EMPTY_FILE_SELECTED /\ a_state a <> DECRYPTED) -> fst (step_w w a f o) = [].
  Proof.
    intros A B. unfold step_w. destruct o; try reflexivity; destruct (a_state a) eqn:Es; try reflexivity.
    - exfalso. apply (A _ _ eq_refl). reflexivity.
    - destruct (set_isComplete ds) eqn:C; [|reflexivity]. exfalso. destruct (B _ _ _ eq_refl (complete_settings _ C)) as [X _]. apply X. reflexivity.
    - destruct (set_isComplete ds) eqn:C; [|reflexivity]. exfalso. destruct (B _ _ _ eq_refl (complete_settings _ C)) as [_ X]. apply X. reflexivity.
  Qed.
  Lemma bounded_work mode tr a w f o : history bd H mode tr a -> world_ok bd H w -> op_ok o -> digests (fst (step_w w a f o)) <= 2000000000.
  Proof using HH.
    intros P W Ok. assert (forall l : list event, l = [] -> digests l <= 2000000000) as Z by (intros l ->; change (digests []) with 0; lia).
    destruct o; try (apply Z; reflexivity).
    - destruct (a_state a) eqn:Es; try (apply Z; unfold step_w; rewrite Es; reflexivity).
      destruct (selected_header H HH bd mode tr a P Es) as (p & c & hsz & l1 & l2 & h & rest & Q & Wr).
      destruct (verify_call_work mode tr a w f p c hsz l1 l2 h rest pw timeout P W Ok Es Q Wr) as [X _]. destruct (written_iters _ _ _ _ _ _ Wr). lia.
    - destruct Ok as [SM Lt]. destruct (set_isComplete ds) eqn:C.
      + destruct (settings_in_range ds SM C) as (hm & m1 & m2 & n1 & n2 & F0 & F1 & F2 & F3 & F4 & F5 & R1 & R2 & R3 & R4 & R5).
        destruct (a_state a) eqn:Es; try (apply Z; unfold step_w; rewrite Es; reflexivity);
          [destruct (create_call_work mode tr a w f ds pw timeout n1 n2 P W Lt (or_introl Es) SM (complete_settings _ C) F4 F5) as [X _]
          |destruct (create_call_work mode tr a w f ds pw timeout n1 n2 P W Lt (or_intror Es) SM (complete_settings _ C) F4 F5) as [X _]]; lia.
      + apply Z. unfold step_w. rewrite C. destruct (a_state a); reflexivity.
  Qed.
  Lemma verify_call_seen mode tr a w f pw pw' t : history bd H mode tr a -> world_ok bd H w -> t < 2 ^ 64 -> lenN pw = lenN pw' ->
    seen (fst (step_w w a f (OVerify pw t))) = seen (fst (step_w w a f (OVerify pw' t))).
  Proof using HH.
    intros P W L Lp. destruct (a_state a) eqn:Es; try (unfold step_w; rewrite Es; reflexivity).
    destruct (selected_header H HH bd mode tr a P Es) as (p & c & hsz & l1 & l2 & h & rest & Q & Wr).
    rewrite !(verify_call H HH bd mode tr a w f p c hsz l1 l2 h rest _ t P W L Es Q Wr). apply verify_seen; assumption.
  Qed.
  Lemma verify_call_sequential mode tr a w f p c hsz l1 l2 h rest pw t : history bd H mode tr a -> world_ok bd H w -> t < 2 ^ 64 -> a_state a = FILE_SELECTED ->
    selected tr = Some (p, c) -> written_as c hsz l1 l2 h rest -> sequential (hash_of H (h_hmode h)) (fst (step_w w a f (OVerify pw t))).
  Proof using HH. intros P W L S Q Wr. rewrite (verify_call H HH bd mode tr a w f p c hsz l1 l2 h rest pw t P W L S Q Wr). apply verify_sequential. apply (written_iters _ _ _ _ _ _ Wr). Qed.
  Lemma paced_nil n : paced n [].
  Proof. intros a b c E _. destruct a, b; try discriminate. change (lenN (@nil event)) with 0. lia. Qed.
  Lemma call_paced mode tr a w f o t : history bd H mode tr a -> world_ok bd H w -> op_ok o -> t <> 0 ->
    (exists pw, o = OVerify pw t) \/ (exists pw ds, o = OHeader pw ds t) -> paced 1001 (fst (step_w w a f o)).
  Proof using HH.
    intros P W Ok T [(pw & ->)|(pw & ds & ->)].
    - destruct (a_state a) eqn:Es; try (unfold step_w; rewrite Es; apply paced_nil).
      destruct (selected_header H HH bd mode tr a P Es) as (p & c & hsz & l1 & l2 & h & rest & Q & Wr).
      rewrite (verify_call H HH bd mode tr a w f p c hsz l1 l2 h rest _ t P W Ok Es Q Wr). apply verify_paced; [exact T|exact Ok|apply W].
    - destruct Ok as [SM Lt]. destruct (set_isComplete ds) eqn:C; [|unfold step_w; rewrite C; destruct (a_state a); apply paced_nil].
      pose proof (complete_settings _ C) as SC. destruct (created_exists w ds pw SC) as [h Cr].
      destruct (a_state a) eqn:Es; try (unfold step_w; rewrite Es; apply paced_nil);
        [rewrite (create_call H HH bd mode tr a w f ds pw t h P W Lt (or_introl Es) SM SC Cr)|rewrite (create_call H HH bd mode tr a w f ds pw t h P W Lt (or_intror Es) SM SC Cr)];
        apply create_paced; exact T.
  Qed.
  Lemma create_call_stops mode tr a w f pw ds t : history bd H mode tr a -> world_ok bd H w -> op_ok (OHeader pw ds t) -> t <> 0 -> stops t (fst (step_w w a f (OHeader pw ds t))).
  Proof using HH.
    intros P W [SM Lt] T. assert (stops t []) as Z by (intros x r b E; destruct x; discriminate).
    destruct (set_isComplete ds) eqn:C; [|unfold step_w; rewrite C; destruct (a_state a); exact Z].
    pose proof (complete_settings _ C) as SC. destruct (created_exists w ds pw SC) as [h Cr].
    destruct (a_state a) eqn:Es; try (unfold step_w; rewrite Es; exact Z);
      [rewrite (create_call H HH bd mode tr a w f ds pw t h P W Lt (or_introl Es) SM SC Cr)|rewrite (create_call H HH bd mode tr a w f ds pw t h P W Lt (or_intror Es) SM SC Cr)];
      apply create_stops; exact T.
  Qed.
  Lemma verify_call_runs_on mode tr a w f p c hsz l1 l2 h rest pw t : history bd H mode tr a -> world_ok bd H w -> a_state a = FILE_SELECTED ->
    selected tr = Some (p, c) -> written_as c hsz l1 l2 h rest -> t <> 0 -> t < w_elapsed w -> ~ reached (w_clk1 w) t (readings_string (iterations (h_ch1 h))) ->
    (forall i, w_clk2 w i < 2 ^ 64 - (w_elapsed w - t)) ->
    exists x y, fst (step_w w a f (OVerify pw t)) = x ++ EvClock (w_elapsed w) :: y /\ digests x = iterations (h_ch1 h) /\ digests y = iterations (h_ch2 h).
  Proof using HH.
    intros P W S Q Wr T L R C. assert (w_elapsed w < 2 ^ 64) as Le by apply W.
    rewrite (verify_call H HH bd mode tr a w f p c hsz l1 l2 h rest pw t P W ltac:(lia) S Q Wr).
    destruct (verify_runs_on H w h pw t T L Le R C) as (y & E & D). eexists _, y. split; [exact E|]. split; [|exact D]. apply string_count. exact R.
  Qed.
  (** every answer but the timeout has cost all the digests *)
  Lemma verify_cost mode tr a w f p c hsz l1 l2 h rest pw t f' a' r : history bd H mode tr a -> world_ok bd H w -> t < 2 ^ 64 -> a_state a = FILE_SELECTED ->
    selected tr = Some (p, c) -> written_as c hsz l1 l2 h rest -> step w a f (OVerify pw t) = (f', Ret (a', r)) -> r <> RErr TIMEOUT ERR_TIMEOUT ->
    digests (fst (step_w w a f (OVerify pw t))) = iterations (h_ch1 h) + iterations (h_ch2 h).
  Proof using HH.
    intros P W L S Q Wr St Nr. destruct (verify_call_work mode tr a w f p c hsz l1 l2 h rest pw t P W L S Q Wr) as [_ X]. apply X.
    destruct (verify_outcome H HH bd mode tr a w f p c hsz l1 l2 h rest pw t P W L S Q Wr) as [_ Y].
    assert (~ ~ verify_in_time w t (iterations (h_ch1 h)) (iterations (h_ch2 h))) as NN by (intros Z; rewrite (Y Z) in St; inversion St; congruence).
    unfold verify_in_time in *. destruct (reached_dec (w_clk1 w) t (readings_string (iterations (h_ch1 h)))) as [R1|R1]; [exfalso; apply NN; tauto|].
    destruct (reached_dec (w_clk2 w) ((t + 2 ^ 64 - w_elapsed w) mod 2 ^ 64) (readings_bytes (iterations (h_ch2 h)))) as [R2|R2]; [exfalso; apply NN; tauto|].
    destruct (N.eq_dec t 0) as [T|T]; [tauto|]. destruct (N.eq_dec (w_elapsed w) t) as [E|E]; [exfalso; apply NN; tauto|]. tauto.
  Qed.
  Lemma create_call_sequential mode tr a w f ds pw t m : history bd H mode tr a -> world_ok bd H w -> t < 2 ^ 64 -> a_state a = EMPTY_FILE_SELECTED \/ a_state a = DECRYPTED ->
    settings_made ds -> settings_complete ds -> s_hmode ds = Some m -> sequential (hash_of H m) (fst (step_w w a f (OHeader pw ds t))).
  Proof using HH.
    intros P W L S SM SC Em. destruct (created_exists w ds pw SC) as [h Cr]. rewrite (create_call H HH bd mode tr a w f ds pw t h P W L S SM SC Cr).
    destruct (settings_in_range ds SM (proj2 (complete_iff ds) SC)) as (hm & m1 & m2 & n1 & n2 & F0 & F1 & F2 & F3 & F4 & F5 & R1 & R2 & R3 & R4 & R5).
    destruct Cr as (_ & Eh & (m1' & n1' & G1 & G2 & G3) & _). assert (m = h_hmode h) as -> by congruence. apply create_sequential. rewrite G3. cbn. assert (n1' = n1) by congruence. lia.
  Qed.
End CallWork.
