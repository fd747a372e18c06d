(** Proofs about the password functions. *)
From Verif Require Import Base BaseFacts BytesModel CipherModel CipherFacts MiscSpec PwModel PwSpec.
Ltac Zify.zify_post_hook ::= Z.div_mod_to_equations.

(** ** password policy *)
Lemma in_charset_In c l : in_charset c l = true <-> In c l.
Proof.
  induction l as [|x l IH]; cbn [in_charset In]; [split; [discriminate|tauto]|].
  destruct (Byte.eqb c x) eqn:E.
  - apply Byte.byte_dec_bl in E. split; auto.
  - rewrite IH. split; [auto|]. intros [->|HI]; [|exact HI].
    rewrite Byte.byte_dec_lb in E by reflexivity. discriminate.
Qed.
Definition allowedb (c : byte) : bool := is_letter c || (48 <=? b2n c) && (b2n c <=? 57) || in_charset c pw_signs.
Lemma charset_allowedb c : in_charset c VALID_PASS_CHARSET = allowedb c.
Proof. destruct c; reflexivity. Qed.
Lemma charset_allowed c : in_charset c VALID_PASS_CHARSET = true <-> allowed c.
Proof.
  rewrite charset_allowedb. unfold allowedb, allowed, is_digit. rewrite !Bool.orb_true_iff, Bool.andb_true_iff, in_charset_In, !N.leb_le. tauto.
Qed.
Lemma charset_refused c : in_charset c VALID_PASS_CHARSET = false <-> ~ allowed c.
Proof. rewrite <- charset_allowed. destruct (in_charset c VALID_PASS_CHARSET); split; congruence. Qed.
(** what the loop finds: all allowed, the first bad character, or 2^31 allowed characters *)
Lemma first_invalid_spec pw : forall i, i <= INT_MAX ->
  (Forall allowed pw /\ i + lenN pw <= INT_MAX /\ first_invalid i pw = Ret None) \/
  (exists p c r, pw = p ++ c :: r /\ Forall allowed p /\ ~ allowed c /\ i + lenN p <= INT_MAX /\ first_invalid i pw = Ret (Some c)) \/
  (exists p r, pw = p ++ r /\ Forall allowed p /\ i + lenN p = INT_MAX + 1 /\ first_invalid i pw = Crash Undefined).
Proof.
  induction pw as [|c pw IH]; intros i Hi; cbn [first_invalid].
  - left. split; [constructor|]. split; [rewrite lenN_nil; lia|reflexivity].
  - destruct (in_charset c VALID_PASS_CHARSET) eqn:E.
    + apply charset_allowed in E. destruct (N.eqb_spec i INT_MAX) as [->|Ni].
      * right. right. exists [c], pw. split; [reflexivity|]. split; [constructor; [exact E|constructor]|]. split; [reflexivity|reflexivity].
      * destruct (IH (i + 1) ltac:(lia)) as [(A & B & C)|[(p & d & r & -> & A & B & C & D)|(p & r & -> & A & B & C)]].
        -- left. split; [constructor; assumption|]. split; [rewrite lenN_cons; lia|exact C].
        -- right. left. exists (c :: p), d, r. split; [reflexivity|]. split; [constructor; assumption|]. split; [exact B|]. split; [rewrite lenN_cons; lia|exact D].
        -- right. right. exists (c :: p), r. split; [reflexivity|]. split; [constructor; assumption|]. split; [rewrite lenN_cons; lia|exact C].
    + apply charset_refused in E. right. left. exists [], c, pw. split; [reflexivity|]. split; [constructor|]. split; [exact E|]. split; [rewrite lenN_nil; lia|reflexivity].
Qed.
Lemma first_bad p1 c1 r1 p2 c2 r2 : p1 ++ c1 :: r1 = p2 ++ c2 :: r2 -> Forall allowed p1 -> ~ allowed c1 -> Forall allowed p2 -> ~ allowed c2 -> p1 = p2 /\ c1 = c2 /\ r1 = r2.
Proof.
  revert p2. induction p1 as [|a p1 IH]; intros p2 E F1 N1 F2 N2; destruct p2 as [|b p2]; cbn in E; injection E as E1 E2; subst; [auto| | |].
  - inversion F2; contradiction.
  - inversion F1; contradiction.
  - inversion F1; inversion F2; subst. destruct (IH p2 E2) as (-> & -> & ->); auto.
Qed.
Lemma split_longer {A} (p1 r1 p2 r2 : list A) : p1 ++ r1 = p2 ++ r2 -> lenN p1 <= lenN p2 -> exists q, p2 = p1 ++ q /\ r1 = q ++ r2.
Proof.
  revert p2. induction p1 as [|a p1 IH]; intros p2 E L; [exists p2; split; [reflexivity|exact E]|].
  destruct p2 as [|b p2]; [rewrite lenN_cons, lenN_nil in L; lia|]. cbn in E. injection E as -> E. rewrite !lenN_cons in L.
  destruct (IH p2 E ltac:(lia)) as (q & -> & ->). exists q. auto.
Qed.
Lemma password_policy pw :
  (isPasswordValid pw = Ret PwOk <-> Forall allowed pw /\ 8 <= lenN pw < 2 ^ 31) /\
  (isPasswordValid pw = Ret PwTooShort <-> Forall allowed pw /\ lenN pw < 8) /\
  (forall c, isPasswordValid pw = Ret (PwCharInvalid c) <->
     exists p r, pw = p ++ c :: r /\ Forall allowed p /\ ~ allowed c /\ lenN p < 2 ^ 31) /\
  (isPasswordValid pw = Crash Undefined <-> exists p r, pw = p ++ r /\ Forall allowed p /\ lenN p = 2 ^ 31) /\
  ((exists v, isPasswordValid pw = Ret v) \/ isPasswordValid pw = Crash Undefined).
Proof.
  unfold isPasswordValid, MIN_PASS_LEN. change (2 ^ 31) with 2147483648.
  assert (forall p c r, pw = p ++ c :: r -> ~ allowed c -> ~ Forall allowed pw) as NF.
  { intros p c r -> Nc F. apply Forall_app in F. destruct F as [_ F]. inversion F; contradiction. }
  destruct (first_invalid_spec pw 0 ltac:(discriminate)) as [(A & B & ->)|[(p & c & r & E & A & B & C & ->)|(p & r & E & A & B & ->)]]; cbn [bind]; unfold INT_MAX in *.
  - destruct (N.ltb_spec (lenN pw) 8) as [L|L].
    + split; [split; [discriminate|lia]|]. split; [tauto|]. split; [|split; [|left; eauto]].
      * intros c. split; [discriminate|]. intros (p & r & E & _ & Nc & _). exfalso. exact (NF _ _ _ E Nc A).
      * split; [discriminate|]. intros (p & r & E & _ & Lp). subst pw. rewrite lenN_app in B. lia.
    + split; [split; [intros _; split; [exact A|lia]|reflexivity]|]. split; [split; [discriminate|lia]|]. split; [|split; [|left; eauto]].
      * intros c. split; [discriminate|]. intros (p & r & E & _ & Nc & _). exfalso. exact (NF _ _ _ E Nc A).
      * split; [discriminate|]. intros (p & r & E & _ & Lp). subst pw. rewrite lenN_app in B. lia.
  - pose proof (NF _ _ _ E B) as Nf. split; [split; [discriminate|tauto]|]. split; [split; [discriminate|tauto]|]. split; [|split; [|left; eauto]].
    + intros c'. split.
      * intros X. injection X as <-. exists p, r. split; [exact E|]. split; [exact A|]. split; [exact B|lia].
      * intros (p' & r' & E' & A' & B' & _). rewrite E in E'. destruct (first_bad _ _ _ _ _ _ E' A B A' B') as (_ & -> & _). reflexivity.
    + split; [discriminate|]. intros (p' & r' & E' & A' & L'). rewrite E in E'.
      destruct (split_longer _ _ _ _ E' ltac:(lia)) as (q & -> & Er). destruct q as [|d q]; [rewrite app_nil_r in L'; lia|].
      injection Er as -> _. apply Forall_app in A'. destruct A' as [_ A']. inversion A'; contradiction.
  - assert (2147483648 <= lenN pw) as L by (subst pw; rewrite lenN_app; lia).
    split; [split; [discriminate|lia]|]. split; [split; [discriminate|lia]|]. split; [|split; [split; [|reflexivity]|right; reflexivity]].
    + intros c'. split; [discriminate|]. intros (p' & r' & E' & A' & B' & C'). exfalso. rewrite E in E'. symmetry in E'.
      destruct (split_longer _ _ _ _ E' ltac:(lia)) as (q & -> & Er). destruct q as [|d q]; [rewrite app_nil_r in B; lia|].
      injection Er as -> _. apply Forall_app in A. destruct A as [_ A]. inversion A; contradiction.
    + intros _. exists p, r. split; [exact E|]. split; [exact A|lia].
Qed.

(** ** decimal text *)
Lemma dec_value_app a b acc : dec_value (a ++ b) acc = dec_value b (dec_value a acc).
Proof. revert acc; induction a as [|c a IH]; intros acc; cbn; [reflexivity|apply IH]. Qed.
Lemma dec_value_lin s acc : dec_value s acc = acc * 10 ^ lenN s + dec_value s 0.
Proof.
  revert acc; induction s as [|c s IH]; intros acc; cbn [dec_value].
  - change (lenN (@nil byte)) with 0. rewrite N.pow_0_r. lia.
  - rewrite IH, (IH (0 * 10 + _)). rewrite lenN_cons. replace (1 + lenN s) with (N.succ (lenN s)) by lia.
    rewrite N.pow_succ_r'. lia.
Qed.

(** digits of n, most significant first *)
Lemma to_string_loop_spec fuel : forall n acc, n < 10 ^ N.of_nat fuel -> (0 < fuel)%nat ->
  exists d, to_string_loop fuel n acc = d ++ acc /\ d <> [] /\ Forall (fun c => 48 <= b2n c <= 57) d /\
    dec_value d 0 = n /\ (lenN d <= N.of_nat fuel) /\ (hd x00 d = x30 -> d = [x30]).
Proof.
  induction fuel as [|fuel IH]; intros n acc Hn Hf; [lia|]. cbn [to_string_loop].
  assert (Hd : b2n (n2b (48 + n mod 10)) = 48 + n mod 10) by (apply b2n_n2b_small; lia).
  destruct (N.eqb_spec (n / 10) 0) as [E|E].
  - exists [n2b (48 + n mod 10)]. split; [reflexivity|]. split; [discriminate|].
    split; [constructor; [lia|constructor]|]. cbn [dec_value]. rewrite Hd. split; [lia|].
    change (lenN [n2b (48 + n mod 10)]) with 1. split; [lia|]. cbn [hd]. congruence.
  - destruct fuel as [|fuel].
    { exfalso. change (N.of_nat 1) with 1 in Hn. rewrite N.pow_1_r in Hn. lia. }
    destruct (IH (n / 10) (n2b (48 + n mod 10) :: acc)) as (d & Hd1 & Hne & HF & Hv & Hl & Hz); [|lia|].
    { replace (N.of_nat (S (S fuel))) with (N.succ (N.of_nat (S fuel))) in Hn by lia.
      rewrite N.pow_succ_r' in Hn. apply N.div_lt_upper_bound; lia. }
    exists (d ++ [n2b (48 + n mod 10)]). rewrite <- app_assoc. cbn [app]. split; [exact Hd1|].
    split; [destruct d; discriminate|]. split; [apply Forall_app; split; [exact HF|constructor; [lia|constructor]]|].
    rewrite dec_value_app, Hv. cbn [dec_value]. rewrite Hd. split; [lia|].
    rewrite lenN_app. change (lenN [n2b (48 + n mod 10)]) with 1. split; [lia|].
    intros Hh. destruct d as [|c d']; [congruence|]. cbn [app hd] in *. specialize (Hz Hh). injection Hz as -> ->.
    cbn [dec_value] in Hv. change (b2n x30) with 48 in Hv. lia.
Qed.
Lemma to_string_spec n : n < 2 ^ 64 -> is_decimal_of (to_string n) n /\ 1 <= lenN (to_string n) <= 20.
Proof.
  intros Hn. destruct (to_string_loop_spec 20 n []) as (d & Hd & Hne & HF & Hv & Hl & Hz); [|lia|].
  { apply N.lt_trans with (2 ^ 64); [exact Hn|reflexivity]. }
  unfold to_string. rewrite Hd, app_nil_r. split; [unfold is_decimal_of; auto|].
  destruct d; [congruence|]. rewrite lenN_cons in *. lia.
Qed.

Lemma dec_value_lt s : Forall (fun c => 48 <= b2n c <= 57) s -> dec_value s 0 < 10 ^ lenN s.
Proof.
  induction 1 as [|c s Hc Hs IH]; [reflexivity|]. cbn [dec_value]. rewrite dec_value_lin, lenN_cons.
  replace (1 + lenN s) with (N.succ (lenN s)) by lia. rewrite N.pow_succ_r'. nia.
Qed.
Lemma dec_value_ge c s : 49 <= b2n c -> 10 ^ lenN s <= dec_value (c :: s) 0.
Proof. intros Hc. cbn [dec_value]. rewrite dec_value_lin. nia. Qed.
Lemma dec_value_same_len : forall s t, lenN s = lenN t ->
  Forall (fun c => 48 <= b2n c <= 57) s -> Forall (fun c => 48 <= b2n c <= 57) t ->
  dec_value s 0 = dec_value t 0 -> s = t.
Proof.
  induction s as [|c s IH]; intros [|d t] Hl Hs Ht E; [reflexivity|rewrite lenN_cons, lenN_nil in Hl; lia|rewrite lenN_cons, lenN_nil in Hl; lia|].
  rewrite !lenN_cons in Hl. inversion Hs as [|? ? Hc Hs']; subst. inversion Ht as [|? ? Hd Ht']; subst.
  cbn [dec_value] in E. rewrite (dec_value_lin s), (dec_value_lin t) in E.
  pose proof (dec_value_lt s Hs'). pose proof (dec_value_lt t Ht').
  assert (Hlen : lenN s = lenN t) by lia. rewrite Hlen in *.
  assert (b2n c = b2n d) by nia. assert (c = d) by (apply b2n_inj; assumption). subst d.
  f_equal. apply IH; auto. lia.
Qed.
(** a number has exactly one decimal text *)
Lemma is_decimal_unique s t n : is_decimal_of s n -> is_decimal_of t n -> s = t.
Proof.
  assert (G : forall s t n, is_decimal_of s n -> is_decimal_of t n -> lenN s <= lenN t).
  { clear. intros s t n (Hs1 & Hs2 & Hs3 & Hs4) (Ht1 & Ht2 & Ht3 & Ht4).
    destruct s as [|c s]; [congruence|]. destruct t as [|d t]; [congruence|].
    destruct (N.eq_dec (b2n c) 48) as [E|E].
    - cbn [hd] in Hs4. change 48 with (b2n x30) in E. apply b2n_inj in E. specialize (Hs4 E). injection Hs4 as -> ->.
      rewrite !lenN_cons, lenN_nil. lia.
    - inversion Hs2 as [|? ? Hc _]; subst. pose proof (dec_value_ge c s ltac:(lia)) as Hge.
      pose proof (dec_value_lt (d :: t) Ht2) as Hlt. rewrite Ht3 in Hlt.
      rewrite lenN_cons. assert (lenN s < lenN (d :: t)); [|lia].
      apply N.pow_lt_mono_r_iff with 10; lia. }
  intros Hs Ht. pose proof (G _ _ _ Hs Ht). pose proof (G _ _ _ Ht Hs).
  destruct Hs as (_ & Hs2 & Hs3 & _), Ht as (_ & Ht2 & Ht3 & _). apply dec_value_same_len; auto; [lia|congruence].
Qed.
Lemma to_string_inj a b : a < 2 ^ 64 -> b < 2 ^ 64 -> to_string a = to_string b -> a = b.
Proof.
  intros Ha Hb E. destruct (to_string_spec a Ha) as [(_ & _ & Va & _) _].
  destruct (to_string_spec b Hb) as [(_ & _ & Vb & _) _]. congruence.
Qed.

(** ** the loops *)
Definition sf_of (m : saltmode) : option (N -> bytes) :=
  match m with
  | NoSalt => None
  | ConstSalt s => Some (fun _ => s)
  | CountSalt _ => Some to_string
  | ConstCountSalt _ s => Some (fun n => s ++ to_string n)
  | QuadSalt _ a b c => Some (fun n => to_string (quad a b c n))
  end.
Definition start_of (m : saltmode) : N :=
  match m with
  | CountSalt start | ConstCountSalt start _ | QuadSalt start _ _ _ => start
  | _ => 0
  end.

Lemma quad_mod a b c k : quad a b c (w64 k) = (a * k * k + b * k + c) mod 2 ^ 64.
Proof.
  unfold quad, w64. change (2 ^ 64) with two64. assert (Hz : two64 <> 0) by (unfold two64; lia).
  repeat first [rewrite N.add_mod_idemp_l by assumption | rewrite N.add_mod_idemp_r by assumption].
  rewrite <- (N.add_mod_idemp_l (a * k * k + b * k)) by assumption.
  rewrite <- (N.add_mod_idemp_l (_ + _) c) by assumption. f_equal. f_equal.
  rewrite (N.add_mod (a * k * k)) by assumption. rewrite (N.add_mod ((((a * (k mod two64)) mod two64) * (k mod two64)) mod two64)) by assumption.
  f_equal. f_equal.
  - rewrite N.mod_mod by assumption. rewrite N.mul_mod_idemp_r by assumption. rewrite N.mul_mod_idemp_r by assumption.
    rewrite N.mul_mod_idemp_l by assumption. reflexivity.
  - rewrite ?N.mod_mod by assumption. rewrite N.mul_mod_idemp_r by assumption. reflexivity.
Qed.

Lemma salt_text_at m i : mode_wf m -> salt_text (sf_of m) (w64 (start_of m + i)) = salt_at m i.
Proof.
  destruct m; cbn [salt_text sf_of start_of salt_at mode_wf]; intros Hm; try reflexivity.
  rewrite quad_mod. reflexivity.
Qed.
Lemma salt_at_len m i : lenN (salt_at m i) <= salt_len m.
Proof.
  assert (T : forall n, lenN (to_string (n mod 2 ^ 64)) <= 20).
  { intros n. destruct (to_string_spec (n mod 2 ^ 64)) as [_ Hl]; [apply N.mod_lt; discriminate|lia]. }
  destruct m; cbn [salt_at salt_len]; rewrite ?lenN_app, ?lenN_nil.
  - lia.
  - lia.
  - apply T.
  - pose proof (T (start + i)). lia.
  - apply T.
Qed.

Lemma w64_small n : n < 2 ^ 64 -> w64 n = n.
Proof. intros Hn. unfold w64. apply N.mod_small. exact Hn. Qed.
Lemma w64_add m i : w64 (w64 (start_of m + i) + 1) = w64 (start_of m + (i + 1)).
Proof. unfold w64. rewrite N.add_mod_idemp_l by (unfold two64; lia). f_equal. lia. Qed.

Section Pure.
Variable h : hashfn.
Variable m : saltmode.
(** k rounds starting with salt number i *)
Fixpoint rounds (x : bytes) (i : N) (k : nat) : bytes :=
  match k with O => x | S k' => rounds (hfun h (x ++ salt_at m i)) (i + 1) k' end.
Lemma rounds_snoc k : forall x i, rounds x i (S k) = hfun h (rounds x i k ++ salt_at m (i + N.of_nat k)).
Proof.
  induction k as [|k IH]; intros x i.
  - cbn [rounds]. rewrite N.add_0_r. reflexivity.
  - change (rounds x i (S (S k))) with (rounds (hfun h (x ++ salt_at m i)) (i + 1) (S k)).
    rewrite IH. cbn [rounds]. replace (i + 1 + N.of_nat k) with (i + N.of_nat (S k)) by lia. reflexivity.
Qed.
Lemma iterated_rounds pw n : iterated (hfun h) m pw n = rounds pw 0 (S n).
Proof.
  induction n as [|n IH]; [reflexivity|]. rewrite rounds_snoc, <- IH. cbn [iterated]. rewrite N.add_0_l. reflexivity.
Qed.
End Pure.
Section ClockPure.
Variable clk : nat -> N.
Variable timeout : N.
(** does the loop with round counter i, k rounds left, [p] readings taken time out? *)
Fixpoint hits (k : nat) (i : N) (p : nat) : bool :=
  match k with
  | O => false
  | S k' =>
      if negb (timeout =? 0) && (i mod 1000 =? 0)
      then if timeout <=? clk p then true else hits k' (i + 1) (S p)
      else hits k' (i + 1) p
  end.
Lemma hits_spec k : forall i p, hits k i p = true <->
  timeout <> 0 /\ exists q, (p <= q)%nat /\ N.of_nat q < N.of_nat p + ((i + N.of_nat k + 999) / 1000 - (i + 999) / 1000) /\ timeout <= clk q.
Proof.
  induction k as [|k IH]; intros i p; cbn [hits].
  - split; [discriminate|]. intros (_ & q & H1 & H2 & _). rewrite N.add_0_r in H2. lia.
  - destruct (N.eqb_spec timeout 0) as [E|E]; cbn [negb andb].
    + rewrite IH. lia.
    + destruct (N.eqb_spec (i mod 1000) 0) as [Ei|Ei].
      * destruct (N.leb_spec timeout (clk p)).
        -- split; [|reflexivity]. intros _. split; [exact E|]. exists p. split; [lia|]. split; [lia|assumption].
        -- rewrite IH. split; intros (_ & q & H1 & H2 & H3); (split; [exact E|]); exists q.
           ++ split; [lia|]. split; [|assumption]. lia.
           ++ assert (q <> p) by (intros ->; lia). split; [lia|]. split; [|assumption]. lia.
      * rewrite IH. split; intros (_ & q & H1 & H2 & H3); (split; [exact E|]); exists q;
          (split; [lia|]); (split; [|assumption]); lia.
Qed.

End ClockPure.

Section Loops.
Variable h : hashfn.
Hypothesis Hh : hash_ok h.
Variable m : saltmode.
Hypothesis Hm : mode_wf m.
Hypothesis Hsz : hsize h + salt_len m < 2 ^ 32.

Notation SF := (sf_of m).
Notation EX := (salt_len m).
Notation CAP := (hsize h + salt_len m).
Notation rounds := (rounds h m).

Lemma do_hash_ok x : do_hash h x EX = Ret (mkBytes (hfun h x) CAP).
Proof using Hh Hm Hsz.
  unfold do_hash, w32. change two32 with (2 ^ 32). rewrite (N.mod_small EX) by lia.
  rewrite N.mod_small by exact Hsz. destruct (N.ltb_spec CAP (hsize h)); [lia|reflexivity].
Qed.
Lemma add_salt_ok i x cap : lenN x + EX <= cap -> cap < 2 ^ 64 ->
  add_salt SF (w64 (start_of m + i)) (mkBytes x cap) = Ret (mkBytes (x ++ salt_at m i) cap).
Proof using Hh Hm Hsz.
  intros Hx Hc. pose proof (salt_at_len m i) as Hl. pose proof (salt_text_at m i Hm) as Ht.
  unfold add_salt. destruct SF as [f|] eqn:E; cbn [salt_text] in Ht.
  - rewrite Ht. unfold addStringToBytes, addBytes, getLen. cbn [bdata bmax].
    rewrite sub64_le by (unfold two64; lia).
    destruct (N.ltb_spec (cap - lenN x) (lenN (salt_at m i))); [lia|].
    destruct (N.ltb_spec cap (lenN x + lenN (salt_at m i))); [lia|reflexivity].
  - rewrite <- Ht. rewrite app_nil_r. reflexivity.
Qed.
Lemma rounds_len k : forall x i, lenN x = hsize h -> lenN (rounds x i k) = hsize h.
Proof using Hh Hm Hsz.
  induction k as [|k IH]; intros x i Hx; cbn [rounds]; [exact Hx|]. apply IH. apply Hh.
Qed.

Section Clock.
Variable clk : nat -> N.
Variable timeout : N.
Notation hits := (hits clk timeout).
Lemma string_loop_ok k : forall j p x, lenN x = hsize h -> j + 1 + N.of_nat k < 2 ^ 64 ->
  string_loop h clk SF EX timeout k (j + 1) p (w64 (start_of m + j)) (mkBytes x CAP) =
  if hits k (j + 1) p then Ret TimedOut else Ret (Done (mkBytes (rounds x (j + 1) k) CAP)).
Proof using Hh Hm Hsz.
  induction k as [|k IH]; intros j p x Hx Hi; cbn [string_loop hits rounds]; [reflexivity|].
  rewrite w64_add. rewrite add_salt_ok by (try rewrite Hx; lia). cbn [bind bdata].
  rewrite do_hash_ok. cbn [bind]. unfold TIMEOUT_ITERATIONS.
  rewrite (w64_small (j + 1 + 1)) by lia.
  assert (Hx' : lenN (hfun h (x ++ salt_at m (j + 1))) = hsize h) by apply Hh.
  destruct (negb (timeout =? 0) && ((j + 1) mod 1000 =? 0)).
  - destruct (timeout <=? clk p); [reflexivity|]. apply IH; [exact Hx'|lia].
  - apply IH; [exact Hx'|lia].
Qed.
Lemma string_chain_ok iters pw : iters < 2 ^ 64 ->
  string_chain h clk SF EX iters (start_of m) timeout pw =
  if hits (N.to_nat (iters - 1)) 1 0 then Ret TimedOut
  else Ret (Done (mkBytes (iterated (hfun h) m pw (N.to_nat (iters - 1))) CAP)).
Proof using Hh Hm Hsz.
  intros Hi. unfold string_chain.
  assert (Hs : start_of m < 2 ^ 64) by (destruct m; cbn in *; lia).
  pose proof (salt_text_at m 0 Hm) as Ht. rewrite N.add_0_r, (w64_small _ Hs) in Ht. rewrite Ht, do_hash_ok. cbn [bind].
  rewrite <- (w64_small (start_of m) Hs) at 1. rewrite <- (N.add_0_r (start_of m)).
  rewrite (string_loop_ok (N.to_nat (iters - 1)) 0) by (try apply Hh; lia). rewrite N.add_0_l.
  destruct (hits (N.to_nat (iters - 1)) 1 0); cbn [noexcept]; [reflexivity|].
  rewrite iterated_rounds. cbn [rounds]. rewrite N.add_0_l. reflexivity.
Qed.

Lemma bytes_loop_ok k : forall j p x cap, lenN x + EX <= cap -> cap < 2 ^ 64 -> j + N.of_nat k < 2 ^ 64 ->
  bytes_loop h clk SF EX timeout k j p (w64 (start_of m + j)) (mkBytes x cap) =
  if hits k j p then Ret TimedOut else Ret (Done (mkBytes (rounds x j k) (if Nat.eqb k 0 then cap else CAP))).
Proof using Hh Hm Hsz.
  induction k as [|k IH]; intros j p x cap Hx Hc Hi; cbn [bytes_loop hits rounds Nat.eqb]; [reflexivity|].
  rewrite w64_add. rewrite add_salt_ok by assumption. cbn [bind bdata].
  rewrite do_hash_ok. cbn [bind]. unfold TIMEOUT_ITERATIONS. rewrite (w64_small (j + 1)) by lia.
  assert (Hx' : lenN (hfun h (x ++ salt_at m j)) + EX <= CAP) by (replace (lenN (hfun h _)) with (hsize h) by (symmetry; apply Hh); lia).
  assert (Hk : forall k : nat, (if Nat.eqb k 0 then CAP else CAP) = CAP) by (intros []; reflexivity).
  destruct (negb (timeout =? 0) && (j mod 1000 =? 0)).
  - destruct (timeout <=? clk p); [reflexivity|]. rewrite IH by (try exact Hx'; lia). rewrite Hk. reflexivity.
  - rewrite IH by (try exact Hx'; lia). rewrite Hk. reflexivity.
Qed.
Lemma bytes_chain_ok iters data : iters < 2 ^ 64 -> getLen data <= bmax data -> bmax data + EX < 2 ^ 64 ->
  bytes_chain h clk SF EX EX iters (start_of m) timeout data =
  if hits (N.to_nat iters) 0 0 then Ret TimedOut
  else Ret (Done (mkBytes (rounds (bdata data) 0 (N.to_nat iters)) (if iters =? 0 then bmax data + EX else CAP))).
Proof using Hh Hm Hsz.
  intros Hi Hd Hc. unfold bytes_chain, copyExtra.
  assert (Hs : start_of m < 2 ^ 64) by (destruct m; cbn in *; lia).
  rewrite <- (w64_small (start_of m) Hs) at 1. rewrite <- (N.add_0_r (start_of m)).
  rewrite bytes_loop_ok by (unfold getLen in *; lia).
  replace (Nat.eqb (N.to_nat iters) 0) with (iters =? 0) by (destruct (N.eqb_spec iters 0), (Nat.eqb_spec (N.to_nat iters) 0); lia).
  destruct (hits (N.to_nat iters) 0 0); reflexivity.
Qed.

(** *** timed loops *)
(** first reading at or after number p that reaches the timeout, among the next n *)
Fixpoint first_reached (n : nat) (p : nat) : option nat :=
  match n with
  | O => None
  | S n' => if timeout <=? clk p then Some p else first_reached n' (S p)
  end.

(** stepping through the rounds up to the next multiple of 1000 *)
Lemma string_timed_ok fuel : forall it p x k, lenN x = hsize h ->
  1 <= it -> N.of_nat p = it / 1000 -> (p <= k)%nat -> 1000 * (N.of_nat k + 1) < 2 ^ 64 ->
  timeout <= clk k -> (forall q, (p <= q < k)%nat -> clk q < timeout) ->
  1000 * (N.of_nat k + 1) - it <= N.of_nat fuel ->
  string_timed_loop h clk fuel SF EX timeout it p (w64 (start_of m + (it - 1))) (mkBytes x CAP) =
  Ret (1000 * (N.of_nat k + 1), mkBytes (rounds x it (N.to_nat (1000 * (N.of_nat k + 1) - it))) CAP).
Proof using Hh Hm Hsz.
  induction fuel as [|fuel IH]; intros it p x k Hx Hit Hp Hpk H64 Hk Hq Hf; [lia|].
  cbn [string_timed_loop]. rewrite w64_add. rewrite add_salt_ok by (try rewrite Hx; lia). cbn [bind bdata].
  rewrite do_hash_ok. cbn [bind]. rewrite (w64_small (it + 1)) by lia. unfold TIMEOUT_ITERATIONS.
  replace (it - 1 + 1) with it by lia.
  replace (N.to_nat (1000 * (N.of_nat k + 1) - it)) with (S (N.to_nat (1000 * (N.of_nat k + 1) - (it + 1)))) by lia.
  cbn [rounds].
  assert (Hx' : lenN (hfun h (x ++ salt_at m it)) = hsize h) by apply Hh.
  destruct (N.eqb_spec ((it + 1) mod 1000) 0) as [E|E].
  - destruct (Nat.eq_dec p k) as [->|Hne].
    + destruct (N.leb_spec timeout (clk k)); [|lia].
      replace (1000 * (N.of_nat k + 1)) with (it + 1) by lia. replace (it + 1 - (it + 1)) with 0 by lia. reflexivity.
    + specialize (Hq p ltac:(lia)) as Hqp. destruct (N.leb_spec timeout (clk p)); [lia|].
      specialize (IH (it + 1) (S p) (hfun h (x ++ salt_at m it)) k Hx'). replace (it + 1 - 1) with it in IH by lia.
      apply IH; try lia. intros q Hq'. apply Hq. lia.
  - specialize (IH (it + 1) p (hfun h (x ++ salt_at m it)) k Hx'). replace (it + 1 - 1) with it in IH by lia.
    apply IH; try lia. intros q Hq'. apply Hq. lia.
Qed.
Lemma string_timed_none fuel : forall it p x, lenN x = hsize h ->
  1 <= it -> N.of_nat p = it / 1000 -> it + N.of_nat fuel < 2 ^ 64 ->
  (forall q, (p <= q)%nat -> N.of_nat q < (it + N.of_nat fuel) / 1000 -> clk q < timeout) ->
  string_timed_loop h clk fuel SF EX timeout it p (w64 (start_of m + (it - 1))) (mkBytes x CAP) = OutOfFuel.
Proof using Hh Hm Hsz.
  induction fuel as [|fuel IH]; intros it p x Hx Hit Hp H64 Hq; [reflexivity|].
  cbn [string_timed_loop]. rewrite w64_add. rewrite add_salt_ok by (try rewrite Hx; lia). cbn [bind bdata].
  rewrite do_hash_ok. cbn [bind]. rewrite (w64_small (it + 1)) by lia. unfold TIMEOUT_ITERATIONS.
  replace (it - 1 + 1) with it by lia.
  assert (Hx' : lenN (hfun h (x ++ salt_at m it)) = hsize h) by apply Hh.
  destruct (N.eqb_spec ((it + 1) mod 1000) 0) as [E|E].
  - specialize (Hq p ltac:(lia)) as Hqp. destruct (N.leb_spec timeout (clk p)); [lia|].
    specialize (IH (it + 1) (S p) (hfun h (x ++ salt_at m it)) Hx'). replace (it + 1 - 1) with it in IH by lia.
    apply IH; try lia. intros q Hq1 Hq2. apply Hq; lia.
  - specialize (IH (it + 1) p (hfun h (x ++ salt_at m it)) Hx'). replace (it + 1 - 1) with it in IH by lia.
    apply IH; try lia. intros q Hq1 Hq2. apply Hq; lia.
Qed.
Lemma string_timed_chain_ok fuel pw k : 1000 * (N.of_nat k + 1) < 2 ^ 64 ->
  timeout <= clk k -> (forall q, (q < k)%nat -> clk q < timeout) -> 1000 * (N.of_nat k + 1) <= N.of_nat fuel ->
  string_timed h clk fuel SF EX (start_of m) timeout pw =
  Ret (1000 * (N.of_nat k + 1), mkBytes (iterated (hfun h) m pw (N.to_nat (1000 * (N.of_nat k + 1) - 1))) CAP).
Proof using Hh Hm Hsz.
  intros H64 Hk Hq Hf. unfold string_timed.
  assert (Hs : start_of m < 2 ^ 64) by (destruct m; cbn in *; lia).
  pose proof (salt_text_at m 0 Hm) as Ht. rewrite N.add_0_r, (w64_small _ Hs) in Ht. rewrite Ht, do_hash_ok. cbn [bind].
  assert (Hst : start_of m = w64 (start_of m + (1 - 1))) by (change (1 - 1) with 0; rewrite N.add_0_r; symmetry; apply w64_small; exact Hs).
  rewrite Hst, (string_timed_ok fuel 1 0 _ k); try lia; [|apply Hh|intros q Hq'; apply Hq; lia].
  cbn [noexcept]. rewrite iterated_rounds. cbn [rounds]. rewrite N.add_0_l. reflexivity.
Qed.
Lemma string_timed_chain_none fuel pw : 1 + N.of_nat fuel < 2 ^ 64 ->
  (forall q, N.of_nat q < (1 + N.of_nat fuel) / 1000 -> clk q < timeout) ->
  string_timed h clk fuel SF EX (start_of m) timeout pw = OutOfFuel.
Proof using Hh Hm Hsz.
  intros H64 Hq. unfold string_timed.
  assert (Hs : start_of m < 2 ^ 64) by (destruct m; cbn in *; lia).
  rewrite do_hash_ok. cbn [bind].
  assert (Hst : start_of m = w64 (start_of m + (1 - 1))) by (change (1 - 1) with 0; rewrite N.add_0_r; symmetry; apply w64_small; exact Hs).
  assert (Hl : lenN (hfun h (pw ++ salt_text SF (start_of m))) = hsize h) by apply Hh. revert Hl.
  generalize (hfun h (pw ++ salt_text SF (start_of m))). intros x Hl. rewrite Hst. rewrite string_timed_none; try lia; [reflexivity|intros q _; apply Hq].
Qed.

Lemma bytes_timed_ok fuel : forall it p x k cap, lenN x + EX <= cap -> cap < 2 ^ 64 ->
  N.of_nat p = it / 1000 -> (p <= k)%nat -> 1000 * (N.of_nat k + 1) < 2 ^ 64 ->
  timeout <= clk k -> (forall q, (p <= q < k)%nat -> clk q < timeout) ->
  1000 * (N.of_nat k + 1) - it <= N.of_nat fuel ->
  bytes_timed_loop h clk fuel SF EX timeout it p (w64 (start_of m + it)) (mkBytes x cap) =
  Ret (1000 * (N.of_nat k + 1), mkBytes (rounds x it (N.to_nat (1000 * (N.of_nat k + 1) - it))) CAP).
Proof using Hh Hm Hsz.
  induction fuel as [|fuel IH]; intros it p x k cap Hx Hc Hp Hpk H64 Hk Hq Hf; [lia|].
  cbn [bytes_timed_loop]. rewrite w64_add. rewrite add_salt_ok by assumption. cbn [bind bdata].
  rewrite do_hash_ok. cbn [bind]. rewrite (w64_small (it + 1)) by lia. unfold TIMEOUT_ITERATIONS.
  replace (N.to_nat (1000 * (N.of_nat k + 1) - it)) with (S (N.to_nat (1000 * (N.of_nat k + 1) - (it + 1)))) by lia.
  cbn [rounds].
  assert (Hx' : lenN (hfun h (x ++ salt_at m it)) + EX <= CAP) by (replace (lenN (hfun h _)) with (hsize h) by (symmetry; apply Hh); lia).
  destruct (N.eqb_spec ((it + 1) mod 1000) 0) as [E|E].
  - destruct (Nat.eq_dec p k) as [->|Hne].
    + destruct (N.leb_spec timeout (clk k)); [|lia].
      replace (1000 * (N.of_nat k + 1)) with (it + 1) by lia. replace (it + 1 - (it + 1)) with 0 by lia. reflexivity.
    + specialize (Hq p ltac:(lia)) as Hqp. destruct (N.leb_spec timeout (clk p)); [lia|].
      apply (IH (it + 1) (S p) _ k CAP Hx'); try lia. intros q Hq'. apply Hq. lia.
  - apply (IH (it + 1) p _ k CAP Hx'); try lia. intros q Hq'. apply Hq. lia.
Qed.
Lemma bytes_timed_chain_ok fuel data k : getLen data <= bmax data -> bmax data + EX < 2 ^ 64 ->
  1000 * (N.of_nat k + 1) < 2 ^ 64 ->
  timeout <= clk k -> (forall q, (q < k)%nat -> clk q < timeout) -> 1000 * (N.of_nat k + 1) <= N.of_nat fuel ->
  bytes_timed h clk fuel SF EX EX (start_of m) timeout data =
  Ret (1000 * (N.of_nat k + 1), mkBytes (rounds (bdata data) 0 (N.to_nat (1000 * (N.of_nat k + 1)))) CAP).
Proof using Hh Hm Hsz.
  intros Hd Hc H64 Hk Hq Hf. unfold bytes_timed, copyExtra.
  assert (Hs : start_of m < 2 ^ 64) by (destruct m; cbn in *; lia).
  rewrite <- (w64_small (start_of m) Hs) at 1. rewrite <- (N.add_0_r (start_of m)).
  rewrite (bytes_timed_ok fuel 0 0 _ k); try (unfold getLen in *; lia); [|intros q Hq'; apply Hq; lia].
  rewrite N.sub_0_r. reflexivity.
Qed.
Lemma bytes_timed_none fuel : forall it p x cap, lenN x + EX <= cap -> cap < 2 ^ 64 ->
  N.of_nat p = it / 1000 -> it + N.of_nat fuel < 2 ^ 64 ->
  (forall q, (p <= q)%nat -> N.of_nat q < (it + N.of_nat fuel) / 1000 -> clk q < timeout) ->
  bytes_timed_loop h clk fuel SF EX timeout it p (w64 (start_of m + it)) (mkBytes x cap) = OutOfFuel.
Proof using Hh Hm Hsz.
  induction fuel as [|fuel IH]; intros it p x cap Hx Hc Hp H64 Hq; [reflexivity|].
  cbn [bytes_timed_loop]. rewrite w64_add. rewrite add_salt_ok by assumption. cbn [bind bdata].
  rewrite do_hash_ok. cbn [bind]. rewrite (w64_small (it + 1)) by lia. unfold TIMEOUT_ITERATIONS.
  assert (Hx' : lenN (hfun h (x ++ salt_at m it)) + EX <= CAP) by (replace (lenN (hfun h _)) with (hsize h) by (symmetry; apply Hh); lia).
  destruct (N.eqb_spec ((it + 1) mod 1000) 0) as [E|E].
  - specialize (Hq p ltac:(lia)) as Hqp. destruct (N.leb_spec timeout (clk p)); [lia|].
    apply (IH (it + 1) (S p) _ CAP Hx'); try lia. intros q Hq1 Hq2. apply Hq; lia.
  - apply (IH (it + 1) p _ CAP Hx'); try lia. intros q Hq1 Hq2. apply Hq; lia.
Qed.
Lemma bytes_timed_chain_none fuel data : getLen data <= bmax data -> bmax data + EX < 2 ^ 64 ->
  N.of_nat fuel < 2 ^ 64 ->
  (forall q, N.of_nat q < N.of_nat fuel / 1000 -> clk q < timeout) ->
  bytes_timed h clk fuel SF EX EX (start_of m) timeout data = OutOfFuel.
Proof using Hh Hm Hsz.
  intros Hd Hc H64 Hq. unfold bytes_timed, copyExtra.
  assert (Hs : start_of m < 2 ^ 64) by (destruct m; cbn in *; lia).
  rewrite <- (w64_small (start_of m) Hs) at 1. rewrite <- (N.add_0_r (start_of m)).
  rewrite bytes_timed_none; try (unfold getLen in *; lia); [reflexivity|]. intros q _. rewrite N.add_0_l. apply Hq.
Qed.
End Clock.
End Loops.

Lemma call_string_chain h clk m pw iters timeout :
  call_string h clk m pw iters timeout = string_chain h clk (sf_of m) (salt_len m) iters (start_of m) timeout pw.
Proof. destruct m; reflexivity. Qed.
Lemma call_bytes_chain h clk m data iters timeout :
  call_bytes h clk m data iters timeout = bytes_chain h clk (sf_of m) (salt_len m) (salt_len m) iters (start_of m) timeout data.
Proof. destruct m; reflexivity. Qed.
Lemma call_string_timed_chain fuel h clk m pw rt :
  call_string_timed fuel h clk m pw rt = string_timed h clk fuel (sf_of m) (salt_len m) (start_of m) rt pw.
Proof. destruct m; reflexivity. Qed.
Lemma call_bytes_timed_chain fuel h clk m data rt :
  call_bytes_timed fuel h clk m data rt = bytes_timed h clk fuel (sf_of m) (salt_len m) (salt_len m) (start_of m) rt data.
Proof. destruct m; reflexivity. Qed.


Lemma hits_reached_string clk timeout iters :
  hits clk timeout (N.to_nat (iters - 1)) 1 0 = true <-> reached clk timeout (readings_string iters).
Proof.
  rewrite hits_spec. unfold reached, readings_string. split; intros (H1 & q & H2); (split; [exact H1|]); exists q; lia.
Qed.
Lemma hits_reached_bytes clk timeout iters :
  hits clk timeout (N.to_nat iters) 0 0 = true <-> reached clk timeout (readings_bytes iters).
Proof.
  rewrite hits_spec. unfold reached, readings_bytes. split; intros (H1 & q & H2); (split; [exact H1|]); exists q; lia.
Qed.

Lemma call_string_ok h clk m pw iters timeout : fits h m -> iters < 2 ^ 64 ->
  (reached clk timeout (readings_string iters) -> call_string h clk m pw iters timeout = Ret TimedOut) /\
  (~ reached clk timeout (readings_string iters) ->
     call_string h clk m pw iters timeout =
     Ret (Done (mkBytes (iterated (hfun h) m pw (N.to_nat (iters - 1))) (hsize h + salt_len m)))).
Proof.
  intros (Hh & Hm & Hs) Hi. rewrite call_string_chain, string_chain_ok by assumption.
  rewrite <- hits_reached_string. destruct (hits clk timeout (N.to_nat (iters - 1)) 1 0); split; congruence.
Qed.
Lemma call_bytes_ok h clk m data iters timeout : fits h m -> iters < 2 ^ 64 ->
  getLen data <= bmax data -> bmax data + salt_len m < 2 ^ 64 ->
  (reached clk timeout (readings_bytes iters) -> call_bytes h clk m data iters timeout = Ret TimedOut) /\
  (~ reached clk timeout (readings_bytes iters) -> 1 <= iters ->
     call_bytes h clk m data iters timeout =
     Ret (Done (mkBytes (iterated (hfun h) m (bdata data) (N.to_nat (iters - 1))) (hsize h + salt_len m)))) /\
  (iters = 0 -> call_bytes h clk m data iters timeout = Ret (Done (mkBytes (bdata data) (bmax data + salt_len m)))).
Proof.
  intros (Hh & Hm & Hs) Hi Hd Hc. rewrite call_bytes_chain, bytes_chain_ok by assumption.
  rewrite <- hits_reached_bytes. split; [|split].
  - destruct (hits clk timeout (N.to_nat iters) 0 0); congruence.
  - destruct (hits clk timeout (N.to_nat iters) 0 0); [congruence|]. intros _ H1.
    destruct (N.eqb_spec iters 0); [lia|]. rewrite iterated_rounds.
    replace (S (N.to_nat (iters - 1))) with (N.to_nat iters) by lia. reflexivity.
  - intros ->. reflexivity.
Qed.

Lemma reached_zero clk r : ~ reached clk 0 r.
Proof. intros [H _]. congruence. Qed.
Lemma reached_dec clk timeout r : reached clk timeout r \/ ~ reached clk timeout r.
Proof.
  unfold reached. destruct (N.eq_dec timeout 0) as [E|E]; [right; tauto|].
  assert (G : forall n, (exists k, (k < n)%nat /\ timeout <= clk k) \/ ~ (exists k, (k < n)%nat /\ timeout <= clk k)).
  { induction n as [|n [IH|IH]].
    - right. intros (k & Hk & _). lia.
    - left. destruct IH as (k & Hk & Ht). exists k. split; [lia|exact Ht].
    - destruct (N.leb_spec timeout (clk n)) as [Hn|Hn].
      + left. exists n. split; [lia|exact Hn].
      + right. intros (k & Hk & Ht). destruct (Nat.eq_dec k n) as [->|Hne]; [lia|]. apply IH. exists k. split; [lia|exact Ht]. }
  destruct (G (N.to_nat r)) as [(k & Hk & Ht)|Hn].
  - left. split; [exact E|]. exists k. split; [lia|exact Ht].
  - right. intros (_ & k & Hk & Ht). apply Hn. exists k. split; [lia|exact Ht].
Qed.

(** C10 *)
Lemma string_documented h clk m pw iters : fits h m -> 1 <= iters < 2 ^ 64 ->
  exists b, call_string h clk m pw iters 0 = Ret (Done b) /\ bdata b = iterated (hfun h) m pw (N.to_nat (iters - 1)).
Proof.
  intros Hf Hi. destruct (call_string_ok h clk m pw iters 0 Hf ltac:(lia)) as [_ H].
  rewrite H by apply reached_zero. eexists; split; reflexivity.
Qed.
Lemma string_zero_iters h clk m pw timeout : call_string h clk m pw 0 timeout = call_string h clk m pw 1 timeout.
Proof. rewrite !call_string_chain. reflexivity. Qed.
(** C11 *)
Lemma bytes_agree h clk clk' m data iters : fits h m -> 1 <= iters < 2 ^ 64 ->
  getLen data <= bmax data -> bmax data + salt_len m < 2 ^ 64 ->
  exists b, call_bytes h clk m data iters 0 = Ret (Done b) /\ call_string h clk' m (bdata data) iters 0 = Ret (Done b).
Proof.
  intros Hf Hi Hd Hc. destruct (call_bytes_ok h clk m data iters 0 Hf ltac:(lia) Hd Hc) as (_ & H & _).
  destruct (call_string_ok h clk' m (bdata data) iters 0 Hf ltac:(lia)) as [_ H'].
  rewrite H, H' by (try apply reached_zero; lia). eexists; split; reflexivity.
Qed.
(** C12 *)
Lemma string_result_same h clk clk' m pw iters timeout b : fits h m -> iters < 2 ^ 64 ->
  call_string h clk m pw iters timeout = Ret (Done b) -> call_string h clk' m pw iters 0 = Ret (Done b).
Proof.
  intros Hf Hi E. destruct (call_string_ok h clk m pw iters timeout Hf Hi) as [H1 H2].
  destruct (call_string_ok h clk' m pw iters 0 Hf Hi) as [_ H3]. rewrite H3 by apply reached_zero.
  destruct (reached_dec clk timeout (readings_string iters)) as [Hr|Hr].
  - rewrite (H1 Hr) in E. congruence.
  - rewrite (H2 Hr) in E. exact E.
Qed.
Lemma bytes_result_same h clk clk' m data iters timeout b : fits h m -> iters < 2 ^ 64 ->
  getLen data <= bmax data -> bmax data + salt_len m < 2 ^ 64 ->
  call_bytes h clk m data iters timeout = Ret (Done b) -> call_bytes h clk' m data iters 0 = Ret (Done b).
Proof.
  intros Hf Hi Hd Hc E. destruct (N.eq_dec iters 0) as [->|Hne].
  - destruct (call_bytes_ok h clk m data 0 timeout Hf Hi Hd Hc) as (_ & _ & H1).
    destruct (call_bytes_ok h clk' m data 0 0 Hf Hi Hd Hc) as (_ & _ & H2).
    rewrite H1 in E by reflexivity. rewrite H2 by reflexivity. exact E.
  - destruct (call_bytes_ok h clk m data iters timeout Hf Hi Hd Hc) as (H1 & H2 & _).
    destruct (call_bytes_ok h clk' m data iters 0 Hf Hi Hd Hc) as (_ & H3 & _). rewrite H3 by (try apply reached_zero; lia).
    destruct (reached_dec clk timeout (readings_bytes iters)) as [Hr|Hr].
    + rewrite (H1 Hr) in E. congruence.
    + rewrite (H2 Hr ltac:(lia)) in E. exact E.
Qed.
Lemma string_timeout_iff h clk m pw iters timeout : fits h m -> iters < 2 ^ 64 ->
  (call_string h clk m pw iters timeout = Ret TimedOut <-> reached clk timeout (readings_string iters)) /\
  (call_string h clk m pw iters timeout <> Ret TimedOut -> exists b, call_string h clk m pw iters timeout = Ret (Done b)).
Proof.
  intros Hf Hi. destruct (call_string_ok h clk m pw iters timeout Hf Hi) as [H1 H2].
  destruct (reached_dec clk timeout (readings_string iters)) as [Hr|Hr].
  - rewrite (H1 Hr). tauto.
  - rewrite (H2 Hr). split; [split; [discriminate|tauto]|eauto].
Qed.
Lemma bytes_timeout_iff h clk m data iters timeout : fits h m -> iters < 2 ^ 64 ->
  getLen data <= bmax data -> bmax data + salt_len m < 2 ^ 64 ->
  (call_bytes h clk m data iters timeout = Ret TimedOut <-> reached clk timeout (readings_bytes iters)) /\
  (call_bytes h clk m data iters timeout <> Ret TimedOut -> exists b, call_bytes h clk m data iters timeout = Ret (Done b)).
Proof.
  intros Hf Hi Hd Hc. destruct (call_bytes_ok h clk m data iters timeout Hf Hi Hd Hc) as (H1 & H2 & H3).
  destruct (reached_dec clk timeout (readings_bytes iters)) as [Hr|Hr].
  - rewrite (H1 Hr). tauto.
  - destruct (N.eq_dec iters 0) as [->|Hne].
    + rewrite (H3 eq_refl). split; [split; [discriminate|tauto]|eauto].
    + rewrite (H2 Hr ltac:(lia)). split; [split; [discriminate|tauto]|eauto].
Qed.
Lemma string_short_never h clk m pw iters timeout : fits h m -> iters <= 1000 ->
  call_string h clk m pw iters timeout <> Ret TimedOut.
Proof.
  intros Hf Hi E. destruct (string_timeout_iff h clk m pw iters timeout Hf ltac:(lia)) as [H _].
  apply H in E. destruct E as (_ & k & Hk & _). unfold readings_string in Hk. lia.
Qed.
(** C13 *)
Lemma string_timed_reproducible fuel h clk clk' m pw rt n b : fits h m -> 1 + N.of_nat fuel < 2 ^ 64 ->
  call_string_timed fuel h clk m pw rt = Ret (n, b) ->
  call_string h clk' m pw n 0 = Ret (Done b) /\
  exists k, n = 1000 * (N.of_nat k + 1) /\ rt <= clk k /\ forall q, (q < k)%nat -> clk q < rt.
Proof.
  intros (Hh & Hm & Hs) Hf E. rewrite call_string_timed_chain in E.
  (* the first reading that reaches the runtime *)
  assert (G : forall j, (exists k, (k < j)%nat /\ rt <= clk k /\ forall q, (q < k)%nat -> clk q < rt) \/ (forall q, (q < j)%nat -> clk q < rt)).
  { induction j as [|j [IH|IH]].
    - right. intros q Hq. lia.
    - left. destruct IH as (k & Hk & Ht). exists k. split; [lia|exact Ht].
    - destruct (N.leb_spec rt (clk j)).
      + left. exists j. split; [lia|]. split; [assumption|exact IH].
      + right. intros q Hq. destruct (Nat.eq_dec q j) as [->|]; [assumption|apply IH; lia]. }
  destruct (G (N.to_nat ((1 + N.of_nat fuel) / 1000))) as [(k & Hk & Ht & Hq)|Hn].
  - destruct (N.leb_spec (1000 * (N.of_nat k + 1)) (N.of_nat fuel)) as [Hle|Hgt].
    + rewrite (string_timed_chain_ok h Hh m Hm Hs clk rt fuel pw k) in E by (try assumption; lia).
      injection E as <- <-. split; [|exists k; auto].
      destruct (call_string_ok h clk' m pw (1000 * (N.of_nat k + 1)) 0 (conj Hh (conj Hm Hs)) ltac:(lia)) as [_ HC].
      rewrite HC by apply reached_zero. reflexivity.
    + (* the fuel ends one round short only if 1 + fuel = 1000 (k + 1) *)
      assert (Hfe : 1 + N.of_nat fuel = 1000 * (N.of_nat k + 1)) by lia.
      unfold string_timed in E. rewrite do_hash_ok in E by assumption. cbn [bind] in E.
      assert (Hs' : start_of m < 2 ^ 64) by (destruct m; cbn in *; lia).
      assert (Hst : start_of m = w64 (start_of m + (1 - 1))) by (change (1 - 1) with 0; rewrite N.add_0_r; symmetry; apply w64_small; exact Hs').
      pose proof (salt_text_at m 0 Hm) as Htx. rewrite N.add_0_r, (w64_small _ Hs') in Htx. rewrite Htx in E.
      rewrite Hst, (string_timed_ok h Hh m Hm Hs clk rt fuel 1 0 _ k) in E; try lia; [|apply Hh|intros q Hq'; apply Hq; lia].
      cbn [noexcept] in E. injection E as <- <-. split; [|exists k; auto].
      destruct (call_string_ok h clk' m pw (1000 * (N.of_nat k + 1)) 0 (conj Hh (conj Hm Hs)) ltac:(lia)) as [_ HC].
      rewrite HC by apply reached_zero. rewrite iterated_rounds. cbn [rounds]. rewrite N.add_0_l. reflexivity.
  - rewrite string_timed_chain_none in E; [discriminate|assumption|assumption|assumption|exact Hf|].
    intros q Hq. apply Hn. lia.
Qed.
Lemma bytes_timed_reproducible fuel h clk clk' m data rt n b : fits h m -> N.of_nat fuel < 2 ^ 64 ->
  getLen data <= bmax data -> bmax data + salt_len m < 2 ^ 64 ->
  call_bytes_timed fuel h clk m data rt = Ret (n, b) ->
  call_bytes h clk' m data n 0 = Ret (Done b) /\
  exists k, n = 1000 * (N.of_nat k + 1) /\ rt <= clk k /\ forall q, (q < k)%nat -> clk q < rt.
Proof.
  intros (Hh & Hm & Hs) Hf Hd Hc E. rewrite call_bytes_timed_chain in E.
  assert (G : forall j, (exists k, (k < j)%nat /\ rt <= clk k /\ forall q, (q < k)%nat -> clk q < rt) \/ (forall q, (q < j)%nat -> clk q < rt)).
  { induction j as [|j [IH|IH]].
    - right. intros q Hq. lia.
    - left. destruct IH as (k & Hk & Ht). exists k. split; [lia|exact Ht].
    - destruct (N.leb_spec rt (clk j)).
      + left. exists j. split; [lia|]. split; [assumption|exact IH].
      + right. intros q Hq. destruct (Nat.eq_dec q j) as [->|]; [assumption|apply IH; lia]. }
  destruct (G (N.to_nat (N.of_nat fuel / 1000))) as [(k & Hk & Ht & Hq)|Hn].
  - rewrite (bytes_timed_chain_ok h Hh m Hm Hs clk rt fuel data k) in E by (try assumption; lia).
    injection E as <- <-. split; [|exists k; auto].
    destruct (call_bytes_ok h clk' m data (1000 * (N.of_nat k + 1)) 0 (conj Hh (conj Hm Hs)) ltac:(lia) Hd Hc) as (_ & HC & _).
    rewrite HC by (try apply reached_zero; lia). rewrite iterated_rounds.
    replace (S (N.to_nat (1000 * (N.of_nat k + 1) - 1))) with (N.to_nat (1000 * (N.of_nat k + 1))) by lia. reflexivity.
  - rewrite bytes_timed_chain_none in E; [discriminate|assumption|assumption|assumption|assumption|assumption|exact Hf|].
    intros q Hq. apply Hn. lia.
Qed.
Lemma string_timed_returns fuel h clk m pw rt k : fits h m -> 1000 * (N.of_nat k + 1) < 2 ^ 64 ->
  rt <= clk k -> (forall q, (q < k)%nat -> clk q < rt) -> 1000 * (N.of_nat k + 1) <= N.of_nat fuel ->
  exists b, call_string_timed fuel h clk m pw rt = Ret (1000 * (N.of_nat k + 1), b).
Proof.
  intros (Hh & Hm & Hs) H64 Hk Hq Hf. rewrite call_string_timed_chain. eexists. apply string_timed_chain_ok; assumption.
Qed.
Lemma bytes_timed_returns fuel h clk m data rt k : fits h m -> 
  getLen data <= bmax data -> bmax data + salt_len m < 2 ^ 64 -> 1000 * (N.of_nat k + 1) < 2 ^ 64 ->
  rt <= clk k -> (forall q, (q < k)%nat -> clk q < rt) -> 1000 * (N.of_nat k + 1) <= N.of_nat fuel ->
  exists b, call_bytes_timed fuel h clk m data rt = Ret (1000 * (N.of_nat k + 1), b).
Proof.
  intros (Hh & Hm & Hs) Hd Hc H64 Hk Hq Hf. rewrite call_bytes_timed_chain. eexists. apply bytes_timed_chain_ok; assumption.
Qed.
(** C15 *)
Lemma never_crashes h clk m : fits h m ->
  (forall pw iters timeout, iters < 2 ^ 64 -> is_ret (call_string h clk m pw iters timeout) = true) /\
  (forall data iters timeout, iters < 2 ^ 64 -> getLen data <= bmax data -> bmax data + salt_len m < 2 ^ 64 ->
     is_ret (call_bytes h clk m data iters timeout) = true).
Proof.
  intros Hf. split.
  - intros pw iters timeout Hi. rewrite call_string_chain. destruct Hf as (H1 & H2 & H3). rewrite string_chain_ok by assumption.
    destruct (hits _ _ _ _ _); reflexivity.
  - intros data iters timeout Hi Hd Hc. rewrite call_bytes_chain. destruct Hf as (H1 & H2 & H3). rewrite bytes_chain_ok by assumption.
    destruct (hits _ _ _ _ _); reflexivity.
Qed.
(** beyond the size limit the digest is written past its buffer *)
Lemma huge_salt h clk pw s iters timeout : 0 < hsize h -> hsize h < 2 ^ 32 -> 2 ^ 32 - hsize h <= lenN s < 2 ^ 32 ->
  call_string h clk (ConstSalt s) pw iters timeout = Crash Undefined.
Proof.
  intros H0 H1 H2. rewrite call_string_chain. unfold string_chain, do_hash. cbn [salt_len].
  assert (E : w32 (hsize h + w32 (lenN s)) <? hsize h = true).
  { unfold w32. change two32 with (2 ^ 32). rewrite (N.mod_small (lenN s)) by lia.
    replace (hsize h + lenN s) with (hsize h + lenN s - 2 ^ 32 + 1 * 2 ^ 32) by lia.
    rewrite N.mod_add by discriminate. rewrite N.mod_small by lia. lia. }
  rewrite E. reflexivity.
Qed.
