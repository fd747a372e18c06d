(** Facts about the password policy: how many passwords it admits, and that the API does not ask it. *)
From Coq Require Import Strings.Byte Lia.
From Verif Require Import Base BaseFacts BytesModel MiscModel MiscSpec CipherModel CipherSpec PwModel PwSpec PwFacts ChModel HeaderModel HeaderSpec FileModel ApiModel ApiSpec ApiFacts3 ApiFacts5
  WorkModel WorkSpec SecSpec QuerySpec QueryFacts2 RefSpec2 RefFacts2 CountSpec CountFacts CountFacts2.
Open Scope N_scope.
Open Scope list_scope.

Lemma allowedb_spec c : allowedb c = true <-> allowed c.
Proof. rewrite <- charset_allowedb. apply charset_allowed. Qed.
Lemma allowed_counts : lenN (filter allowedb all_bytes) = 90 /\ lenN (filter (fun b => negb (allowedb b) && false) all_bytes) = 0.
Proof. split; vm_compute; reflexivity. Qed.
Lemma allowed_number L : number (N.of_nat L) (fun l => Forall allowed l) (90 ^ N.of_nat L).
Proof.
  induction L as [|L IH]; [apply number_nil_true; constructor|].
  destruct allowed_counts as [C1 C2]. replace (N.of_nat (S L)) with (1 + N.of_nat L) by lia.
  set (k := fun b : byte => if allowedb b then 90 ^ N.of_nat L else if false then 0 else 0).
  replace (90 ^ (1 + N.of_nat L)) with (sum (map k all_bytes)).
  2:{ unfold k. rewrite (sum_two allowedb (fun _ => false) (90 ^ N.of_nat L) 0). rewrite C1, C2, N.pow_add_r. change (90 ^ 1) with 90. lia. }
  apply number_cons. intros b. unfold k. destruct (allowedb b) eqn:E.
  - apply allowedb_spec in E. eapply number_iff; [|exact IH]. intros l _. split; [constructor; assumption|intros F; inversion F; assumption].
  - apply number_false. intros l F. inversion F; subst. match goal with X : allowed b |- _ => apply allowedb_spec in X; congruence end.
Qed.
Lemma policy_number n : number n (fun pw => isPasswordValid pw = Ret PwOk) (if (8 <=? n) && (n <? 2 ^ 31) then 90 ^ n else 0).
Proof.
  destruct (N.leb_spec 8 n) as [A|A]; destruct (N.ltb_spec n (2 ^ 31)) as [B|B]; cbn [andb].
  - pose proof (allowed_number (N.to_nat n)) as X. rewrite N2Nat.id in X. eapply number_iff; [|exact X].
    intros l L. rewrite (proj1 (password_policy l)), L. tauto.
  - exists []. split; [constructor|]. split; [|reflexivity]. intros l. rewrite (proj1 (password_policy l)). split; [intros []|intros [L [_ C]]; rewrite L in C; lia].
  - exists []. split; [constructor|]. split; [|reflexivity]. intros l. rewrite (proj1 (password_policy l)). split; [intros []|intros [L [_ C]]; rewrite L in C; lia].
  - exists []. split; [constructor|]. split; [|reflexivity]. intros l. rewrite (proj1 (password_policy l)). split; [intros []|intros [L [_ C]]; rewrite L in C; lia].
Qed.
(** the list of all admitted passwords of one length, as guesses *)
Lemma policy_search n h : header_ok h -> 8 <= n < 2 ^ 31 -> 90 ^ n <= 2 ^ 64 -> exists gs, NoDup gs /\
  (forall g, In g gs <-> lenN g = n /\ isPasswordValid g = Ret PwOk) /\
  forall p, decides h gs p -> forall H0, hashes_ok H0 -> exists H, hashes_ok H /\ 90 ^ n * check_rounds h <= lenN (asked (hash_of H (h_hmode h)) p).
Proof.
  intros Hok [A B] L. destruct (policy_number n) as (gs & D & I & E).
  destruct (N.leb_spec 8 n); [|lia]. destruct (N.ltb_spec n (2 ^ 31)); [|lia]. cbn [andb] in E.
  exists gs. split; [exact D|]. split; [exact I|]. intros p Dp HF HH. rewrite <- E in L |- *. exact (guesses_cost h Hok gs p Dp D L HF HH).
Qed.
(** the printable characters that are refused: blank, quotation marks, backslash, circumflex, grave accent, bar *)
Definition refused_printable : bytes := [x20; x22; x27; x5c; x5e; x60; x7c].
Lemma printable_refused c : 32 <= b2n c < 127 -> (~ allowed c <-> In c refused_printable).
Proof.
  rewrite <- charset_refused.
  assert (forallb (fun c => Bool.eqb (negb (in_charset c VALID_PASS_CHARSET)) (existsb (Byte.eqb c) refused_printable) || negb ((32 <=? b2n c) && (b2n c <? 127))) all_bytes = true) as A by (vm_compute; reflexivity).
  intros R. rewrite forallb_forall in A. specialize (A c (all_bytes_in c)).
  destruct (N.leb_spec 32 (b2n c)); [|lia]. destruct (N.ltb_spec (b2n c) 127); [|lia]. cbn [andb negb] in A. rewrite Bool.orb_false_r in A. apply Bool.eqb_prop in A.
  assert (existsb (Byte.eqb c) refused_printable = true <-> In c refused_printable) as X.
  { rewrite existsb_exists. split; [intros (x & Hx & Ex); apply Byte.byte_dec_bl in Ex; subst; exact Hx|intros Hx; exists c; split; [exact Hx|apply Byte.byte_dec_lb; reflexivity]]. }
  rewrite <- X, <- A. destruct (in_charset c VALID_PASS_CHARSET); cbn; split; congruence.
Qed.
Lemma unprintable_allowed c : ~ 32 <= b2n c < 127 -> (allowed c <-> c = xc2 \/ c = xa7).
Proof.
  rewrite <- charset_allowed. intros R.
  assert (forallb (fun c => Bool.eqb (in_charset c VALID_PASS_CHARSET) (Byte.eqb c xc2 || Byte.eqb c xa7) || ((32 <=? b2n c) && (b2n c <? 127))) all_bytes = true) as A by (vm_compute; reflexivity).
  rewrite forallb_forall in A. specialize (A c (all_bytes_in c)).
  assert ((32 <=? b2n c) && (b2n c <? 127) = false) as F by (destruct (N.leb_spec 32 (b2n c)); destruct (N.ltb_spec (b2n c) 127); cbn; try reflexivity; lia).
  rewrite F, Bool.orb_false_r in A. apply Bool.eqb_prop in A. rewrite A, Bool.orb_true_iff. split.
  - intros [E|E]; apply Byte.byte_dec_bl in E; auto.
  - intros [->| ->]; [left|right]; reflexivity.
Qed.
(** ** createDataHeader treats all passwords alike *)
Lemma any_password H : hashes_ok H -> forall bd mode tr a w f ds t, history bd H mode tr a -> world_ok bd H w -> settings_made ds -> t < 2 ^ 64 ->
  exists r, forall pw, exists a', step w a f (OHeader pw ds t) = (f, Ret (a', r)).
Proof.
  intros HH bd mode tr a w f ds t Hh (_ & EH & WR & We) Sm Lt. pose proof (history_inv _ HH _ _ _ _ Hh) as [Em _]. cbn [step].
  destruct (set_isComplete ds) eqn:C; cbn [negb]; [|eexists; intros pw; eexists; reflexivity].
  assert (exists e, forall pw, match e with Some x => createHeaderIters w (a_mode a) pw ds t = dfail x | None => exists dk, createHeaderIters w (a_mode a) pw ds t = dret dk end) as [e X].
  { rewrite Em. destruct (create_header H HH w [] ds t EH WR We Lt Sm C) as (it1 & it2 & N1 & N2 & _).
    assert (create_in_time w t it1 it2 \/ ~ create_in_time w t it1 it2) as [T|T].
    { destruct (RefSpec2.create_timely w t it1 it2) eqn:T; [left; apply RefFacts2.create_timely_iff; exact T|right; rewrite <- RefFacts2.create_timely_iff; congruence]. }
    - destruct (N.le_gt_cases (lenN (s_dec ds)) 255) as [X|X]; [destruct (N.le_gt_cases (lenN (s_enc ds)) 255) as [Y|Y]|].
      + exists None. intros pw. destruct (create_header H HH w pw ds t EH WR We Lt Sm C) as (i1 & i2 & M1 & M2 & _ & B). rewrite N1 in M1. rewrite N2 in M2. injection M1 as <-. injection M2 as <-.
        destruct (B T) as [_ B2]. destruct (B2 X Y) as (d & k & h & E & _). exists (d, k). exact E.
      + exists (Some ERR). intros pw. destruct (create_header H HH w pw ds t EH WR We Lt Sm C) as (i1 & i2 & M1 & M2 & _ & B). rewrite N1 in M1. rewrite N2 in M2. injection M1 as <-. injection M2 as <-.
        destruct (B T) as [B1 _]. apply B1. lia.
      + exists (Some ERR). intros pw. destruct (create_header H HH w pw ds t EH WR We Lt Sm C) as (i1 & i2 & M1 & M2 & _ & B). rewrite N1 in M1. rewrite N2 in M2. injection M1 as <-. injection M2 as <-.
        destruct (B T) as [B1 _]. apply B1. lia.
    - exists (Some ERR_TIMEOUT). intros pw. destruct (create_header H HH w pw ds t EH WR We Lt Sm C) as (i1 & i2 & M1 & M2 & A & _). rewrite N1 in M1. rewrite N2 in M2. injection M1 as <-. injection M2 as <-.
      apply A. exact T. }
  destruct (a_state a); try (eexists; intros pw; eexists; reflexivity).
  - destruct e as [e|].
    + exists (failed e). intros pw. rewrite (X pw). eexists. reflexivity.
    + exists ROk. intros pw. destruct (X pw) as ([d k] & E). rewrite E. eexists. reflexivity.
  - destruct e as [e|].
    + exists (failed e). intros pw. rewrite (X pw). eexists. reflexivity.
    + exists ROk. intros pw. destruct (X pw) as ([d k] & E). rewrite E. eexists. reflexivity.
Qed.
