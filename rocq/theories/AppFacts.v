(** Lemmas for C85. *)
From Coq Require Import ZArith.
From Verif Require Import Base BaseFacts MiscModel MiscFacts PwModel PwFacts ChModel AppModel AppSpec.
Open Scope N_scope.


Lemma is_space_spec c : is_space c = true <-> white c.
Proof. unfold is_space, white. rewrite orb_true_iff, andb_true_iff, N.eqb_eq, !N.leb_le. reflexivity. Qed.
Lemma is_dig_spec c : is_dig c = true <-> is_digit c.
Proof. unfold is_dig, is_digit. rewrite andb_true_iff, !N.leb_le. reflexivity. Qed.
Lemma skip_space_split s : exists sp, s = sp ++ skip_space s /\ Forall white sp /\ (forall c r, skip_space s = c :: r -> ~ white c).
Proof.
  induction s as [|c s (sp & E & F & G)]; [exists []; repeat split; [constructor|discriminate]|]. cbn [skip_space]. destruct (is_space c) eqn:S.
  - exists (c :: sp). split; [cbn; f_equal; exact E|]. split; [constructor; [apply is_space_spec, S|exact F]|exact G].
  - exists []. split; [reflexivity|]. split; [constructor|]. intros d r H W. injection H as -> ->. apply is_space_spec in W. congruence.
Qed.
Lemma skip_space_app sp s : Forall white sp -> (forall c r, s = c :: r -> ~ white c) -> skip_space (sp ++ s) = s.
Proof.
  intros F G. induction F as [|c sp W F IH]; cbn [app skip_space].
  - destruct s as [|c r]; [reflexivity|]. cbn [skip_space]. destruct (is_space c) eqn:S; [|reflexivity]. apply is_space_spec in S. destruct (G c r eq_refl S).
  - apply is_space_spec in W. rewrite W. exact IH.
Qed.
Lemma lead_digits_split s : exists rest, s = lead_digits s ++ rest /\ Forall is_digit (lead_digits s) /\ (forall c r, rest = c :: r -> ~ is_digit c).
Proof.
  induction s as [|c s (rest & E & F & G)]; [exists []; repeat split; [constructor|discriminate]|]. cbn [lead_digits]. destruct (is_dig c) eqn:S.
  - exists rest. split; [cbn; f_equal; exact E|]. split; [constructor; [apply is_dig_spec, S|exact F]|exact G].
  - exists (c :: s). split; [reflexivity|]. split; [constructor|]. intros d r H W. injection H as -> ->. apply is_dig_spec in W. congruence.
Qed.
Lemma lead_digits_app ds rest : Forall is_digit ds -> (forall c r, rest = c :: r -> ~ is_digit c) -> lead_digits (ds ++ rest) = ds.
Proof.
  intros F G. induction F as [|c ds W F IH]; cbn [app lead_digits].
  - destruct rest as [|c r]; [reflexivity|]. cbn [lead_digits]. destruct (is_dig c) eqn:S; [|reflexivity]. apply is_dig_spec in S. destruct (G c r eq_refl S).
  - apply is_dig_spec in W. rewrite W. f_equal. exact IH.
Qed.
Lemma number_of_val ds : number_of ds = Z.of_N (dec_val ds 0).
Proof. unfold number_of. rewrite dec_val_fold. reflexivity. Qed.

Lemma stoi_mode max l m : max <= 255 -> (stoi l = Some (Z.of_N m) /\ 1 <= m <= max) <-> names_mode max l m.
Proof.
  intros MX. split.
  - intros [S R]. unfold stoi in S. destruct (skip_space_split l) as (sp & E & F & _). set (t := skip_space l) in *.
    destruct (match t with [] => (false, t) | c :: r => if b2n c =? 45 then (true, r) else if b2n c =? 43 then (false, r) else (false, t) end) as [neg s] eqn:N.
    destruct (lead_digits_split s) as (rest & E2 & F2 & G2). destruct (lead_digits s) as [|d ds] eqn:L; [discriminate|].
    rewrite number_of_val in S. destruct neg.
    + destruct (_ && _)%Z in S; [|discriminate]. injection S as S. lia.
    + destruct (_ && _)%Z in S; [|discriminate]. injection S as S.
      assert (K : exists sg, t = sg ++ s /\ (sg = [] \/ sg = [x2b])).
      { destruct t as [|c r]; [exists []; split; [cbn [app]; congruence|left; reflexivity]|]. destruct (N.eqb_spec (b2n c) 45); [discriminate|].
        destruct (N.eqb_spec (b2n c) 43) as [Q|Q]; [|exists []; split; [cbn [app]; congruence|left; reflexivity]].
        exists [x2b]. split; [|right; reflexivity]. injection N as <-. cbn [app]. f_equal. apply b2n_inj. rewrite Q. reflexivity. }
      destruct K as (sg & K & SG). exists sp, sg, (d :: ds), rest.
      split; [|split; [exact F|split; [exact SG|split; [discriminate|split; [exact F2|split; [exact G2|split; [apply N2Z.inj; exact S|exact R]]]]]]].
      rewrite E, K, <- E2. reflexivity.
  - intros (sp & sg & ds & rest & -> & F & SG & NE & D & G & V & R). split; [|exact R]. destruct ds as [|d ds]; [congruence|].
    assert (DD : is_digit d) by (inversion D; assumption). unfold is_digit in DD.
    unfold stoi. rewrite skip_space_app; [|exact F|].
    + assert (K : (match sg ++ (d :: ds) ++ rest with [] => (false, sg ++ (d :: ds) ++ rest) | c :: r => if b2n c =? 45 then (true, r) else if b2n c =? 43 then (false, r) else (false, sg ++ (d :: ds) ++ rest) end) = (false, (d :: ds) ++ rest)).
      { destruct SG as [-> | ->]; cbn [app]; [|reflexivity]. destruct (N.eqb_spec (b2n d) 45); [lia|]. destruct (N.eqb_spec (b2n d) 43); [lia|reflexivity]. }
      rewrite K, (lead_digits_app _ _ D G), number_of_val, V.
      replace ((-2147483648 <=? Z.of_N m) && (Z.of_N m <=? 2147483647))%Z with true; [reflexivity|]. symmetry. apply andb_true_iff. split; apply Z.leb_le; lia.
    + intros c r E W. unfold white in W. destruct SG as [-> | ->]; cbn [app] in E; injection E as <- _; [lia|]. cbn in W. lia.
Qed.

Lemma isValidMode_cases max l blank : max <= 255 -> exists r, isValidMode max l blank = Ret r /\
  (r = true <-> (l = [] /\ blank = true) \/ exists m, names_mode max l m).
Proof.
  intros MX. destruct l as [|c l].
  - exists blank. split; [reflexivity|]. split; [intros ->; left; auto|]. intros [[_ H]|[m (sp & sg & ds & rest & E & _ & _ & NE & _)]]; [exact H|].
    destruct sp; [|discriminate]. destruct sg; [|discriminate]. destruct ds; [congruence|discriminate].
  - unfold isValidMode. set (s := c :: l) in *. unfold isValidChar.
    assert (G : forall v, (0 <= v < 256)%Z -> stoi s = Some v -> ((1 <=? Z.to_N (v mod 256)) && (Z.to_N (v mod 256) <=? max) = true <-> exists m, names_mode max s m)).
    { intros v R E. rewrite Z.mod_small by exact R. rewrite andb_true_iff, !N.leb_le. split.
      - intros H. exists (Z.to_N v). apply stoi_mode; [exact MX|]. rewrite E. split; [f_equal; lia|exact H].
      - intros [m H]. apply stoi_mode in H; [|exact MX]. destruct H as [H1 H2]. rewrite E in H1. injection H1 as ->. rewrite N2Z.id. exact H2. }
    assert (NO : (forall v, stoi s = Some v -> ~ (0 <= v < 256)%Z) -> ~ (exists m, names_mode max s m)).
    { intros H [m N]. apply stoi_mode in N; [|exact MX]. destruct N as [E R]. apply (H _ E). lia. }
    destruct (stoi s) as [v|] eqn:E.
    + destruct (Z.leb_spec 0 v) as [A|A]; [destruct (Z.ltb_spec v 256) as [B|B]|]; cbn [andb negb noexcept].
      * eexists. split; [reflexivity|]. rewrite (G v) by (lia || reflexivity). split; [auto|]. intros [[H _]|H]; [discriminate|exact H].
      * exists false. split; [reflexivity|]. split; [discriminate|]. intros [[H _]|H]; [discriminate|]. destruct NO; [|exact H]. intros w Q. injection Q as <-. lia.
      * exists false. split; [reflexivity|]. split; [discriminate|]. intros [[H _]|H]; [discriminate|]. destruct NO; [|exact H]. intros w Q. injection Q as <-. lia.
    + exists false. split; [reflexivity|]. split; [discriminate|]. intros [[H _]|H]; [discriminate|]. destruct NO; [|exact H]. discriminate.
Qed.

Lemma askMode_spec max standard lines : max <= 255 -> exists m rest, askMode max standard lines = Ret (m, rest) /\
  ((exists bad l, lines = bad ++ l :: rest /\ answers max standard l m /\ Forall (fun b => forall k, ~ answers max standard b k) bad) \/
   (rest = [] /\ m = standard /\ Forall (fun b => forall k, ~ answers max standard b k) lines)).
Proof.
  intros MX. induction lines as [|l r IH].
  - exists standard, []. split; [reflexivity|]. right. repeat split. constructor.
  - cbn [askMode]. destruct (isValidMode_cases max l true MX) as (ok & E & H). rewrite E. cbn [bind]. destruct ok.
    + destruct (proj1 H eq_refl) as [[-> _]|[m N]].
      * cbn [bind]. exists standard, r. split; [reflexivity|]. left. exists [], []. repeat split; [left; auto|constructor].
      * assert (L : l <> []) by (destruct N as (sp & sg & ds & rest & Q & _ & _ & NE & _); intros ->; destruct sp; [|discriminate]; destruct sg; [|discriminate]; destruct ds; [congruence|discriminate]).
        pose proof N as N0. apply stoi_mode in N; [|exact MX]. destruct N as [S R]. exists m, r.
        destruct l as [|c l]; [congruence|]. rewrite S. cbn [bind]. rewrite Z.mod_small by lia. rewrite N2Z.id. split; [reflexivity|].
        left. exists [], (c :: l). split; [reflexivity|]. split; [right; exact N0|constructor].
    + destruct IH as (m & rest & A & B). exists m, rest. split; [exact A|].
      assert (BAD : forall k, ~ answers max standard l k).
      { intros k [[-> _]|N]; [|destruct H as [_ H]; discriminate H; right; exists k; exact N]. destruct H as [_ H]. discriminate H. left; auto. }
      destruct B as [(bad & a & -> & B1 & B2)|(-> & -> & B)]; [left; exists (l :: bad), a; split; [reflexivity|split; [exact B1|constructor; assumption]]|right; repeat split; constructor; assumption].
Qed.


Lemma digits_not_trip l : Forall is_digit l -> ~ trips_isdigit l.
Proof.
  intros F (p & c & r & -> & _ & H). apply Forall_app in F as [_ F]. inversion F as [|x y D _]; subst. unfold is_digit in D. lia.
Qed.
Lemma all_digits_false s : all_digits s <> Ret true -> all_digits s <> Crash Undefined -> all_digits s = Ret false.
Proof.
  induction s as [|c s IH]; cbn [all_digits]; [congruence|]. unfold isdigit. destruct (128 <=? b2n c); cbn [bind]; [congruence|]. destruct (_ && _); auto.
Qed.
Lemma number_cases l : match isValidNumber l true 1 MAX_ITERATIONS with
  | Ret true => exists v, number_line l v /\ (l <> [] -> stoul l = Some v)
  | Ret false => rejected l
  | Crash Undefined => trips_isdigit l
  | _ => False
  end.
Proof.
  destruct l as [|c l]; [cbn; exists 1000; split; [left; auto|congruence]|]. unfold isValidNumber. set (s := c :: l).
  assert (NE : s <> []) by discriminate.
  destruct (all_digits s) as [b|e|w|] eqn:E.
  - destruct b; cbn [bind].
    + apply all_digits_inv in E. unfold stoul. rewrite dec_val_fold. destruct (N.ltb_spec (dec_val s 0) two64) as [L|L].
      * destruct (N.leb_spec 1 (dec_val s 0)) as [A|A]; [destruct (N.leb_spec (dec_val s 0) MAX_ITERATIONS) as [B|B]|]; cbn [andb].
        -- exists (dec_val s 0). split; [right; repeat split; auto|]. intros _. reflexivity.
        -- split; [|apply digits_not_trip, E]. intros k [[H _]|(_ & _ & <- & H)]; [congruence|]. unfold MAX_ITERATIONS in B. lia.
        -- split; [|apply digits_not_trip, E]. intros k [[H _]|(_ & _ & <- & H)]; [congruence|]. lia.
      * split; [|apply digits_not_trip, E]. intros k [[H _]|(_ & _ & <- & H)]; [congruence|]. unfold two64 in L. lia.
    + split.
      * intros k [[H _]|(_ & F & _)]; [congruence|]. apply all_digits_true in F. congruence.
      * intros T. apply all_digits_undef in T. congruence.
  - exfalso. assert (Q : all_digits s = Ret false) by (apply all_digits_false; rewrite E; discriminate). congruence.
  - destruct w; cbn [bind]; try (exfalso; assert (Q : all_digits s = Ret false) by (apply all_digits_false; rewrite E; discriminate); congruence).
    apply all_digits_undef, E.
  - exfalso. assert (Q : all_digits s = Ret false) by (apply all_digits_false; rewrite E; discriminate). congruence.
Qed.
Lemma askIters_spec lines :
  (exists v rest, askIters lines = Ret (v, rest) /\ 1 <= v <= 1000000000 /\
     ((exists bad l, lines = bad ++ l :: rest /\ number_line l v /\ Forall rejected bad) \/ (rest = [] /\ v = 1000 /\ Forall rejected lines))) \/
  (askIters lines = Crash Undefined /\ exists bad l rest, lines = bad ++ l :: rest /\ trips_isdigit l /\ Forall rejected bad).
Proof.
  induction lines as [|l r IH].
  - left. exists 1000, []. split; [reflexivity|]. split; [lia|]. right. repeat split. constructor.
  - cbn [askIters]. pose proof (number_cases l) as H. destruct (isValidNumber l true 1 MAX_ITERATIONS) as [[|]|e|[| |]|]; try contradiction; cbn [bind].
    + destruct H as (v & N & S). left. exists v, r. assert (R : 1 <= v <= 1000000000) by (destruct N as [[_ ->]|(_ & _ & _ & N)]; lia).
      split; [|split; [exact R|left; exists [], l; split; [reflexivity|split; [exact N|constructor]]]].
      destruct l as [|c l]; [destruct N as [[_ ->]|[N _]]; [reflexivity|congruence]|]. rewrite S by discriminate. reflexivity.
    + destruct IH as [(v & rest & A & R & B)|(A & bad & a & rest & -> & B1 & B2)].
      * left. exists v, rest. split; [exact A|]. split; [exact R|].
        destruct B as [(bad & a & -> & B1 & B2)|(-> & -> & B)]; [left; exists (l :: bad), a; split; [reflexivity|split; [exact B1|constructor; assumption]]|right; repeat split; constructor; assumption].
      * right. split; [exact A|]. exists (l :: bad), a, rest. split; [reflexivity|]. split; [exact B1|constructor; assumption].
    + right. split; [reflexivity|]. exists [], l, r. split; [reflexivity|]. split; [exact H|constructor].
Qed.

Lemma pw_cases pw : (good_pw pw /\ isPasswordValid pw = Ret PwOk) \/ (endless_pw pw /\ isPasswordValid pw = Crash Undefined) \/
  (refused_pw pw /\ exists v, isPasswordValid pw = Ret v /\ v <> PwOk).
Proof.
  destruct (password_policy pw) as (P1 & _ & _ & P4 & P5). destruct P5 as [[v V]|V].
  - destruct v as [|c|]; [left; split; [apply P1, V|exact V]| |]; right; right; (split; [split; [intros G; apply P1 in G; congruence|intros G; apply P4 in G; congruence]|]; eexists; split; [exact V|discriminate]).
  - right. left. split; [apply P4, V|exact V].
Qed.
Lemma not_good_nil : refused_pw [].
Proof.
  split; [intros [_ H]; rewrite lenN_nil in H; lia|]. intros (p & r & E & _ & L). symmetry in E. apply app_eq_nil in E. destruct E as [-> _]. rewrite lenN_nil in L. discriminate.
Qed.
(** the lines up to the first that is not refused *)
Lemma lines_cases lines : Forall refused_pw lines \/ exists bad l rest, lines = bad ++ l :: rest /\ Forall refused_pw bad /\ (good_pw l \/ endless_pw l).
Proof.
  induction lines as [|l ls IH]; [left; constructor|]. destruct (pw_cases l) as [[G _]|[[G _]|[G _]]].
  - right. exists [], l, ls. split; [reflexivity|]. split; [constructor|auto].
  - right. exists [], l, ls. split; [reflexivity|]. split; [constructor|auto].
  - destruct IH as [F|(bad & p & r & -> & F & Q)]; [left; constructor; assumption|]. right. exists (l :: bad), p, r. split; [reflexivity|]. split; [constructor; assumption|exact Q].
Qed.
Lemma ask_bad fuel pw lines : refused_pw pw -> Forall refused_pw lines -> askPasswd fuel pw lines = OutOfFuel.
Proof.
  assert (R : forall l, refused_pw l -> exists v, isPasswordValid l = Ret v /\ v <> PwOk).
  { intros l [A B]. destruct (pw_cases l) as [[C _]|[[C _]|[_ C]]]; [contradiction|contradiction|exact C]. }
  revert pw lines. induction fuel as [|k IH]; intros pw lines P F; [reflexivity|]. cbn [askPasswd].
  destruct lines as [|l r].
  - destruct (R _ P) as (v & -> & V). cbn [bind]. destruct v; [contradiction| |]; apply IH; assumption.
  - inversion F; subst. destruct (R l) as (v & -> & V); [assumption|]. cbn [bind]. destruct v; [contradiction| |]; apply IH; assumption.
Qed.
Lemma ask_first bad pw0 l rest : Forall refused_pw bad ->
  askPasswd (S (length bad)) pw0 (bad ++ l :: rest) = (v <- isPasswordValid l ;; match v with PwOk => Ret (l, rest) | _ => OutOfFuel end).
Proof.
  intros F. revert pw0. induction F as [|a bad Ha F IH]; intros pw0; cbn [app length].
  - cbn [askPasswd]. destruct (isPasswordValid l) as [[]| | |]; reflexivity.
  - change (askPasswd (S (S (length bad))) pw0 (a :: bad ++ l :: rest)) with
      (v <- isPasswordValid a ;; match v with PwOk => Ret (a, bad ++ l :: rest) | _ => askPasswd (S (length bad)) a (bad ++ l :: rest) end).
    destruct Ha as [A B]. destruct (pw_cases a) as [[C _]|[[C _]|[_ (v & -> & V)]]]; [contradiction|contradiction|]. cbn [bind]. destruct v; [contradiction| |]; apply IH.
Qed.
Lemma ask_more k j pw lines : askPasswd k pw lines <> OutOfFuel -> askPasswd (k + j) pw lines = askPasswd k pw lines.
Proof.
  revert pw lines. induction k as [|k IH]; intros pw lines E; [contradiction E; reflexivity|]. cbn [askPasswd Nat.add] in *.
  destruct (match lines with [] => (pw, []) | l :: r0 => (l, r0) end) as [p q]. destruct (isPasswordValid p) as [[]| | |]; cbn [bind] in *; auto.
Qed.
Lemma ask_agree k j pw lines x y : askPasswd k pw lines = x -> askPasswd j pw lines = y -> x <> OutOfFuel -> y <> OutOfFuel -> x = y.
Proof.
  intros X Y Nx Ny. rewrite <- X, <- Y. rewrite <- (ask_more k j) by congruence. rewrite <- (ask_more j k) by congruence. rewrite Nat.add_comm. reflexivity.
Qed.
Lemma ask_good bad pw0 pw rest : Forall refused_pw bad -> good_pw pw -> askPasswd (S (length bad)) pw0 (bad ++ pw :: rest) = Ret (pw, rest).
Proof. intros F G. rewrite (ask_first _ _ _ _ F). apply (proj1 (password_policy pw)) in G. rewrite G. reflexivity. Qed.
Lemma ask_endless bad pw0 pw rest : Forall refused_pw bad -> endless_pw pw -> askPasswd (S (length bad)) pw0 (bad ++ pw :: rest) = Crash Undefined.
Proof. intros F G. rewrite (ask_first _ _ _ _ F). apply (proj1 (proj2 (proj2 (proj2 (password_policy pw))))) in G. rewrite G. reflexivity. Qed.
Lemma askPasswd_spec lines pw rest :
  (exists fuel, askPasswd fuel [] lines = Ret (pw, rest)) <-> exists bad, lines = bad ++ pw :: rest /\ good_pw pw /\ Forall refused_pw bad.
Proof.
  split; [|intros (bad & -> & G & F); exists (S (length bad)); apply ask_good; assumption].
  intros [fuel E]. destruct (lines_cases lines) as [F|(bad & p & r & -> & F & [G|G])].
  - rewrite (ask_bad fuel [] lines not_good_nil F) in E. discriminate.
  - pose proof (ask_agree _ _ _ _ _ _ (ask_good bad [] p r F G) E ltac:(discriminate) ltac:(discriminate)) as X. injection X as -> ->. exists bad. auto.
  - pose proof (ask_agree _ _ _ _ _ _ (ask_endless bad [] p r F G) E ltac:(discriminate) ltac:(discriminate)) as X. discriminate X.
Qed.
Lemma askPasswd_hangs lines : Forall refused_pw lines <-> forall fuel, askPasswd fuel [] lines = OutOfFuel.
Proof.
  split; [intros F fuel; apply ask_bad; [exact not_good_nil|exact F]|]. intros H.
  destruct (lines_cases lines) as [F|(bad & p & r & -> & F & [G|G])]; [exact F| |]; specialize (H (S (length bad)));
    [rewrite (ask_good bad [] p r F G) in H|rewrite (ask_endless bad [] p r F G) in H]; discriminate.
Qed.
Lemma askPasswd_undefined lines : (exists fuel, askPasswd fuel [] lines = Crash Undefined) <-> exists bad l rest, lines = bad ++ l :: rest /\ endless_pw l /\ Forall refused_pw bad.
Proof.
  split; [|intros (bad & l & rest & -> & G & F); exists (S (length bad)); apply ask_endless; assumption].
  intros [fuel E]. destruct (lines_cases lines) as [F|(bad & p & r & -> & F & [G|G])].
  - rewrite (ask_bad fuel [] lines not_good_nil F) in E. discriminate.
  - pose proof (ask_agree _ _ _ _ _ _ (ask_good bad [] p r F G) E ltac:(discriminate) ltac:(discriminate)) as X. discriminate X.
  - exists bad, p, r. auto.
Qed.
