(** Lemmas for C97: what the log tells about the password. *)
From Coq Require Import Strings.String.
From Coq Require Import Lia.
From Verif Require Import Base BaseFacts BytesModel MiscModel CipherModel CipherSpec PwModel PwSpec PwFacts ChModel ChSpec HeaderModel HeaderSpec FileModel ApiModel ApiSpec ApiFacts3 ApiFacts5 ApiFacts6 ApiFacts7 LogModel LogSpec LogFacts9.
Open Scope N_scope.
Open Scope list_scope.
Import ListNotations.

Lemma note_other g l : match l_src l with Dataheader_cpp => False | _ => True end -> note g l = g.
Proof. destruct l as [s [] n fs]; cbn; intro A; try contradiction; reflexivity. Qed.
Lemma study_app g xs ys : fold_left note (xs ++ ys) g = fold_left note ys (fold_left note xs g).
Proof. apply fold_left_app. Qed.
Lemma study_built g h : fold_left note (built_log h) g = mkFindings (Some (h_hmode h)) (Some (h_ch1 h)) (Some (h_ch2 h)) (Some (h_valid h)).
Proof. unfold built_log. destruct (h_ch1 h) as [[m n] b], (h_ch2 h) as [[m' n'] b']. reflexivity. Qed.
Lemma fits_of H ls h q : study ls = mkFindings (Some (h_hmode h)) (Some (h_ch1 h)) (Some (h_ch2 h)) (Some (h_valid h)) -> fits_log H ls q <-> opens H h q.
Proof. intro E. unfold fits_log. rewrite E. reflexivity. Qed.

Lemma password_logged pw ls : password_lines pw = ls <-> password_log pw ls.
Proof.
  destruct (password_policy pw) as (P1 & P2 & P3 & P4 & P5). split.
  - intros <-. unfold password_lines, password_log. destruct P5 as [[[|c|] V]|V]; rewrite V.
    + left. apply P1 in V. destruct V. auto.
    + right. right. left. apply P3 in V. destruct V as (p & r & E & F & Nc & L). exists p, c, r.
      destruct (b2n c <? 128) eqn:B; [apply N.ltb_lt in B|apply N.ltb_ge in B]; eexists; (split; [exact E|]; split; [exact F|]; split; [exact Nc|]; split; [|split; [exact L|reflexivity]]); [left|right]; auto.
    + right. left. apply P2 in V. destruct V. auto.
    + right. right. right. apply P4 in V. destruct V as (p & r & E & F & L). exists p, r. auto.
  - unfold password_lines. intros [(F & L & ->)|[(F & L & ->)|[(p & c & r & x & E & F & Nc & X & L & ->)|(p & r & E & F & L & ->)]]].
    + rewrite (proj2 P1 (conj F L)). reflexivity.
    + rewrite (proj2 P2 (conj F L)). reflexivity.
    + rewrite (proj2 (P3 c) (ex_intro _ p (ex_intro _ r (conj E (conj F (conj Nc L)))))). do 3 f_equal. destruct X as [[B ->]|[B ->]]; [apply N.ltb_lt in B|apply N.ltb_ge in B]; rewrite B; reflexivity.
    + rewrite (proj2 P4 (ex_intro _ p (ex_intro _ r (conj E (conj F L))))). reflexivity.
Qed.
Section Leak.
  Variable H : hashes.
  Hypothesis HH : hashes_ok H.
  Variable bd : build.
  Lemma guess_log mode tr a w f o f' a' r : history bd H mode tr a -> world_ok bd H w -> fs_ok f -> op_ok o -> step w a f o = (f', Ret (a', r)) -> succeeded r = true ->
    let e := mkEntry w f o r f' in of_header e = true -> shows_header o = true ->
    exists h, current H (e :: tr) h /\ forall q, fits_log H (lines_of w a f o) q <-> opens H h q.
  Proof.
    intros Hh W Hf Ho E S e OH SH. destruct (success_logged H HH bd _ _ _ _ _ _ _ _ _ Hh W Hf Ho E S) as (h & C & L). fold e in C, L.
    exists h. split; [exact (C OH) | ]. intro q. apply fits_of.
    unfold logged, of_header in L, OH. cbn [e e_op e_world e_before e_reply] in L, OH. destruct o; try discriminate; cbn [e_op e e_before e_world] in L.
    - destruct (nothing _) in L, OH; [discriminate | ]. rewrite L. unfold study, read_log. rewrite !study_app. cbn [fold_left]. rewrite study_built. reflexivity.
    - rewrite L. unfold study. rewrite !study_app. cbn [fold_left]. rewrite study_built. destruct (a_state a); reflexivity.
    - rewrite L. unfold study. rewrite !study_app. rewrite study_built. reflexivity.
  Qed.
  (** the log of selecting a file answers what a password check would answer *)
  Lemma guess_select mode tr a w f p f' a' w2 f2 q t f3 b x : history bd H mode tr a -> world_ok bd H w -> fs_ok f -> step w a f (OSelect p) = (f', Ret (a', ROk)) ->
    content f (w_loc w p) <> [] -> world_ok bd H w2 -> t < 2 ^ 64 -> step w2 a' f2 (OVerify q t) = (f3, Ret (b, x)) -> x <> RErr TIMEOUT ERR_TIMEOUT ->
    (x = ROk <-> fits_log H (lines_of w a f (OSelect p)) q).
  Proof.
    intros Hh W Hf E Ne W2 Lt E2 T. assert (OH : of_header (mkEntry w f (OSelect p) ROk f') = true).
    { unfold of_header. cbn. destruct (content f (w_loc w p)); [congruence | reflexivity]. }
    destruct (guess_log _ _ _ _ _ (OSelect p) _ _ _ Hh W Hf Logic.I E eq_refl OH eq_refl) as (h & C & G).
    pose proof (hist_call _ _ _ _ _ _ _ _ _ _ _ Hh W Hf (Logic.I : op_ok (OSelect p)) E) as Hh2.
    pose proof C as C0. cbn [current closes e_op e_reply e_before e_world] in C0. destruct C0 as (hsz & l1 & l2 & rest & Wr). rewrite G.
    assert (Es : a_state a' = FILE_SELECTED).
    { destruct (state_step _ _ _ _ _ _ _ Hf E) as [X _]. rewrite (X eq_refl). unfold next_state, selects_empty. destruct (content f (w_loc w p)); [congruence | ].
      destruct (a_state a); try reflexivity; discriminate E. }
    destruct (verify_outcome H HH bd _ _ _ w2 f2 p (content f (w_loc w p)) hsz l1 l2 h rest q t Hh2 W2 Lt Es eq_refl Wr) as [A B].
    assert (verify_in_time w2 t (iterations (h_ch1 h)) (iterations (h_ch2 h)) \/ ~ verify_in_time w2 t (iterations (h_ch1 h)) (iterations (h_ch2 h))) as [V|V].
    { unfold verify_in_time. destruct (reached_dec (w_clk1 w2) t (readings_string (iterations (h_ch1 h)))); [right; tauto|].
      destruct (reached_dec (w_clk2 w2) ((t + 2 ^ 64 - w_elapsed w2) mod 2 ^ 64) (readings_bytes (iterations (h_ch2 h)))); [right; tauto|].
      destruct (N.eq_dec t 0), (N.eq_dec (w_elapsed w2) t); tauto. }
    - destruct (A V) as [A1 A2]. assert (opens H h q \/ ~ opens H h q) as [Y|Y] by (unfold opens; destruct (list_eq_dec Byte.byte_eq_dec (h_valid h) (validator H h (key_of H h q))); tauto).
      + destruct (A1 Y) as (a2 & _ & _ & S2). rewrite S2 in E2. injection E2 as _ _ <-. tauto.
      + rewrite (A2 Y) in E2. injection E2 as _ _ <-. split; [discriminate | tauto].
    - rewrite (B V) in E2. injection E2 as _ _ <-. congruence.
  Qed.
End Leak.
