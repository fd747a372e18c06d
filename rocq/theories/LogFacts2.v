(** Lemmas for C97: what a call does depends on secrets only through their sizes, except for the check of a password. *)
From Coq Require Import Strings.String.
From Coq Require Import Lia.
From Verif Require Import Base BytesModel MiscModel CipherModel PwModel ChModel HeaderModel HeaderSpec FileModel ApiModel ApiSpec LogModel LogSpec LogFacts1.
Open Scope N_scope.
Open Scope list_scope.

Definition orel {A B} (R : A -> B -> Prop) (x : outcome A) (y : outcome B) : Prop :=
  match x, y with
  | Ret a, Ret b => R a b
  | Throw e, Throw e' => e = e'
  | Crash c, Crash c' => c = c'
  | OutOfFuel, OutOfFuel => True
  | _, _ => False
  end.
Lemma orel_bind {A B C D} (R : A -> B -> Prop) (S : C -> D -> Prop) m m' k k' : orel R m m' -> (forall x y, R x y -> orel S (k x) (k' y)) -> orel S (bind m k) (bind m' k').
Proof. destruct m, m'; cbn; intros H K; try tauto; try congruence; auto. Qed.
Lemma orel_refl {A} (R : A -> A -> Prop) m : (forall x, R x x) -> orel R m m.
Proof. destruct m; cbn; auto. Qed.
Lemma orel_eq {A} (m : outcome A) : orel eq m m.
Proof. apply orel_refl; auto. Qed.
Lemma orel_noexcept {A B} (R : A -> B -> Prop) m m' : orel R m m' -> orel R (noexcept m) (noexcept m').
Proof. destruct m, m'; cbn; try tauto; congruence. Qed.
Lemma orel_imp {A B} (R S : A -> B -> Prop) m m' : orel R m m' -> (forall x y, R x y -> S x y) -> orel S m m'.
Proof. destruct m, m'; cbn; auto. Qed.

Lemma sized_refl x : sized x x.
Proof. split; reflexivity. Qed.
Lemma sized_sym x y : sized x y -> sized y x.
Proof. intros [A B]; split; auto. Qed.
Lemma sized_len x y : sized x y -> getLen x = getLen y.
Proof. intros [H _]. exact H. Qed.
Lemma sized_max x y : sized x y -> bmax x = bmax y.
Proof. intros [_ H]. exact H. Qed.
Lemma sized_copy x y : sized x y -> sized (copyBytes x) (copyBytes y).
Proof. intro S. exact S. Qed.
Lemma opt_refl {A} (R : A -> A -> Prop) o : (forall x, R x x) -> opt_rel R o o.
Proof. destruct o; cbn; auto. Qed.
Ltac sz := repeat match goal with
  | H : sized ?x ?y |- context [getLen ?x] => progress rewrite (sized_len _ _ H)
  | H : sized ?x ?y |- context [bmax ?x] => progress rewrite (sized_max _ _ H)
  end.

Lemma lenN_app {A} (x y : list A) : lenN (x ++ y) = lenN x + lenN y.
Proof. unfold lenN. rewrite app_length. lia. Qed.
Lemma zipb_len f x y : lenN x = lenN y -> lenN (zipb f x y) = lenN x.
Proof.
  unfold lenN. intro E. f_equal. apply Nnat.Nat2N.inj in E. revert y E.
  induction x as [|a x IH]; intros [|b y] E; cbn in *; try discriminate; auto.
Qed.
Lemma slice_len s e (x y : bytes) : lenN x = lenN y -> lenN (sliceN s e x) = lenN (sliceN s e y).
Proof. intro E. unfold sliceN, takeN, dropN, lenN in *. rewrite !firstn_length, !skipn_length. lia. Qed.

Lemma r_addcopy x x' t t' : sized x x' -> sized t t' -> orel sized (addcopyToBytes x t) (addcopyToBytes x' t').
Proof.
  intros X T. unfold addcopyToBytes. sz. destruct (_ <? _); cbn; [reflexivity | ].
  split; cbn; [ | first [apply T | reflexivity]]. rewrite !lenN_app. destruct X as [X _], T as [T _]. congruence.
Qed.
Lemma r_addByte c t t' : sized t t' -> orel sized (addByte c t) (addByte c t').
Proof.
  intros T. unfold addByte. sz. destruct (_ <=? _); cbn; [reflexivity | ].
  split; cbn; [ | first [apply T | reflexivity]]. rewrite !lenN_app. destruct T as [T _]. congruence.
Qed.
Lemma r_addBytes c t t' : sized t t' -> orel sized (addBytes c t) (addBytes c t').
Proof.
  intros T. unfold addBytes. sz. destruct (_ <? _); cbn; [reflexivity | ].
  split; cbn; [ | first [apply T | reflexivity]]. rewrite !lenN_app. destruct T as [T _]. congruence.
Qed.
Lemma r_addString c t t' : sized t t' -> orel sized (addStringToBytes c t) (addStringToBytes c t').
Proof. intros T. unfold addStringToBytes. sz. destruct (_ <? _); cbn; [reflexivity | ]. apply r_addBytes, T. Qed.
Lemma r_setBytes c t t' : sized t t' -> orel sized (setBytes c t) (setBytes c t').
Proof. intros T. unfold setBytes. sz. destruct (_ <? _); cbn; [reflexivity | ]. split; cbn; reflexivity. Qed.
Lemma r_plus x x' y y' : sized x x' -> sized y y' -> orel sized (plusBytes x y) (plusBytes x' y').
Proof.
  intros X Y. unfold plusBytes. sz. destruct (_ =? _) eqn:E; cbn; [ | reflexivity].
  apply N.eqb_eq in E. destruct X as [X XM], Y as [Y _]. unfold getLen in *. split; cbn; [ | congruence].
  rewrite !zipb_len by congruence. exact X.
Qed.
Lemma r_minus x x' y y' : sized x x' -> sized y y' -> orel sized (minusBytes x y) (minusBytes x' y').
Proof.
  intros X Y. unfold minusBytes. sz. destruct (_ =? _) eqn:E; cbn; [ | reflexivity].
  apply N.eqb_eq in E. destruct X as [X XM], Y as [Y _]. unfold getLen in *. split; cbn; [ | congruence].
  rewrite !zipb_len by congruence. exact X.
Qed.
Lemma r_sub s e x x' : sized x x' -> orel sized (copySubBytes s e x) (copySubBytes s e x').
Proof.
  intros X. unfold copySubBytes. sz. destruct (_ <? _); cbn; [reflexivity | ]. destruct (_ <? _); cbn; [reflexivity | ].
  split; cbn; [ | reflexivity]. apply slice_len, X.
Qed.

(** ** Hash functions *)
Definition hlen (h : hashfn) : Prop := forall x y, lenN (hfun h x) = lenN (hfun h y).
Lemma getHash_hlen H m h : hashes_ok H -> getHash H m = Ret h -> hlen h.
Proof.
  intros [A [B C]] E. unfold getHash in E.
  destruct m as [|[[?|?|]|[?|?|]|]]; try discriminate E; inversion E; intros x y; cbn; congruence.
Qed.
Section WithHash.
Variable h : hashfn.
Hypothesis HL : hlen h.
Lemma r_hash x y n : orel sized (do_hash h x n) (do_hash h y n).
Proof. unfold do_hash. destruct (_ <? _); cbn; [reflexivity | ]. split; cbn; [apply HL | reflexivity]. Qed.

Definition res_like (x y : chres) : Prop := match x, y with Done b, Done c => sized b c | TimedOut, TimedOut => True | _, _ => False end.
Lemma r_salt sf n t t' : sized t t' -> orel sized (add_salt sf n t) (add_salt sf n t').
Proof. intro T. destruct sf; cbn; [apply r_addString, T | exact T]. Qed.
Lemma r_string_loop clk sf ex timeout k : forall i peeks start t t', sized t t' ->
  orel res_like (string_loop h clk sf ex timeout k i peeks start t) (string_loop h clk sf ex timeout k i peeks start t').
Proof.
  induction k as [|k IH]; intros; cbn [string_loop]; [exact H | ].
  eapply orel_bind; [apply r_salt, H | intros x y X]. eapply orel_bind; [apply r_hash | intros x2 y2 X2].
  destruct (_ && _); [ | apply IH, X2]. destruct (_ <=? _); [exact I | apply IH, X2].
Qed.
Lemma r_string_chain clk sf ex it start timeout x y : orel res_like (string_chain h clk sf ex it start timeout x) (string_chain h clk sf ex it start timeout y).
Proof. unfold string_chain. apply orel_noexcept. eapply orel_bind; [apply r_hash | intros; apply r_string_loop; auto]. Qed.
Lemma r_bytes_loop clk sf ex timeout k : forall i peeks start t t', sized t t' ->
  orel res_like (bytes_loop h clk sf ex timeout k i peeks start t) (bytes_loop h clk sf ex timeout k i peeks start t').
Proof.
  induction k as [|k IH]; intros; cbn [bytes_loop]; [exact H | ].
  eapply orel_bind; [apply r_salt, H | intros x y X]. eapply orel_bind; [apply r_hash | intros x2 y2 X2].
  destruct (_ && _); [ | apply IH, X2]. destruct (_ <=? _); [exact I | apply IH, X2].
Qed.
Lemma r_bytes_chain clk sf cp ex it start timeout x y : sized x y -> orel res_like (bytes_chain h clk sf cp ex it start timeout x) (bytes_chain h clk sf cp ex it start timeout y).
Proof.
  intro S. unfold bytes_chain. apply orel_noexcept. apply r_bytes_loop. destruct S as [A B]. split; cbn; congruence.
Qed.
Ltac eqb_ := eapply orel_bind; [apply orel_eq | intros ? ? <-].
Lemma r_perform_s clk c x y t : orel res_like (performChainHash_s h clk c x t) (performChainHash_s h clk c y t).
Proof.
  unfold performChainHash_s. eqb_. destruct x0 as [|[[[?|?|]|[?|?|]|]|[[?|?|]|[?|?|]|]|]]; try reflexivity; repeat eqb_; apply r_string_chain.
Qed.
Lemma r_perform_b clk c x y t : sized x y -> orel res_like (performChainHash_b h clk c x t) (performChainHash_b h clk c y t).
Proof.
  intro S. unfold performChainHash_b. eqb_. destruct x0 as [|[[[?|?|]|[?|?|]|]|[[?|?|]|[?|?|]|]|]]; try reflexivity; repeat eqb_; apply r_bytes_chain, S.
Qed.

(** ** The cipher *)
Definition si_like (x y : saltiter) : Prop :=
  si_ready x = si_ready y /\ si_first x = si_first y /\ sized (si_hash x) (si_hash y) /\ sized (si_salt x) (si_salt y) /\ si_obj x = h /\ si_obj y = h.
Definition blk_like (x y : block) : Prop :=
  blk_len x = blk_len y /\ sized (blk_data x) (blk_data y) /\ sized (blk_salt x) (blk_salt y) /\ sized (blk_dec_hash x) (blk_dec_hash y) /\ blk_obj x = h /\ blk_obj y = h.
Definition chain_like (x y : chain) : Prop :=
  c_kind x = c_kind y /\ opt_rel blk_like (c_cur x) (c_cur y) /\ opt_rel sized (c_res x) (c_res y) /\ si_like (c_si x) (c_si y) /\ c_hs x = c_hs y /\ c_height x = c_height y.
Definition pair_like {A B} (R : A -> A -> Prop) (S : B -> B -> Prop) (x y : A * B) : Prop := R (fst x) (fst y) /\ S (snd x) (snd y).

Lemma r_si_init k k' s : sized k k' -> orel si_like (si_init k s h) (si_init k' s h).
Proof.
  intro K. unfold si_init. sz. destruct (negb _); [reflexivity | ]. destruct (negb _); [reflexivity | ].
  cbn. repeat split; auto; apply K.
Qed.
Lemma r_si_next x y b b' : si_like x y -> sized b b' -> orel (pair_like sized si_like) (si_next x b) (si_next y b').
Proof.
  intros [E1 [E2 [E3 [E4 [E5 E6]]]]] B. unfold si_next. rewrite E5, E6, E2. cbv zeta.
  eapply orel_bind with (R := sized). { destruct (si_first y); [apply r_setBytes, B | exact B]. }
  intros l l' L. sz. rewrite E1. destruct (negb _); [reflexivity | ]. destruct (negb _); [reflexivity | ].
  repeat (eapply orel_bind; [first [apply r_hash | apply r_plus; eassumption] | intros ? ? ?]).
  cbn. split; [assumption | ]. cbn. repeat split; try assumption; try apply H1; try apply H4.
Qed.
Lemma r_new_block s s' : sized s s' -> orel blk_like (new_block h s) (new_block h s').
Proof.
  intro S. unfold new_block. sz. destruct (_ =? _); [reflexivity | ]. destruct (negb _); [reflexivity | ].
  cbn. repeat split; try reflexivity; apply S.
Qed.
Lemma blk_free_like x y : blk_like x y -> blk_free x = blk_free y.
Proof. intros [A [B _]]. unfold blk_free. sz. rewrite A. reflexivity. Qed.
Lemma r_blk_getHash x y : blk_like x y -> orel sized (blk_getHash x) (blk_getHash y).
Proof.
  intro B. unfold blk_getHash. rewrite (blk_free_like _ _ B). destruct B as [A [B [C [D _]]]]. sz.
  destruct (negb _); [reflexivity | ]. destruct (_ =? _); [reflexivity | exact D].
Qed.
Lemma r_blk_addData k d d' x y : sized d d' -> blk_like x y -> orel blk_like (blk_addData k d x) (blk_addData k d' y).
Proof.
  intros D B. unfold blk_addData. rewrite (blk_free_like _ _ B). sz. destruct (_ <? _); [reflexivity | ].
  pose proof B as [A [B1 [C [E [F G]]]]].
  eapply orel_bind; [apply r_addcopy; [exact D | exact B1] | intros d1 d2 DD]. cbv zeta.
  assert (L : blk_like (mkBlock (blk_len x) d1 (blk_salt x) (blk_dec_hash x) (blk_obj x)) (mkBlock (blk_len y) d2 (blk_salt y) (blk_dec_hash y) (blk_obj y))).
  { repeat split; cbn; try assumption; try apply DD; try apply C; try apply E. }
  rewrite (blk_free_like _ _ L). cbn [blk_dec_hash]. sz. destruct (_ =? 0); [ | exact L].
  destruct (negb _); [exact L | ]. rewrite F, G. destruct k.
  - eapply orel_bind; [apply r_hash | intros a b AB]. eapply orel_bind; [apply r_plus; eassumption | intros a2 b2 AB2].
    cbn. repeat split; cbn; try assumption; try apply AB; try apply AB2; try apply C.
  - eapply orel_bind; [apply r_minus; eassumption | intros a2 b2 AB2]. eapply orel_bind; [apply r_hash | intros a b AB].
    cbn. repeat split; cbn; try assumption; try apply AB; try apply AB2; try apply C.
Qed.
Lemma r_blk_getResult k x y : blk_like x y -> orel sized (blk_getResult k x) (blk_getResult k y).
Proof.
  intro B. unfold blk_getResult. apply orel_noexcept. rewrite (blk_free_like _ _ B). destruct B as [A [B [C [D _]]]].
  destruct (negb _); [ | exact B]. sz. eapply orel_bind; [apply r_sub, C | intros s s' S]. destruct k; [apply r_plus | apply r_minus]; assumption.
Qed.
Lemma r_new_chain k key key' s : sized key key' -> orel chain_like (new_chain k h key s) (new_chain k h key' s).
Proof.
  intro K. unfold new_chain. eapply orel_bind; [apply r_si_init, K | intros a b AB]. cbn. repeat split; try reflexivity; apply AB.
Qed.
Lemma c_free_like x y : chain_like x y -> c_free x = c_free y.
Proof.
  intros [_ [B _]]. unfold c_free. destruct (c_cur x), (c_cur y); cbn in B; try tauto. rewrite (blk_free_like _ _ B). reflexivity.
Qed.
Lemma height_like x y : chain_like x y -> getHeight x = getHeight y.
Proof. intros [_ [_ [_ [_ [_ E]]]]]. exact E. Qed.
Lemma size_like x y : chain_like x y -> getDataSize x = getDataSize y.
Proof. intro C. unfold getDataSize. rewrite (c_free_like _ _ C). destruct C as [_ [_ [_ [_ [E1 E2]]]]]. rewrite E1, E2. reflexivity. Qed.
Lemma r_addBlock x y : chain_like x y -> orel (pair_like eq chain_like) (addBlock x) (addBlock y).
Proof.
  intro C. unfold addBlock. rewrite (c_free_like _ _ C). destruct (negb _); [split; [reflexivity | exact C] | ].
  pose proof C as [K [CU [RS [SI [HS HH]]]]].
  eapply orel_bind with (R := fun u v => sized (fst (fst u)) (fst (fst v)) /\ si_like (snd (fst u)) (snd (fst v)) /\ opt_rel sized (snd u) (snd v)).
  - destruct (c_cur x) as [b|], (c_cur y) as [b'|]; cbn in CU; try tauto.
    + eapply orel_bind; [apply r_blk_getHash, CU | intros g g' G].
      eapply orel_bind; [apply r_si_next; eassumption | intros [s1 i1] [s2 i2] [P Q]]; cbn in P, Q.
      rewrite K. eapply orel_bind; [apply r_blk_getResult, CU | intros q q' QQ].
      destruct (c_res x), (c_res y); cbn in RS; try tauto; try reflexivity.
      eapply orel_bind; [apply r_addcopy; eassumption | intros z z' Z]. cbn. auto.
    + eapply orel_bind; [apply r_si_next; [exact SI | apply sized_refl] | intros [s1 i1] [s2 i2] [P Q]]; cbn in P, Q. cbn. auto.
  - intros [[s1 i1] r1] [[s2 i2] r2] [P [Q R]]; cbn in P, Q, R. cbv beta iota.
    pose proof Q as [_ [_ [_ [_ [O1 O2]]]]]. rewrite O1, O2.
    eapply orel_bind; [apply r_new_block, P | intros n n' NN]. cbn. split; cbn; [reflexivity | ].
    unfold chain_like; cbn. auto 10.
Qed.
Lemma piece_like x y t n : chain_like x y -> piece x t n = piece y t n.
Proof. intro C. unfold piece. rewrite (c_free_like _ _ C). reflexivity. Qed.
Lemma set_cur_like x y b b' : chain_like x y -> blk_like b b' -> chain_like (set_cur x b) (set_cur y b').
Proof. intros [K [CU [RS [SI [HS HH]]]]] B. unfold chain_like, set_cur; cbn. auto 10. Qed.
Lemma r_addData_loop fuel : forall d d' n x y, sized d d' -> chain_like x y -> orel chain_like (addData_loop fuel d n x) (addData_loop fuel d' n y).
Proof.
  induction fuel as [|fuel IH]; intros d d' n x y D C; cbn [addData_loop]; [exact I | ].
  rewrite (piece_like _ _ _ _ C). sz. cbv zeta. eapply orel_bind; [apply r_sub, D | intros p p' P].
  pose proof C as [K [CU _]]. destruct (c_cur x), (c_cur y); cbn in CU; try tauto; [ | reflexivity].
  rewrite K. eapply orel_bind; [apply r_blk_addData; eassumption | intros b1 b2 B]. sz.
  destruct (_ <? _); [ | apply set_cur_like; assumption].
  eapply orel_bind; [apply r_addBlock, set_cur_like; eassumption | intros [u c1] [v c2] [_ Q]]; cbn in Q. apply IH; assumption.
Qed.
Lemma r_addData_start n x y : chain_like x y -> orel chain_like (addData_start x n) (addData_start y n).
Proof.
  intro C. unfold addData_start. pose proof C as [K [CU [RS [SI [HS HH]]]]].
  destruct (c_res x) as [r|], (c_res y) as [r'|]; cbn in RS; try tauto; [ | reflexivity]. cbv zeta.
  assert (L : chain_like (mkChain (c_kind x) (c_cur x) (Some (addSize n r)) (c_si x) (c_hs x) (c_height x))
                         (mkChain (c_kind y) (c_cur y) (Some (addSize n r')) (c_si y) (c_hs y) (c_height y))).
  { unfold chain_like; cbn. destruct RS as [R1 R2]. repeat (split; auto). cbn. congruence. }
  cbn [c_cur]. destruct (c_cur x), (c_cur y); cbn in CU; try tauto.
  eapply orel_bind; [apply r_addBlock, L | intros [u c1] [v c2] [_ Q]]. exact Q.
Qed.
Lemma r_addData fuel d d' x y : sized d d' -> chain_like x y -> orel chain_like (addData fuel d x) (addData fuel d' y).
Proof.
  intros D C. unfold addData. sz. eapply orel_bind; [apply r_addData_start, C | intros]. apply r_addData_loop; assumption.
Qed.
Lemma r_addStream_loop fuel : forall s t n x y, chain_like x y -> orel chain_like (addStream_loop fuel s t n x) (addStream_loop fuel s t n y).
Proof.
  induction fuel as [|fuel IH]; intros s t n x y C; cbn [addStream_loop]; [exact I | ].
  rewrite (piece_like _ _ _ _ C). eapply orel_bind; [apply orel_eq | intros p ? <-].
  destruct (readExact (bmax p) s) as [[got s']|]; [ | reflexivity]. cbv zeta.
  pose proof C as [K [CU _]]. destruct (c_cur x), (c_cur y); cbn in CU; try tauto; [ | reflexivity].
  rewrite K. eapply orel_bind; [apply r_blk_addData; [apply sized_refl | eassumption] | intros b1 b2 B].
  destruct (_ <? _); [ | apply set_cur_like; assumption].
  eapply orel_bind; [apply r_addBlock, set_cur_like; eassumption | intros [u c1] [v c2] [_ Q]]; cbn in Q. apply IH; assumption.
Qed.
Lemma r_addStream fuel s t x y : chain_like x y -> orel chain_like (addStream fuel s t x) (addStream fuel s t y).
Proof. intros C. unfold addStream. eapply orel_bind; [apply r_addData_start, C | intros]. apply r_addStream_loop; assumption. Qed.
Lemma r_getResult x y : chain_like x y -> orel (pair_like sized (fun _ _ => True)) (getResult x) (getResult y).
Proof.
  intros C. unfold getResult. pose proof C as [K [CU [RS _]]].
  destruct (c_cur x), (c_cur y); cbn in CU; try tauto; [ | reflexivity].
  rewrite K. eapply orel_bind; [apply r_blk_getResult, CU | intros q q' Q].
  destruct (c_res x) as [r|], (c_res y) as [r'|]; cbn in RS; try tauto; [ | reflexivity].
  eapply orel_bind; [apply r_addcopy; eassumption | intros z z' Z]. cbn. split; auto.
Qed.
End WithHash.
