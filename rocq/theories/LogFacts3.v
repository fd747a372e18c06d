(** Lemmas for C97: calls that differ in secrets write the same log, up to the check value. *)
From Coq Require Import Strings.String.
From Coq Require Import Lia.
From Verif Require Import Base BytesModel MiscModel CipherModel PwModel ChModel HeaderModel HeaderSpec FileModel ApiModel ApiSpec LogModel LogSpec LogFacts1 LogFacts2.
Open Scope N_scope.
Open Scope list_scope.

Definition lrel {A B} (R : A -> B -> Prop) (m : logm A) (m' : logm B) : Prop :=
  map hide (fst m) = map hide (fst m') /\ orel R (snd m) (snd m').
Definition rrel {A B} (R : A -> B -> Prop) (x : lerr + A) (y : lerr + B) : Prop :=
  match x, y with inl e, inl e' => e = e' | inr a, inr b => R a b | _, _ => False end.

Lemma lrel_bind {A B C D} (R : A -> B -> Prop) (S : C -> D -> Prop) m m' k k' :
  lrel R m m' -> (forall x y, R x y -> lrel S (k x) (k' y)) -> lrel S (bindl m k) (bindl m' k').
Proof.
  intros [L O] K. destruct m as [l o], m' as [l' o']; cbn in L, O. destruct o, o'; cbn in O; try tauto; unfold bindl; cbn.
  - destruct (K _ _ O) as [L2 O2]. split; cbn; [ | exact O2]. rewrite !map_app. congruence.
  - split; cbn; auto.
  - split; cbn; auto.
  - split; cbn; auto.
Qed.
Lemma rrel_bind {A B C D} (R : A -> B -> Prop) (S : C -> D -> Prop) (m : lres A) (m' : lres B) k k' :
  lrel (rrel R) m m' -> (forall x y, R x y -> lrel (rrel S) (k x) (k' y)) -> lrel (rrel S) (bindr m k) (bindr m' k').
Proof.
  intros M K. eapply lrel_bind; [exact M | ]. intros [e|x] [e'|y] H; cbn in H; try tauto.
  - subst e'. split; [reflexivity | ]. cbn. reflexivity.
  - apply K, H.
Qed.
Lemma lrel_refl {A} (R : A -> A -> Prop) m : (forall x, R x x) -> lrel R m m.
Proof. intro H. split; [reflexivity | apply orel_refl, H]. Qed.
Lemma lrel_eq {A} (m : logm A) : lrel eq m m.
Proof. apply lrel_refl. auto. Qed.
Lemma rrel_eq {A} (m : lres A) : lrel (rrel eq) m m.
Proof. apply lrel_refl. intros [x|x]; cbn; auto. Qed.
Lemma lrel_trouble {A B} (R : A -> B -> Prop) m m' : orel R m m' -> lrel R (trouble m) (trouble m').
Proof. intro O. split; [ | exact O]. destruct m, m'; cbn in *; try tauto; congruence. Qed.
Lemma lrel_silent {A B} (R : A -> B -> Prop) m m' : orel R m m' -> lrel R (silent m) (silent m').
Proof. intro O. split; [reflexivity | exact O]. Qed.
Lemma lrel_lift {A B} (R : A -> B -> Prop) (m : logm A) (m' : logm B) : lrel R m m' -> lrel (rrel R) (lift_l m) (lift_l m').
Proof. intros [L O]. split; [exact L | ]. cbn. eapply orel_bind; [exact O | ]. intros x y H. exact H. Qed.
Lemma lrel_try {A B} (R : A -> B -> Prop) h (m : logm A) (m' : logm B) : lrel R m m' -> lrel (rrel R) (try_l h m) (try_l h m').
Proof.
  intros [L O]. unfold try_l. destruct (snd m) as [x|e|c|], (snd m') as [x'|e'|c'|]; cbn in O; try tauto.
  - split; auto.
  - subst e'. destruct (h e) as [[ls r]|]; split; cbn; auto. rewrite !map_app. congruence.
  - split; cbn; auto.
  - split; cbn; auto.
Qed.
Lemma lrel_catch {A B} (R : A -> B -> Prop) h (m : lres A) (m' : lres B) : lrel (rrel R) m m' -> lrel (rrel R) (catch_l h m) (catch_l h m').
Proof.
  intros [L O]. unfold catch_l. destruct (snd m) as [x|e|c|] eqn:S, (snd m') as [x'|e'|c'|] eqn:S'; cbn in O; try tauto.
  - split; [exact L | rewrite S, S'; exact O].
  - subst e'. destruct (h e) as [[ls r]|]; split; cbn; auto; [rewrite !map_app; congruence | rewrite S, S'; reflexivity].
  - split; [exact L | rewrite S, S'; exact O].
  - split; [exact L | rewrite S, S'; exact I].
Qed.
Lemma lrel_onerr {A B} (R : A -> B -> Prop) g (m : lres A) (m' : lres B) : lrel (rrel R) m m' -> lrel (rrel R) (onerr g m) (onerr g m').
Proof.
  intros [L O]. unfold onerr. destruct (snd m) as [[e|x]|e|c|] eqn:S, (snd m') as [[e'|x']|e'|c'|] eqn:S'; cbn in O; try tauto; (split; [ | cbn; rewrite ?S, ?S'; exact O]); try exact L.
  subst e'. cbn. rewrite !map_app. congruence.
Qed.
Lemma lrel_noexcept {A B} (R : A -> B -> Prop) (m : logm A) (m' : logm B) : lrel R m m' -> lrel R (noexcept_l m) (noexcept_l m').
Proof. intros [L O]. split; [exact L | apply orel_noexcept, O]. Qed.
Lemma lrel_say l : lrel eq (say l) (say l).
Proof. apply lrel_eq. Qed.
Lemma lrel_done {A B} (R : A -> B -> Prop) ls x y : R x y -> lrel R (ls, Ret x) (ls, Ret y).
Proof. split; auto. Qed.
Lemma lrel_imp {A B} (R S : A -> B -> Prop) m m' : lrel R m m' -> (forall x y, R x y -> S x y) -> lrel S m m'.
Proof. intros [L O] K. split; [exact L | eapply orel_imp; eauto]. Qed.

(** ** Headers *)
Lemma parts_refl p : parts_like p p.
Proof. unfold parts_like. repeat split; auto. apply opt_refl, sized_refl. Qed.
Lemma header_refl d : header_like d d.
Proof. unfold header_like. repeat split; auto using parts_refl. apply opt_refl, sized_refl. Qed.
Lemma data_refl x : data_like x x.
Proof. split; auto. apply opt_refl, sized_refl. Qed.
Lemma api_refl a : api_like a a.
Proof.
  unfold api_like. repeat split; auto; try (apply opt_refl; first [exact data_refl | exact sized_refl | exact header_refl]).
Qed.
Lemma complete_like d e : header_like d e -> d_isComplete d = d_isComplete e.
Proof.
  intros [[A [B [C [D [_ [_ [E F]]]]]]] [G _]]. unfold d_isComplete, p_isComplete. rewrite A, B, D, E, F, G.
  destruct (p_valid (d_parts d)), (p_valid (d_parts e)); cbn in C; tauto.
Qed.
Lemma complete_lines_like d e : header_like d e -> map hide (complete_lines d) = map hide (complete_lines e).
Proof.
  intro L. unfold complete_lines. rewrite (complete_like _ _ L). destruct (d_isComplete e); [reflexivity | ].
  destruct L as [[A [B [C [D [_ [_ [E F]]]]]]] _]. cbn. unfold hide; cbn. rewrite A, B, D, E, F. reflexivity.
Qed.
Lemma length_like d e : header_like d e -> getHeaderLength d = getHeaderLength e.
Proof.
  intros [[A [B [C [D [_ [_ [E F]]]]]]] [G [H [I J]]]]. unfold getHeaderLength. rewrite E, F, G, J. sz. reflexivity.
Qed.
Lemma clear_like x y : sized x y -> sized (clearBytes x) (clearBytes y).
Proof. intros [_ M]. split; cbn; auto. Qed.
Lemma parts_l_like d e : header_like d e -> lrel parts_like (getDataHeaderParts_l d) (getDataHeaderParts_l e).
Proof.
  intro L. unfold getDataHeaderParts_l, getDataHeaderParts. rewrite (complete_like _ _ L).
  destruct (d_isComplete e); split; cbn; auto; [apply L | ]. rewrite !map_app, (complete_lines_like _ _ L). reflexivity.
Qed.
Lemma hashMode_like p q : parts_like p q -> p_getHashMode p = p_getHashMode q.
Proof. intros [A _]. unfold p_getHashMode. rewrite A. reflexivity. Qed.
Lemma fileMode_like p q : parts_like p q -> p_getFileDataMode p = p_getFileDataMode q.
Proof. intros [_ [A _]]. unfold p_getFileDataMode. rewrite A. reflexivity. Qed.
Lemma salt_like p q : parts_like p q -> p_getSalt p = p_getSalt q.
Proof. intros [_ [_ [_ [A _]]]]. unfold p_getSalt. rewrite A. reflexivity. Qed.
Lemma valid_like p q : parts_like p q -> orel sized (p_getValid p) (p_getValid q).
Proof. intros [_ [_ [A _]]]. unfold p_getValid. destruct (p_valid p), (p_valid q); cbn in *; tauto. Qed.
Lemma hashSize_like p q : parts_like p q -> p_getHashSize p = p_getHashSize q.
Proof. intros [A _]. unfold p_getHashSize. rewrite A. reflexivity. Qed.
Lemma setValid_like b c p q : sized b c -> parts_like p q -> orel parts_like (p_setValid b p) (p_setValid c q).
Proof.
  intros S L. unfold p_setValid. rewrite (hashSize_like _ _ L). eapply orel_bind; [apply orel_eq | intros n ? <-]. sz.
  destruct (_ =? _); [ | reflexivity]. destruct L as [A [B [C [D [E [F [G H]]]]]]]. cbn. unfold parts_like; cbn. auto 10.
Qed.
Lemma setSalt_like b p q : parts_like p q -> orel parts_like (p_setSalt b p) (p_setSalt b q).
Proof.
  intros L. unfold p_setSalt. rewrite (hashSize_like _ _ L). eapply orel_bind; [apply orel_eq | intros n ? <-].
  destruct (_ =? _); [ | reflexivity]. destruct L as [A [B [C [D [E [F [G H]]]]]]]. cbn. unfold parts_like; cbn. auto 10.
Qed.
Lemma with_like p q d e : parts_like p q -> header_like d e -> header_like (d_with p d) (d_with q e).
Proof. intros P [_ [A [B [C D]]]]. unfold header_like; cbn. repeat split; auto using clear_like; first [apply P | apply B]. Qed.
Lemma setDataSize_like n d e : header_like d e -> lrel header_like (setDataSize_l n d) (setDataSize_l n e).
Proof.
  intro L. unfold setDataSize_l, setDataSize. rewrite (complete_like _ _ L). destruct (d_isComplete e); cbn [negb].
  - split; [reflexivity | ]. cbn [snd].
    match goal with |- context [getHeaderLength ?x] => match goal with |- context [getHeaderLength ?y] => assert (L2 : header_like x y \/ True) by auto end end.
    clear L2. eapply orel_bind.
    + erewrite (length_like (mkDH (d_parts d) _ _ _ _) (mkDH (d_parts e) _ _ _ _)); [apply orel_eq | ].
      destruct L as [P [A [B [C D]]]]. unfold header_like; cbn. auto using clear_like.
    + intros l ? <-. cbn. destruct L as [P [A [B [C D]]]]. unfold header_like; cbn. auto using clear_like.
  - split; cbn; [ | reflexivity]. rewrite !map_app, (complete_lines_like _ _ L). reflexivity.
Qed.
Ltac eqb_ := eapply orel_bind; [apply orel_eq | intros ? ? <-].
Lemma addBlocks_like l : forall t t', sized t t' -> orel sized (addBlocks l t) (addBlocks l t').
Proof.
  induction l as [|b l IH]; intros t t' T; cbn [addBlocks]; [exact T | ].
  eapply orel_bind; [apply r_addByte, T | intros]. eapply orel_bind; [apply r_addByte; eassumption | intros].
  eapply orel_bind; [apply r_addcopy; [apply sized_refl | eassumption] | intros]. apply IH; assumption.
Qed.
Lemma addEncBlocks_like l : forall t t', sized t t' -> orel sized (addEncBlocks l t) (addEncBlocks l t').
Proof.
  induction l as [|b l IH]; intros t t' T; cbn [addEncBlocks]; [exact T | ].
  eapply orel_bind; [apply r_addByte, T | intros]. eapply orel_bind; [apply r_addByte; eassumption | intros].
  eapply orel_bind; [apply r_addcopy; [apply sized_refl | eassumption] | intros]. apply IH; assumption.
Qed.
Lemma calcBody_like fsize len p q : parts_like p q -> orel sized (calcBody fsize len p) (calcBody fsize len q).
Proof.
  intro L. unfold calcBody. rewrite (fileMode_like _ _ L), (hashMode_like _ _ L), (salt_like _ _ L).
  pose proof L as [_ [_ [_ [_ [E [F [G H]]]]]]]. rewrite E, F, G, H. cbv zeta.
  do 10 eqb_.
  eapply orel_bind; [apply valid_like, L | intros v v' V].
  eapply orel_bind; [apply r_addcopy; [exact V | apply sized_refl] | intros t t' T]. eqb_.
  eapply orel_bind; [apply r_addcopy; [apply sized_refl | exact T] | intros]. eapply orel_bind; [apply r_addByte; eassumption | intros].
  apply addEncBlocks_like; assumption.
Qed.
Lemma calc_like H clk d e : header_like d e ->
  header_like (fst (calcHeaderBytes H clk (mkBytes [] 0) d)) (fst (calcHeaderBytes H clk (mkBytes [] 0) e)) /\
  snd (calcHeaderBytes H clk (mkBytes [] 0) d) = snd (calcHeaderBytes H clk (mkBytes [] 0) e).
Proof.
  intro L. unfold calcHeaderBytes. rewrite (complete_like _ _ L). pose proof L as [P [A [B [C D]]]]. rewrite C, (length_like _ _ L).
  cbv zeta. destruct (d_isComplete e); cbn [negb]; [ | auto]. destruct (d_fsize e) as [n|]; [ | auto].
  destruct (getHeaderLength e) as [l|x|x|]; cbn [bind]; auto.
  destruct (n <? l); auto.
  assert (L2 : header_like (mkDH (d_parts d) (d_hsize d) (clearBytes (d_bytes d)) (Some n) (d_blen d)) (mkDH (d_parts e) (d_hsize e) (clearBytes (d_bytes e)) (Some n) (d_blen e))).
  { unfold header_like; cbn. auto using clear_like. }
  change (checkPwHash H clk (mkBytes [] 0) (d_parts d)) with (Ret tt). change (checkPwHash H clk (mkBytes [] 0) (d_parts e)) with (Ret tt). cbn [bind].
  rewrite (length_like _ _ L2). destruct (getHeaderLength _) as [len|x|x|]; auto.
  pose proof (calcBody_like n len _ _ P) as Q. destruct (calcBody n len (d_parts d)) as [t|x|x|], (calcBody n len (d_parts e)) as [t'|x'|x'|]; cbn in Q; try tauto.
  - rewrite (sized_len _ _ Q). destruct (negb _); auto. split; auto. unfold header_like; cbn. auto using sized_copy.
  - subst x'. destruct x; auto.
  - subst x'. auto.
Qed.
Lemma calc_lines_like d e r r' : header_like d e -> r = r' -> map hide (calc_lines d r) = map hide (calc_lines e r').
Proof.
  intros L <-. unfold calc_lines. rewrite (complete_like _ _ L). cbn [map]. f_equal.
  destruct (d_isComplete e).
  - rewrite (length_like _ _ L). destruct L as [_ [_ [_ [C _]]]]. rewrite C. reflexivity.
  - rewrite !map_app, (complete_lines_like _ _ L). reflexivity.
Qed.
Lemma headerBytes_like d e : header_like d e -> orel sized (getHeaderBytes d) (getHeaderBytes e).
Proof.
  intro L. unfold getHeaderBytes. rewrite (length_like _ _ L). eqb_. destruct (_ =? 0); [reflexivity | ].
  destruct L as [_ [_ [B _]]]. sz. destruct (negb _); [reflexivity | exact B].
Qed.

Lemma setChain1_like c d e : header_like d e -> lrel header_like (setChainHash1_l c d) (setChainHash1_l c e).
Proof.
  intro L. pose proof L as [P _]. pose proof P as [A [B [C [D [E [F [G H]]]]]]]. unfold setChainHash1_l, setChainHash1. rewrite G. split; [reflexivity | ]. cbn [snd].
  destruct (negb _); [reflexivity | ]. eqb_. cbn. apply with_like; [ | exact L]. unfold parts_like; cbn. auto 10.
Qed.
Lemma setChain2_like c d e : header_like d e -> lrel header_like (setChainHash2_l c d) (setChainHash2_l c e).
Proof.
  intro L. pose proof L as [P _]. pose proof P as [A [B [C [D [E [F [G H]]]]]]]. unfold setChainHash2_l, setChainHash2. rewrite H. split; [reflexivity | ]. cbn [snd].
  destruct (negb _); [reflexivity | ]. eqb_. cbn. apply with_like; [ | exact L]. unfold parts_like; cbn. auto 10.
Qed.
Lemma setValid_l_like b c d e : sized b c -> header_like d e -> lrel header_like (setValid_l b d) (setValid_l c e).
Proof.
  intros S L. unfold setValid_l, setValidPasswordHashBytes. pose proof (setValid_like b c _ _ S (proj1 L)) as V.
  split; cbn [fst snd].
  - destruct (p_setValid b (d_parts d)), (p_setValid c (d_parts e)); cbn in V; first [contradiction | reflexivity | subst; reflexivity].
  - eapply orel_bind; [exact V | ]. intros x y XY. cbn. apply with_like; assumption.
Qed.
Lemma setSalt_l_like b d e : header_like d e -> lrel header_like (d_setEncSalt_l b d) (d_setEncSalt_l b e).
Proof.
  intros L. unfold d_setEncSalt_l, d_setEncSalt. pose proof (setSalt_like b _ _ (proj1 L)) as V.
  split; cbn [fst snd].
  - destruct (p_setSalt b (d_parts d)), (p_setSalt b (d_parts e)); cbn in V; first [contradiction | reflexivity | subst; reflexivity].
  - eapply orel_bind; [exact V | ]. intros x y XY. cbn. apply with_like; assumption.
Qed.
Lemma addAll_like l : forall d e, header_like d e -> orel header_like (addAll l d) (addAll l e).
Proof.
  induction l as [|b l IH]; intros d e L; cbn [addAll]; [exact L | ]. eapply orel_bind; [ | intros x y; apply IH].
  unfold addDataBlock. destruct L as [[A [B [C [D [E [F [G H]]]]]]] [I [J [K M]]]]. rewrite E. destruct (_ <=? _); [reflexivity | ].
  cbn. unfold header_like, parts_like; cbn. rewrite M. auto 20 using clear_like.
Qed.
Lemma addAllEnc_like l : forall d e, header_like d e -> orel header_like (addAllEnc l d) (addAllEnc l e).
Proof.
  induction l as [|b l IH]; intros d e L; cbn [addAllEnc]; [exact L | ]. eapply orel_bind; [ | intros x y; apply IH].
  unfold addEncDataBlock. destruct L as [[A [B [C [D [E [F [G H]]]]]]] [I [J [K M]]]]. rewrite F. destruct (_ <=? _); [reflexivity | ].
  cbn. unfold header_like, parts_like; cbn. rewrite M. auto 20 using clear_like.
Qed.
Lemma lrel_bind_eq {A C D} (S : C -> D -> Prop) (m : logm A) k k' : (forall x, lrel S (k x) (k' x)) -> lrel S (bindl m k) (bindl m k').
Proof. intro K. eapply lrel_bind; [apply lrel_eq | ]. intros x ? <-. apply K. Qed.
Lemma setParts_like rnd p q : parts_like p q -> lrel (rrel header_like) (setHeaderParts_l rnd p) (setHeaderParts_l rnd q).
Proof.
  intro L. unfold setHeaderParts_l. rewrite (fileMode_like _ _ L), (hashMode_like _ _ L), (salt_like _ _ L).
  pose proof L as [_ [_ [_ [_ [E [F [G H]]]]]]]. rewrite E, F, G, H.
  apply lrel_noexcept, lrel_try. do 6 (apply lrel_bind_eq; intro).
  eapply lrel_bind; [apply lrel_trouble, valid_like, L | intros v v' V].
  eapply lrel_bind; [apply setValid_l_like; [exact V | apply header_refl] | intros d e DE]. apply lrel_bind_eq; intro s.
  eapply lrel_bind; [apply setSalt_l_like, DE | intros d2 e2 DE2].
  eapply lrel_bind; [apply lrel_trouble, addAll_like, DE2 | intros d3 e3 DE3]. apply lrel_trouble, addAllEnc_like, DE3.
Qed.

(** ** Chain hashes *)
Lemma perform_lines_like n c t warn r r' : orel res_like r r' -> perform_lines n c t warn r = perform_lines n c t warn r'.
Proof.
  intro O. unfold perform_lines. destruct (ch_getMode c); auto. f_equal.
  destruct r as [[?|]| | |], r' as [[?|]| | |]; cbn in O; try tauto; congruence.
Qed.
Lemma perform_sl_like h clk c x y t : hlen h -> lrel res_like (performChainHash_sl h clk c x t) (performChainHash_sl h clk c y t).
Proof.
  intro HL. unfold performChainHash_sl. pose proof (r_perform_s h HL clk c x y t) as O. split; [cbn [fst] | exact O].
  f_equal. apply perform_lines_like, O.
Qed.
Lemma perform_bl_like h clk c x y t : hlen h -> sized x y -> lrel res_like (performChainHash_bl h clk c x t) (performChainHash_bl h clk c y t).
Proof.
  intros HL S. unfold performChainHash_bl. pose proof (r_perform_b h HL clk c x y t S) as O. split; [cbn [fst] | exact O].
  f_equal. apply perform_lines_like, O.
Qed.
(** the rest after a hash function was found *)
Lemma getHash_bind {C D} (S : C -> D -> Prop) H m (k : hashfn -> lres C) (k' : hashfn -> lres D) : hashes_ok H ->
  (forall h, hlen h -> lrel (rrel S) (k h) (k' h)) -> lrel (rrel S) (bindr (lift_l (getHash_l H m)) k) (bindr (lift_l (getHash_l H m)) k').
Proof.
  intros HO K. eapply rrel_bind with (R := fun x y => x = y /\ hlen x).
  - apply lrel_lift. split; [reflexivity | ]. cbn [snd getHash_l]. pose proof (getHash_hlen H m) as G. destruct (getHash H m); cbn; eauto.
  - intros x ? [<- HL]. apply K, HL.
Qed.
Lemma getHash_bind2 {C D} (S : C -> D -> Prop) H m (k : hashfn -> logm C) (k' : hashfn -> logm D) : hashes_ok H ->
  (forall h, hlen h -> lrel S (k h) (k' h)) -> lrel S (bindl (getHash_l H m) k) (bindl (getHash_l H m) k').
Proof.
  intros HO K. eapply lrel_bind with (R := fun x y => x = y /\ hlen x).
  - split; [reflexivity | ]. cbn [snd getHash_l]. pose proof (getHash_hlen H m) as G. destruct (getHash H m); cbn; eauto.
  - intros x ? [<- HL]. apply K, HL.
Qed.
Lemma rrel_bind_eq {A C D} (S : C -> D -> Prop) (m : lres A) k k' : (forall x, lrel (rrel S) (k x) (k' x)) -> lrel (rrel S) (bindr m k) (bindr m k').
Proof. intro K. eapply rrel_bind; [apply rrel_eq | ]. intros x ? <-. apply K. Qed.
Lemma create_like w m pw pw' ds t : hashes_ok (w_hashes w) ->
  lrel (rrel (pair_like header_like sized)) (createHeaderIters_l w m pw ds t) (createHeaderIters_l w m pw' ds t).
Proof.
  intro HO. unfold createHeaderIters_l. apply lrel_noexcept. destruct (negb _); [split; reflexivity | ].
  do 2 (apply rrel_bind_eq; intro). destruct (negb _); [split; reflexivity | ].
  apply rrel_bind_eq; intros [c1 c2]. do 3 (apply rrel_bind_eq; intro). apply getHash_bind; [exact HO | intros h HL].
  eapply rrel_bind; [apply lrel_lift, perform_sl_like, HL | intros r r' R]. destruct r as [k|], r' as [k'|]; cbn in R; try tauto; [ | split; reflexivity].
  apply rrel_bind_eq; intro t2. eapply rrel_bind; [apply lrel_lift, perform_bl_like; eassumption | intros s s' S].
  destruct s as [v|], s' as [v'|]; cbn in S; try tauto; [ | split; reflexivity].
  eapply rrel_bind; [apply lrel_lift, lrel_trouble, setValid_like; [exact S | apply parts_refl] | intros p q PQ].
  apply rrel_bind_eq; intro salt. eapply rrel_bind; [apply lrel_lift, lrel_trouble, setSalt_like, PQ | intros p2 q2 PQ2].
  eapply rrel_bind; [apply setParts_like, PQ2 | intros d e DE]. split; [reflexivity | ]. cbn. split; cbn; [exact DE | exact R].
Qed.

(** ** Calls *)
Definition done_like (x y : api * reply) : Prop := api_like (fst x) (fst y) /\ reply_like (snd x) (snd y).
Lemma ends_orel x y : orel done_like x y -> ends_like x y.
Proof. destruct x as [[? ?]| | |], y as [[? ?]| | |]; cbn; auto. Qed.
Lemma failed_like a b c : api_like a b -> done_like (a, failed c) (b, failed c).
Proof. intro L. split; cbn; auto. Qed.
Lemma lrel_failed ls a b c : api_like a b -> lrel done_like (ls, Ret (a, failed c)) (ls, Ret (b, failed c)).
Proof. intro L. apply lrel_done, failed_like, L. Qed.
Lemma lrel_after {A} (R : A -> A -> Prop) (m m' : lres A) (k k' : lerr + A -> logm (api * reply)) : lrel (rrel R) m m' ->
  (forall e, lrel done_like (k (inl e)) (k' (inl e))) -> (forall x y, R x y -> lrel done_like (k (inr x)) (k' (inr y))) -> lrel done_like (bindl m k) (bindl m' k').
Proof. intros M E K. eapply lrel_bind; [exact M | ]. intros [e|x] [e'|y] H; cbn in H; try tauto; [subst e'; apply E | apply K, H]. Qed.
Lemma headerEmpty_like a b r r' : api_like a b -> lrel (rrel (pair_like header_like sized)) r r' -> lrel done_like (headerEmpty_l a r) (headerEmpty_l b r').
Proof.
  intros L R. unfold headerEmpty_l. eapply lrel_after; [apply lrel_onerr, R | intro e; apply lrel_failed, L | intros [d k] [d' k'] [D K]; cbn in D, K].
  apply lrel_done. destruct L as [A [B [C [E [F [G H]]]]]]. split; cbn; [ | reflexivity]. unfold api_like; cbn. rewrite B. auto 10 using data_refl.
Qed.
Lemma headerDecrypted_like a b r r' : api_like a b -> lrel (rrel (pair_like header_like sized)) r r' -> lrel done_like (headerDecrypted_l a r) (headerDecrypted_l b r').
Proof.
  intros L R. unfold headerDecrypted_l. eapply lrel_after; [apply lrel_onerr, R | intro e; apply lrel_failed, L | intros [d k] [d' k'] [D K]; cbn in D, K].
  apply lrel_done. destruct L as [A [B [C [E [F [G H]]]]]]. split; cbn; [ | reflexivity]. unfold api_like; cbn. auto 10.
Qed.
Lemma ptr_like {A} (R : A -> A -> Prop) x y : opt_rel R x y -> orel R (ptr x) (ptr y).
Proof. destruct x, y; cbn; tauto. Qed.
Lemma chain_l_like k h key key' s : hlen h -> sized key key' -> lrel (chain_like h) (new_chain_l k h key s) (new_chain_l k h key' s).
Proof.
  intros HL K. unfold new_chain_l. pose proof (r_new_chain h k key key' s K) as R. split; [ | exact R]. cbn [fst].
  destruct (new_chain k h key s), (new_chain k h key' s); cbn in R; try tauto; try reflexivity. subst; reflexivity.
Qed.
Lemma add_l_like h n r r' : orel (chain_like h) r r' -> lrel (chain_like h) (add_l n r) (add_l n r').
Proof.
  intro R. unfold add_l. split; [ | exact R]. cbn [fst]. destruct r, r'; cbn in R; try tauto; try reflexivity; [ | subst; reflexivity].
  unfold added_line. rewrite (height_like _ _ _ R), (size_like _ _ _ R). reflexivity.
Qed.
Lemma getResult_l_like h c c' : hlen h -> chain_like h c c' -> lrel sized (getResult_l c) (getResult_l c').
Proof.
  intros HL C. unfold getResult_l. pose proof (r_getResult h c c' C) as R. rewrite (height_like _ _ _ C), (size_like _ _ _ C). split; cbn [fst snd].
  - f_equal. f_equal. destruct (getResult c) as [[? ?]| | |], (getResult c') as [[? ?]| | |]; cbn in R; try tauto; try reflexivity. subst; reflexivity.
  - eapply orel_bind; [exact R | ]. intros [x x'] [y y'] [X _]. exact X.
Qed.
Lemma decrypt_like w a b f : hashes_ok (w_hashes w) -> api_like a b -> lrel sized (decryptBody_l w a f) (decryptBody_l w b f).
Proof.
  intros HO [A [B [C [E [F [G H]]]]]]. unfold decryptBody_l. rewrite H.
  eapply lrel_bind; [apply lrel_silent, ptr_like, G | intros d d' D]. eapply lrel_bind; [apply parts_l_like, D | intros p q P].
  rewrite (hashMode_like _ _ P), (salt_like _ _ P). apply lrel_bind_eq; intro hm. apply getHash_bind2; [exact HO | intros h HL].
  apply lrel_bind_eq; intro s. eapply lrel_bind; [apply chain_l_like; assumption | intros c c' CC]. apply lrel_bind_eq; intro x.
  eapply lrel_bind; [eapply add_l_like, r_addStream; eassumption | intros c2 c2' CC2]. eapply getResult_l_like; eassumption.
Qed.
Lemma getDecrypted_like w a b f : hashes_ok (w_hashes w) -> api_like a b -> lrel done_like (getDecryptedData_l w a f) (getDecryptedData_l w b f).
Proof.
  intros HO L. unfold getDecryptedData_l. apply lrel_noexcept. apply lrel_bind_eq; intro u.
  eapply lrel_after; [apply lrel_try, decrypt_like; eassumption | intro e; apply lrel_failed, L | intros x y XY].
  destruct L as [A [B [C [E [F [G H]]]]]]. rewrite B. apply lrel_done. split; cbn; [ | split; cbn; auto]. unfold api_like; cbn. auto 10.
Qed.
Lemma encryptBody_like w k k' x y d e : hashes_ok (w_hashes w) -> sized k k' -> sized x y -> header_like d e -> lrel sized (encryptBody_l w k x d) (encryptBody_l w k' y e).
Proof.
  intros HO K X D. unfold encryptBody_l. eapply lrel_bind; [apply parts_l_like, D | intros p q P].
  rewrite (hashMode_like _ _ P), (salt_like _ _ P). apply lrel_bind_eq; intro hm. apply getHash_bind2; [exact HO | intros h HL].
  apply lrel_bind_eq; intro s. eapply lrel_bind; [apply chain_l_like; assumption | intros c c' CC].
  eapply lrel_bind; [eapply add_l_like, r_addData; eassumption | intros c2 c2' CC2]. eapply getResult_l_like; eassumption.
Qed.
Lemma encrypt_like w a b x y : hashes_ok (w_hashes w) -> api_like a b -> opt_rel data_like x y -> lrel done_like (encryptData_l w a x) (encryptData_l w b y).
Proof.
  intros HO L X. unfold encryptData_l. cbv zeta. apply lrel_noexcept. apply lrel_bind_eq; intro u.
  pose proof L as [A [B [C [E [F [G H]]]]]].
  eapply lrel_bind; [apply lrel_silent, ptr_like, X | intros x1 y1 [XM XD]]. rewrite XM.
  destruct (fd_mode y1) as [m|]; [ | apply lrel_failed, L]. rewrite B. destruct (negb _); [apply lrel_failed, L | ].
  eapply lrel_bind; [apply lrel_silent, ptr_like, XD | intros x2 y2 X2].
  eapply lrel_bind; [apply lrel_silent, ptr_like, G | intros d e DE]. sz.
  eapply lrel_after; [apply lrel_try, setDataSize_like, DE | intro; apply lrel_failed, L | intros d1 e1 DE1].
  destruct (calc_like (w_hashes w) (w_clk1 w) _ _ DE1) as [Q1 Q2].
  destruct (calcHeaderBytes (w_hashes w) (w_clk1 w) (mkBytes [] 0) d1) as [d2 r], (calcHeaderBytes (w_hashes w) (w_clk1 w) (mkBytes [] 0) e1) as [e2 r']. cbn [fst snd] in Q1, Q2. subst r'.
  assert (L2 : forall s, api_like (mkApi s (a_mode a) (a_fdata a) (a_key a) (a_enc a) (Some d2) (a_file a)) (mkApi s (a_mode b) (a_fdata b) (a_key b) (a_enc b) (Some e2) (a_file b))).
  { intro s. unfold api_like; cbn. auto 10. }
  eapply lrel_after; [apply lrel_try | intro | intros res res' RR].
  - eapply lrel_bind with (R := eq).
    + split; [apply calc_lines_like; [exact DE1 | reflexivity] | apply orel_eq].
    + intros ? ? _. apply encryptBody_like; assumption.
  - rewrite A, <- B. apply lrel_done, failed_like. rewrite B at 2. apply L2.
  - apply lrel_done. split; cbn; [ | reflexivity]. unfold api_like, data_like; cbn. auto 10.
Qed.
Lemma salt_call_like w a b : api_like a b -> lrel done_like (changeSalt_l w a) (changeSalt_l w b).
Proof.
  intro L. unfold changeSalt_l. apply lrel_noexcept. apply lrel_bind_eq; intro u. pose proof L as [A [B [C [E [F [G H]]]]]].
  eapply lrel_bind; [apply lrel_silent, ptr_like, G | intros d d' D]. eapply lrel_bind; [apply parts_l_like, D | intros p q P].
  rewrite (salt_like _ _ P). do 3 (apply lrel_bind_eq; intro). eapply lrel_bind; [apply lrel_trouble, setSalt_like, P | intros p2 q2 P2].
  eapply lrel_after; [apply lrel_onerr, setParts_like, P2 | intro; apply lrel_failed, L | intros d2 e2 D2].
  apply lrel_done. split; cbn; [ | reflexivity]. unfold api_like; cbn. auto 10.
Qed.
Lemma fullData_like a b : api_like a b -> orel sized (fullData a) (fullData b).
Proof.
  intros [A [B [C [E [F [G H]]]]]]. unfold fullData. eapply orel_bind; [apply ptr_like, G | intros d d' D].
  eapply orel_bind; [apply headerBytes_like, D | intros hb hb' HB]. eapply orel_bind; [apply ptr_like, F | intros e e' EE]. sz.
  eapply orel_bind; [apply orel_eq | intros t ? <-]. eapply orel_bind; [apply r_addcopy; [exact HB | apply sized_refl] | intros]. apply r_addcopy; assumption.
Qed.
