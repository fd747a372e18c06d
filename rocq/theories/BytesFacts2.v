(** Integer encoding, hex text, and the capacity-bounded list view of Bytes. *)
From Verif Require Import Base BaseFacts BytesModel BytesSpec BytesFacts.
Ltac Zify.zify_post_hook ::= Z.div_mod_to_equations.

(** ** fromLong / toLong *)
Fixpoint strip (l : bytes) : bytes :=
  match l with [] => [] | x :: r => if b2n x =? 0 then strip r else l end.

Lemma addByte_ret x b : getLen b < bmax b -> addByte x b = Ret (mkBytes (bdata b ++ [x]) (bmax b)).
Proof. intros Hl. unfold addByte. destruct (N.leb_spec (bmax b) (getLen b)); [lia|reflexivity]. Qed.

Lemma fromLong_loop_app z l b : bdata b <> [] -> getLen b + lenN l <= bmax b ->
  fromLong_loop z l b = Ret (mkBytes (bdata b ++ l) (bmax b)).
Proof.
  revert b; induction l as [|x l IH]; intros b Hne Hl; cbn [fromLong_loop].
  - rewrite app_nil_r. destruct b; reflexivity.
  - rewrite lenN_cons in Hl. unfold isEmpty.
    destruct (N.eqb_spec (getLen b) 0) as [E|_]; [apply lenN_0 in E; congruence|]. cbn [negb orb].
    rewrite addByte_ret by lia. cbn [bind]. rewrite IH; cbn [bdata bmax].
    + rewrite <- app_assoc. reflexivity.
    + intros E. apply app_eq_nil in E. destruct E; discriminate.
    + unfold getLen in *. cbn [bdata]. rewrite lenN_app. change (lenN [x]) with 1. lia.
Qed.

Lemma fromLong_loop_strip l cap : lenN l <= cap ->
  fromLong_loop false l (mkBytes [] cap) = Ret (mkBytes (strip l) cap).
Proof.
  induction l as [|x l IH]; intros Hl; [reflexivity|]. rewrite lenN_cons in Hl.
  cbn [fromLong_loop strip]. unfold isEmpty. change (getLen (mkBytes [] cap)) with 0. cbn [N.eqb negb orb].
  destruct (b2n x =? 0); cbn [negb].
  - apply IH. lia.
  - rewrite addByte_ret by (unfold getLen; cbn [bdata bmax]; rewrite lenN_nil; lia). cbn [bind bdata bmax app].
    rewrite fromLong_loop_app; [reflexivity|discriminate|].
    unfold getLen. cbn [bdata bmax]. rewrite lenN_cons, lenN_nil. lia.
Qed.
Lemma fromLong_loop_zeros l cap : l <> [] -> lenN l <= cap ->
  fromLong_loop true l (mkBytes [] cap) = Ret (mkBytes l cap).
Proof.
  intros Hne Hl. destruct l as [|x l]; [congruence|]. rewrite lenN_cons in Hl.
  cbn [fromLong_loop]. unfold isEmpty. change (getLen (mkBytes [] cap)) with 0. cbn [N.eqb negb orb].
  assert (E : (if b2n x =? 0 then x00 else x) = x).
  { destruct (N.eqb_spec (b2n x) 0) as [E|_]; [|reflexivity]. apply b2n_inj. rewrite E. reflexivity. }
  destruct (b2n x =? 0) eqn:Ez; cbn [negb]; [subst x|];
    (rewrite addByte_ret by (unfold getLen; cbn [bdata bmax]; rewrite lenN_nil; lia));
    cbn [bind bdata bmax app];
    (rewrite fromLong_loop_app; [reflexivity|discriminate|unfold getLen; cbn [bdata bmax]; rewrite lenN_cons, lenN_nil; lia]).
Qed.

Lemma strip_val l : be_val (strip l) = be_val l.
Proof.
  induction l as [|x l IH]; [reflexivity|]. cbn [strip]. destruct (N.eqb_spec (b2n x) 0) as [E|_]; [|reflexivity].
  rewrite IH. change (x :: l) with ([x] ++ l). rewrite be_val_app, be_val_single, E. lia.
Qed.
Lemma strip_len l : lenN (strip l) <= lenN l.
Proof.
  induction l as [|x l IH]; [cbn; lia|]. cbn [strip]. destruct (b2n x =? 0); [rewrite lenN_cons; lia|lia].
Qed.
Lemma strip_head l : match strip l with [] => True | x :: _ => b2n x <> 0 end.
Proof.
  induction l as [|x l IH]; [exact I|]. cbn [strip]. destruct (N.eqb_spec (b2n x) 0); [exact IH|assumption].
Qed.
(** a number with a non-zero leading byte needs all its bytes *)
Lemma minimal_bound x l : b2n x <> 0 -> 256 ^ lenN l <= be_val (x :: l).
Proof.
  intros Hx. change (x :: l) with ([x] ++ l). rewrite be_val_app, be_val_single.
  assert (1 * 256 ^ lenN l <= b2n x * 256 ^ lenN l) by (apply N.mul_le_mono_r; lia). lia.
Qed.

Lemma fromLong_true n : n < two64 -> fromLong n true = Ret (mkBytes (be8 n) 8).
Proof.
  intros Hn. unfold fromLong, newBytes. cbn [Z.ltb Z.compare bind]. change (Z.to_N 8) with 8.
  apply fromLong_loop_zeros; [discriminate|]. rewrite be8_len. lia.
Qed.
Lemma fromLong_false n : n < two64 -> fromLong n false = Ret (mkBytes (strip (be8 n)) 8).
Proof.
  intros Hn. unfold fromLong, newBytes. cbn [Z.ltb Z.compare bind]. change (Z.to_N 8) with 8.
  apply fromLong_loop_strip. rewrite be8_len. lia.
Qed.

Lemma toLong_val b : getLen b <= 8 -> toLong b = Ret (be_val (bdata b)).
Proof. intros Hl. unfold toLong. destruct (N.ltb_spec 8 (getLen b)); [lia|]. rewrite le_val_rev. reflexivity. Qed.
Lemma toLong_long b : 8 < getLen b -> toLong b = Throw LengthError.
Proof. intros Hl. unfold toLong. destruct (N.ltb_spec 8 (getLen b)); [reflexivity|lia]. Qed.

Lemma fromLong_toLong n z : n < two64 -> exists b, fromLong n z = Ret b /\ toLong b = Ret n /\
   (z = true -> getLen b = 8).
Proof.
  intros Hn. destruct z.
  - rewrite fromLong_true by assumption. eexists; split; [reflexivity|]. rewrite toLong_val by (unfold getLen; cbn [bdata]; rewrite be8_len; lia).
    cbn [bdata]. rewrite be8_val by assumption. auto.
  - rewrite fromLong_false by assumption. eexists; split; [reflexivity|]. rewrite toLong_val.
    2: { unfold getLen; cbn [bdata]. pose proof (strip_len (be8 n)). rewrite be8_len in *. lia. }
    cbn [bdata]. rewrite strip_val, be8_val by assumption. split; [reflexivity|discriminate].
Qed.
(** no shorter byte string has the same value *)
Lemma fromLong_minimal n b l : n < two64 -> fromLong n false = Ret b -> be_val l = n -> getLen b <= lenN l.
Proof.
  intros Hn. rewrite fromLong_false by assumption. intros E Hl. assert (Eb : b = mkBytes (strip (be8 n)) 8) by congruence. subst b. unfold getLen. cbn [bdata].
  pose proof (strip_val (be8 n)) as Hv. rewrite be8_val in Hv by assumption.
  pose proof (strip_head (be8 n)) as Hh. destruct (strip (be8 n)) as [|x r]; [rewrite lenN_nil; lia|].
  pose proof (minimal_bound x r Hh) as Hm. pose proof (be_val_lt l) as Hlt. rewrite lenN_cons.
  destruct (N.ltb_spec (lenN l) (1 + lenN r)) as [C|]; [|assumption].
  assert (256 ^ lenN l <= 256 ^ lenN r) by (apply N.pow_le_mono_r; lia). lia.
Qed.

Lemma getLongLen_loop_spec f : forall n r, n < 256 ^ N.of_nat f -> (f > 0)%nat ->
  exists k, getLongLen_loop (S f) n r = Ret (r + k) /\ n < 256 ^ k /\ (k = 0 /\ n = 0 \/ 0 < k /\ 256 ^ (k - 1) <= n).
Proof.
  induction f as [|f IH]; intros n r Hn Hf; [lia|].
  change (getLongLen_loop (S (S f)) n r) with (if n =? 0 then Ret r else getLongLen_loop (S f) (n / 256) (r + 1)).
  destruct (N.eqb_spec n 0) as [->|Hz].
  - exists 0. rewrite N.add_0_r. split; [reflexivity|]. split; [reflexivity|auto].
  - replace (N.of_nat (S f)) with (N.succ (N.of_nat f)) in Hn by lia. rewrite N.pow_succ_r in Hn by lia.
    destruct f as [|f].
    + change (256 ^ N.of_nat 0) with 1 in Hn.
      replace (n / 256) with 0 by lia. cbn [getLongLen_loop N.eqb]. exists 1.
      change (1 - 1) with 0. rewrite N.pow_1_r, N.pow_0_r. repeat split; try lia.
    + destruct (IH (n / 256) (r + 1)) as (k & Hk & Hlt & Hge); [lia|lia|].
      rewrite Hk. exists (k + 1). split; [f_equal; lia|].
      replace (k + 1) with (N.succ k) by lia. rewrite N.pow_succ_r by lia. split; [lia|].
      right. split; [lia|]. replace (N.succ k - 1) with k by lia.
      destruct Hge as [[-> E]|[Hk0 Hge]]; [rewrite N.pow_0_r; lia|].
      assert (E : 256 ^ k = 256 * 256 ^ (k - 1)).
      { rewrite <- N.pow_succ_r by lia. f_equal. lia. }
      rewrite E. lia.
Qed.
Lemma getLongLen_len n b : n < two64 -> fromLong n false = Ret b -> getLongLen n = Ret (getLen b).
Proof.
  intros Hn Hb. destruct (getLongLen_loop_spec 8 n 0) as (k & Hk & Hlt & Hge); [exact Hn|lia|].
  unfold getLongLen. rewrite Hk. f_equal. rewrite N.add_0_l.
  rewrite fromLong_false in Hb by assumption. assert (Eb : b = mkBytes (strip (be8 n)) 8) by congruence. subst b. unfold getLen. cbn [bdata].
  pose proof (strip_val (be8 n)) as Hv. rewrite be8_val in Hv by assumption.
  pose proof (strip_head (be8 n)) as Hh. destruct (strip (be8 n)) as [|x r].
  - rewrite lenN_nil. change (be_val []) with 0 in Hv. destruct Hge as [[-> _]|[Hk0 Hge]]; [lia|].
    assert (256 ^ (k - 1) <> 0) by (apply N.pow_nonzero; lia). lia.
  - pose proof (minimal_bound x r Hh) as Hm. pose proof (be_val_lt (x :: r)) as Hl. rewrite lenN_cons in *.
    destruct Hge as [[-> ->]|[Hk0 Hge]].
    + assert (256 ^ lenN r <> 0) by (apply N.pow_nonzero; lia). lia.
    + assert (k <= 1 + lenN r /\ 1 + lenN r <= k); [|lia]. split.
      * destruct (N.leb_spec k (1 + lenN r)) as [|C]; [assumption|].
        assert (256 ^ (1 + lenN r) <= 256 ^ (k - 1)) by (apply N.pow_le_mono_r; lia). lia.
      * destruct (N.leb_spec (1 + lenN r) k) as [|C]; [assumption|].
        assert (256 ^ k <= 256 ^ lenN r) by (apply N.pow_le_mono_r; lia). lia.
Qed.

(** ** toHex *)
Lemma hexChar_hex n : n < 16 -> is_hex (hexChar n).
Proof.
  intros Hn. unfold is_hex, hexChar.
  assert (G : forallb (fun i => let v := b2n (nth i hexChars x00) in ((48 <=? v) && (v <=? 57)) || ((65 <=? v) && (v <=? 70))) (seq 0 16) = true) by reflexivity.
  rewrite forallb_forall in G. specialize (G (N.to_nat n)). rewrite in_seq in G. specialize (G ltac:(lia)). cbv zeta in G. lia.
Qed.
Lemma hexChar_inj a b : a < 16 -> b < 16 -> hexChar a = hexChar b -> a = b.
Proof.
  intros Ha Hb E.
  assert (ND : NoDup hexChars).
  { unfold hexChars. repeat constructor; cbn; intuition discriminate. }
  unfold hexChar in E. rewrite NoDup_nth in ND. apply N2Nat.inj.
  assert (L : length hexChars = 16%nat) by reflexivity.
  apply ND; [lia|lia|]. exact E.
Qed.
Lemma toHex_inj a b : toHex a = toHex b -> bdata a = bdata b.
Proof.
  unfold toHex. generalize (bdata a) as x, (bdata b) as y.
  induction x as [|p x IH]; intros [|q y] E; cbn [flat_map app] in E; try discriminate; [reflexivity|].
  injection E as E1 E2 E3. pose proof (b2n_lt p); pose proof (b2n_lt q).
  apply hexChar_inj in E1; [|lia|lia]. apply hexChar_inj in E2; [|lia|lia].
  f_equal; [apply b2n_inj; lia|]. apply IH. exact E3.
Qed.
Lemma toHex_shape b : lenN (toHex b) = 2 * getLen b /\ Forall is_hex (toHex b).
Proof.
  unfold toHex, getLen. generalize (bdata b) as x. induction x as [|p x [IH1 IH2]]; cbn [flat_map app].
  - split; [reflexivity|constructor].
  - rewrite !lenN_cons, IH1. split; [lia|]. pose proof (b2n_lt p).
    constructor; [|constructor]; [apply hexChar_hex; lia|apply hexChar_hex; lia|exact IH2].
Qed.
Lemma hex_digit_hexChar n : n < 16 -> hex_digit (hexChar n) = n.
Proof.
  intros Hn.
  assert (G : forallb (fun i => hex_digit (nth i hexChars x00) =? N.of_nat i) (seq 0 16) = true) by reflexivity.
  rewrite forallb_forall in G. specialize (G (N.to_nat n)). rewrite in_seq in G. specialize (G ltac:(lia)).
  unfold hexChar. lia.
Qed.
Lemma unhex_toHex b : unhex (toHex b) = bdata b.
Proof.
  unfold toHex. generalize (bdata b) as x. induction x as [|p x IH]; cbn [flat_map app unhex]; [reflexivity|].
  rewrite IH. pose proof (b2n_lt p). rewrite !hex_digit_hexChar by lia. f_equal.
  replace (b2n p / 16 * 16 + b2n p mod 16) with (b2n p) by lia. apply n2b_b2n.
Qed.


Lemma step_refines b o : within b -> bop_ok b o = true -> bmax b < two64 ->
  match spec_step (repr b) o with
  | Some s => exists b', model_step b o = Ret b' /\ repr b' = s /\ within b'
  | None => exists e, model_step b o = Throw e
  end.
Proof.
  unfold within, repr. intros Hw Hok H64. destruct b as [l cap]. unfold getLen in *. cbn [bdata bmax] in *.
  destruct o; cbn [spec_step model_step bop_ok] in *; unfold replace_content, getLen in *; cbn [bdata bmax] in *.
  - apply andb_true_iff in Hok. destruct Hok as (Hok & H31). apply N.leb_le in Hok. apply N.ltb_lt in H31.
    unfold fillrandom, getLen. cbn [bdata bmax]. rewrite random_bytes_ok by (rewrite ?lenN_takeN; lia). cbn [bind noexcept].
    assert (E : lenN (l ++ takeN (cap - lenN l) r) = cap) by (rewrite lenN_app, lenN_takeN; lia).
    rewrite E. destruct (N.leb_spec cap cap); [|lia].
    eexists; split; [reflexivity|]. split; [reflexivity|]. unfold getLen. cbn [bdata bmax]. lia.
  - unfold addrandom, getLen. cbn [bdata bmax]. rewrite lenN_app.
    apply N.ltb_lt in Hok. rewrite random_bytes_ok by (rewrite ?lenN_takeN; lia). rewrite (takeN_all (lenN r) r) by lia. cbn [bind].
    destruct (N.leb_spec (lenN l + lenN r) cap); destruct (N.ltb_spec cap (lenN l + lenN r)); try lia; [|eauto].
    eexists; split; [reflexivity|]. split; [reflexivity|]. unfold getLen. cbn [bdata bmax]. rewrite lenN_app. lia.
  - unfold setBytes. cbn [bmax].
    destruct (N.leb_spec (lenN l0) cap); destruct (N.ltb_spec cap (lenN l0)); try lia; [|eauto].
    eexists; split; [reflexivity|]. split; [reflexivity|]. unfold getLen. cbn [bdata bmax]. lia.
  - unfold addBytes, getLen. cbn [bdata bmax]. rewrite lenN_app.
    destruct (N.leb_spec (lenN l + lenN l0) cap); destruct (N.ltb_spec cap (lenN l + lenN l0)); try lia; [|eauto].
    eexists; split; [reflexivity|]. split; [reflexivity|]. unfold getLen. cbn [bdata bmax]. rewrite lenN_app. lia.
  - unfold consumeBytes. cbn [bmax].
    destruct (N.leb_spec (lenN l0) cap); destruct (N.ltb_spec cap (lenN l0)); try lia; [|eauto].
    eexists; split; [reflexivity|]. split; [reflexivity|]. unfold getLen. cbn [bdata bmax]. lia.
  - unfold setLen, getLen. cbn [bdata bmax]. rewrite Hok.
    destruct (N.ltb_spec cap n); [lia|].
    eexists; split; [reflexivity|]. split; [reflexivity|]. unfold getLen. cbn [bdata bmax]. rewrite lenN_takeN. lia.
  - unfold copyToBytes, fromArray, getLen. cbn [bdata bmax].
    destruct (N.leb_spec (lenN src) cap); destruct (N.ltb_spec cap (lenN src)); try lia; [|eauto].
    eexists; split; [reflexivity|]. split; [reflexivity|]. unfold getLen. cbn [bdata bmax]. lia.
  - unfold addcopyToBytes, fromArray, getLen. cbn [bdata bmax]. rewrite lenN_app.
    destruct (N.leb_spec (lenN l + lenN src) cap); destruct (N.ltb_spec cap (lenN src + lenN l)); try lia; [|eauto].
    eexists; split; [reflexivity|]. split; [reflexivity|]. unfold getLen. cbn [bdata bmax]. rewrite lenN_app. lia.
  - eexists; split; [reflexivity|]. split; [reflexivity|]. unfold getLen. cbn [bdata bmax addSize]. lia.
  - unfold addByte, getLen. cbn [bdata bmax]. rewrite lenN_app. change (lenN [x]) with 1.
    destruct (N.leb_spec (lenN l + 1) cap); destruct (N.leb_spec cap (lenN l)); try lia; [|eauto].
    eexists; split; [reflexivity|]. split; [reflexivity|]. unfold getLen. cbn [bdata bmax]. rewrite lenN_app. change (lenN [x]) with 1. lia.
  - unfold addStringToBytes, addBytes, getLen. cbn [bdata bmax]. rewrite lenN_app.
    assert (E : sub64 cap (lenN l) = cap - lenN l).
    { unfold sub64. replace (cap + two64 - lenN l) with (cap - lenN l + 1 * two64) by lia.
      rewrite N.mod_add by (unfold two64; lia). apply N.mod_small. lia. }
    rewrite E.
    destruct (N.leb_spec (lenN l + lenN s) cap); destruct (N.ltb_spec (cap - lenN l) (lenN s));
      destruct (N.ltb_spec cap (lenN l + lenN s)); try lia; [|eauto].
    eexists; split; [reflexivity|]. split; [reflexivity|]. unfold getLen. cbn [bdata bmax]. rewrite lenN_app. lia.
Qed.


Lemma run_refines ops : forall b, within b -> ops_ok b ops ->
  repr (model_run b ops) = spec_run (repr b) ops /\ within (model_run b ops).
Proof.
  induction ops as [|o r IH]; intros b Hw Hok; cbn [model_run spec_run]; [auto|].
  destruct Hok as (H1 & H2 & H3). pose proof (step_refines b o Hw H1 H2) as HS.
  destruct (spec_step (repr b) o) as [s|].
  - destruct HS as (b' & Hb & <- & Hw'). rewrite Hb in *. apply IH; assumption.
  - destruct HS as (e & He). rewrite He in *. apply IH; assumption.
Qed.
