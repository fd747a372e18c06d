(** Lemmas about machines that keep the bytes of numbers in either order: encrypted blocks,
    random bytes. *)
From Verif Require Import Base BaseFacts BytesModel BytesSpec BytesFacts BytesFacts2 CipherModel CipherSpec CipherFacts PwModel PwSpec PwFacts ChModel ChSpec ChFacts ChFacts2
  HeaderModel HeaderSpec HeaderFacts HeaderFacts2 HeaderFacts8 FileModel MiscModel OrderModel OrderSpec OrderFacts.
Ltac Zify.zify_post_hook ::= Z.div_mod_to_equations.

Definition shift (o : order) : N := match o with Little => 1 | Big => 72057594037927936 end.
Lemma key_byte_on o i b k : keyByte i b = Ret k -> i < getLen b -> keyByte_on o i b = Ret (k * shift o).
Proof.
  intros E Hi. unfold keyByte, keyByte_on in *. destruct (copySubBytes i (i + 1) b) as [x| | |] eqn:Ex; try discriminate. cbn [bind] in *.
  rewrite copySub_ok in Ex by lia. assert (getLen x = 1) as L.
  { injection Ex as <-. unfold getLen in *. cbn [bdata]. rewrite lenN_takeN, lenN_dropN. lia. }
  rewrite toLong_on_val by lia. rewrite toLong_val in E by lia. injection E as <-. f_equal.
  unfold getLen in L. destruct (bdata x) as [|y [|z l]]; rewrite ?lenN_cons in L; try (change (lenN (@nil byte)) with 0 in L; lia).
  unfold number_on. destruct o; cbn [shift rev app]; [rewrite N.mul_1_r; reflexivity|]. reflexivity.
Qed.
Lemma shift_byte o x y : x < 256 -> w8 (x + y * shift o) = match o with Little => w8 (x + y) | Big => x end.
Proof. intros Hx. unfold w8. destruct o; cbn [shift]; lia. Qed.
Lemma shift_mod o y : y < 256 -> w8 (y * shift o) = match o with Little => y | Big => 0 end.
Proof. intros Hx. unfold w8. destruct o; cbn [shift]; lia. Qed.

Section Block.
Variables (fuel : nat) (rnd : N -> bytes) (h : hashfn) (pw salt : Bytes).
Hypothesis Hr : forall k, lenN (rnd k) = k.
Hypothesis Hh : hash_ok h.
Hypothesis H2 : 2 <= hsize h.
Hypothesis Ls : getLen salt = hsize h.
Hypothesis Lf : 255 <= N.of_nat fuel.

Lemma hashed_keys o i : i < 2 -> exists k, nth_error (hfun h (bdata pw)) (N.to_nat i) = Some k /\
  keyByte i (mkBytes (hfun h (bdata pw)) (hsize h)) = Ret (b2n k) /\ keyByte_on o i (mkBytes (hfun h (bdata pw)) (hsize h)) = Ret (b2n k * shift o).
Proof using Hr Hh H2 Ls Lf.
  intros Hi. pose proof Hh as (H0 & _ & H3). set (pwh := mkBytes _ _). assert (getLen pwh = hsize h) as Lp by apply H3.
  destruct (key_byte i pwh ltac:(lia)) as (k & Nk & E). exists k. split; [exact Nk|]. split; [exact E|]. apply key_byte_on; [exact E|lia].
Qed.
Lemma enc_block_on o b :
  newEncDataBlock_on o fuel rnd h b pw salt =
  (e <- newEncDataBlock fuel rnd h b pw salt ;;
   Ret (mkEB (eb_block e) (match o with Little => eb_len e | Big => w8 (getLen (db_data b)) end))).
Proof using Hr Hh H2 Ls Lf.
  unfold newEncDataBlock_on, newEncDataBlock. rewrite (hash_ret h _ Hh). cbn [bind].
  destruct (hashed_keys o 0 ltac:(lia)) as (k0 & _ & -> & ->). destruct (hashed_keys o 1 ltac:(lia)) as (k1 & _ & -> & ->). cbn [bind].
  destruct (enc_loop _ _ _ _ _ _ _) as [enc| | |]; cbn [bind]; try reflexivity.
  destruct (fillrandom rnd _) as [enc'| | |]; cbn [bind]; try reflexivity.
  destruct (db_setData enc' b) as [db'| | |]; cbn [bind]; try reflexivity. cbn [eb_block eb_len]. f_equal. f_equal.
  destruct o; cbn [shift]; unfold w8; lia.
Qed.
Lemma dec_block_on o e : eb_len e < 256 -> exists k, nth_error (hfun h (bdata pw)) 1 = Some k /\
  getDec_on o fuel h pw salt e = getDec fuel h pw salt (mkEB (eb_block e) (match o with Little => eb_len e | Big => w8 (eb_len e + b2n k) end)).
Proof using Hr Hh H2 Ls Lf.
  intros He. destruct (hashed_keys o 1 ltac:(lia)) as (k & Nk & E & E'). exists k. split; [exact Nk|].
  unfold getDec_on, getDec. rewrite (hash_ret h _ Hh). cbn [bind]. rewrite E, E'. cbn [bind eb_block eb_len].
  pose proof (b2n_lt k). rewrite (shift_mod o (b2n k)) by assumption.
  assert (w8 (eb_len e + 256 - match o with Little => b2n k | Big => 0 end) = w8 (match o with Little => eb_len e | Big => w8 (eb_len e + b2n k) end + 256 - b2n k)) as ->.
  { destruct o; [reflexivity|]. unfold w8. lia. }
  reflexivity.
Qed.
Lemma enc_len_range b e : newEncDataBlock fuel rnd h b pw salt = Ret e -> eb_len e < 256.
Proof using Hr Hh H2 Ls Lf.
  unfold newEncDataBlock. rewrite (hash_ret h _ Hh). cbn [bind].
  destruct (hashed_keys Little 0 ltac:(lia)) as (k0 & _ & -> & _). destruct (hashed_keys Little 1 ltac:(lia)) as (k1 & _ & -> & _). cbn [bind].
  destruct (enc_loop _ _ _ _ _ _ _) as [enc| | |]; cbn [bind]; try discriminate.
  destruct (fillrandom rnd _) as [enc'| | |]; cbn [bind]; try discriminate.
  destruct (db_setData enc' b) as [db'| | |]; cbn [bind]; try discriminate. intros [= <-]. cbn [eb_len]. apply N.mod_lt. discriminate.
Qed.
Lemma block_round_trip_on o b e : getLen (db_data b) <= 255 -> newEncDataBlock_on o fuel rnd h b pw salt = Ret e ->
  exists r, getDec_on o fuel h pw salt e = Ret r /\ bdata r = bdata (db_data b).
Proof using Hr Hh H2 Ls Lf.
  intros Ld E. rewrite enc_block_on in E. destruct (newEncDataBlock fuel rnd h b pw salt) as [e0| | |] eqn:E0; try discriminate. cbn [bind] in E. injection E as <-.
  pose proof (enc_len_range b e0 E0) as L0.
  destruct (enc_block_round_trip fuel rnd h b pw salt e0 Hr Hh H2 Ls Ld Lf E0) as (r & Er & Hd). exists r. split; [|exact Hd].
  destruct (dec_block_on o (mkEB (eb_block e0) match o with Little => eb_len e0 | Big => w8 (getLen (db_data b)) end)) as (k & Nk & ->).
  { cbn [eb_len]. destruct o; [exact L0|apply N.mod_lt; discriminate]. }
  cbn [eb_block eb_len]. rewrite <- Er. f_equal. destruct o; [destruct e0; reflexivity|].
  destruct (enc_block_build fuel rnd h b pw salt Hr Hh H2 Ls Ld Lf) as [A B].
  destruct (N.eq_dec (getLen (db_data b)) 255) as [L|L]; [|rewrite A in E0 by exact L; discriminate].
  destruct (B L) as (e' & k' & E' & Nk' & El & _). assert (k' = k) by congruence. assert (e' = e0) by congruence. subst k' e'.
  destruct e0 as [eb el]. cbn [eb_block eb_len] in *. f_equal. rewrite El, L. unfold w8. reflexivity.
Qed.
Lemma block_in_clear b e : db_type b < 256 -> getLen (db_data b) <= 255 -> newEncDataBlock_on Big fuel rnd h b pw salt = Ret e ->
  eb_len e = getLen (db_data b) /\ db_type (eb_block e) = db_type b /\ forall pw', getDecType_on Big h pw' e = Ret (db_type b).
Proof using Hr Hh H2 Ls Lf.
  intros Ht Ld E. rewrite enc_block_on in E. destruct (newEncDataBlock fuel rnd h b pw salt) as [e0| | |] eqn:E0; try discriminate. cbn [bind] in E. injection E as <-.
  destruct (enc_block_build fuel rnd h b pw salt Hr Hh H2 Ls Ld Lf) as [A B].
  destruct (N.eq_dec (getLen (db_data b)) 255) as [L|L]; [|rewrite A in E0 by exact L; discriminate].
  destruct (B L) as (e' & k' & E' & Nk' & El & Et & _). assert (e' = e0) by congruence. subst e'. cbn [eb_len eb_block].
  split; [rewrite L; reflexivity|]. split; [exact Et|]. intros pw'. unfold getDecType_on. rewrite (hash_ret h _ Hh). cbn [bind].
  set (pwh := mkBytes (hfun h (bdata pw')) (hsize h)). pose proof Hh as (_ & _ & H3). assert (getLen pwh = hsize h) as Lp by apply H3.
  destruct (key_byte 0 pwh ltac:(lia)) as (k & _ & Ek). rewrite (key_byte_on Big 0 pwh _ Ek) by lia. cbn [bind noexcept eb_block]. pose proof (b2n_lt k).
  rewrite shift_mod by assumption. rewrite Et. f_equal. unfold w8. lia.
Qed.
End Block.

(** ** random bytes *)
Lemma random_range_on o rnd lower upper n r : get_random_byte_on o rnd lower upper n = Ret r ->
  b2n lower <= b2n r <= b2n upper /\ (b2n lower < b2n upper -> b2n r < b2n upper).
Proof.
  unfold get_random_byte_on. destruct (N.ltb_spec n 1); [discriminate|]. destruct (N.ltb_spec 8 n); [discriminate|]. cbn [orb].
  destruct (N.leb_spec (b2n upper) (b2n lower)).
  - destruct (N.eqb_spec (b2n upper) (b2n lower)) as [E|]; [|discriminate]. intros Er. injection Er as <-. lia.
  - destruct (rnd n) as [bs|]; [|discriminate].
    destruct (toLong_on o (mkBytes bs n)) as [v| | |]; [|discriminate|discriminate|discriminate]. cbn [bind]. intros Er. injection Er as <-.
    pose proof (b2n_lt upper).
    assert (v mod (b2n upper - b2n lower) < b2n upper - b2n lower) by (apply N.mod_lt; lia).
    rewrite b2n_n2b_small by lia. lia.
Qed.
Lemma power_of_two_divides j n : j <= 8 -> n < 8 -> exists q, 256 ^ (8 - n) = q * 2 ^ j.
Proof.
  intros Hj Hn. exists (2 ^ (8 * (8 - n) - j)). rewrite <- N.pow_add_r. change 256 with (2 ^ 8). rewrite <- N.pow_mul_r. f_equal. lia.
Qed.
Lemma random_constant rnd lower upper n j r : (forall k bs, rnd k = Some bs -> lenN bs = k) -> n < 8 -> b2n upper = b2n lower + 2 ^ j ->
  get_random_byte_on Big rnd lower upper n = Ret r -> r = lower.
Proof.
  intros Hr Hn Hu. unfold get_random_byte_on. destruct (N.ltb_spec n 1); [discriminate|]. destruct (N.ltb_spec 8 n); [discriminate|]. cbn [orb].
  assert (2 ^ j <> 0) as Hp by (apply N.pow_nonzero; discriminate).
  destruct (N.leb_spec (b2n upper) (b2n lower)); [lia|]. destruct (rnd n) as [bs|] eqn:E; [|discriminate]. apply Hr in E.
  rewrite toLong_on_val by (unfold getLen; cbn [bdata]; lia). cbn [bind bdata]. intros Er. injection Er as <-.
  replace (b2n upper - b2n lower) with (2 ^ j) by lia. unfold number_on. rewrite E.
  assert (j <= 8) as Hj. { pose proof (b2n_lt upper). destruct (N.le_gt_cases j 8); [assumption|]. assert (2 ^ 9 <= 2 ^ j) by (apply N.pow_le_mono_r; lia). change (2 ^ 9) with 512 in *. lia. }
  destruct (power_of_two_divides j n Hj Hn) as [q ->]. rewrite N.mul_assoc, N.mod_mul by exact Hp. rewrite N.add_0_l. apply n2b_b2n.
Qed.
