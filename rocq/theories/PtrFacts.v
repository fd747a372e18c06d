(** Lemmas for C86. *)
From Coq Require Import ZArith.
From Verif Require Import Base BaseFacts BytesModel BytesSpec BytesFacts2 PtrModel.
Open Scope N_scope.

Definition no_result {A} (m : outcome A) : Prop := match m with Throw LengthError | Throw InvalidArgument => True | _ => False end.
Lemma null_rejected len b : no_result (newPtr None len) /\ no_result (setPtr None len b) /\ no_result (addPtr None len b) /\ no_result (consumePtr None len b) /\
  no_result (copyToArray b None len).
Proof.
  unfold newPtr, setPtr, addPtr, consumePtr, copyToArray. split; [exact I|].
  split; [destruct (bmax b <? len); exact I|]. split; [destruct (bmax b <? _); exact I|]. split; [destruct (bmax b <? len); exact I|destruct (len <? _); exact I].
Qed.
Lemma read_ptr_app a r : read_ptr (a ++ r) (lenN a) = Ret a.
Proof.
  unfold read_ptr. replace (lenN (a ++ r) <? lenN a) with false by (symmetry; apply N.ltb_ge; unfold lenN; rewrite app_length; lia). rewrite takeN_app_exact. reflexivity.
Qed.
Lemma arrays_as_lists a r b : getLen b + lenN a < two64 ->
  newPtr (Some (a ++ r)) (lenN a) = Ret (fromArray a) /\ setPtr (Some (a ++ r)) (lenN a) b = setBytes a b /\ addPtr (Some (a ++ r)) (lenN a) b = addBytes a b /\
  consumePtr (Some (a ++ r)) (lenN a) b = consumeBytes a b.
Proof.
  intros S. unfold newPtr, setPtr, addPtr, consumePtr. rewrite !read_ptr_app. cbn [bind].
  split; [reflexivity|]. split; [reflexivity|]. split; [|reflexivity].
  unfold addBytes, w64. rewrite N.mod_small by exact S. destruct (bmax b <? getLen b + lenN a); reflexivity.
Qed.
Lemma copy_out b a len : (getLen b <= len -> getLen b <= lenN a -> exists a', copyToArray b (Some a) len = Ret a' /\
    takeN (getLen b) a' = bdata b /\ dropN (getLen b) a' = dropN (getLen b) a /\ lenN a' = lenN a) /\
  (len < getLen b -> copyToArray b (Some a) len = Throw LengthError) /\ (lenN a < getLen b <= len -> copyToArray b (Some a) len = Crash Undefined).
Proof.
  unfold copyToArray. split; [|split].
  - intros L A. apply N.ltb_ge in L. pose proof A as A'. apply N.ltb_ge in A'. rewrite L, A'. eexists. split; [reflexivity|]. unfold getLen in *.
    rewrite takeN_app_exact, dropN_app_exact. split; [reflexivity|]. split; [reflexivity|]. unfold lenN in *. rewrite app_length. unfold dropN. rewrite skipn_length. lia.
  - intros L. apply N.ltb_lt in L. rewrite L. reflexivity.
  - intros [A L]. apply N.ltb_ge in L. apply N.ltb_lt in A. rewrite L, A. reflexivity.
Qed.

Lemma addrandom_nonneg rnd (n : N) b : within b -> bmax b < 9223372036854775808 -> n < 9223372036854775808 -> 
  (n < 2147483648 \/ bmax b < getLen b + n) -> addrandomZ rnd (Z.of_N n) b = addrandom rnd n b.
Proof.
  intros W M S H. unfold addrandomZ, addrandom, within in *. rewrite Z.mod_small by lia. rewrite N2Z.id.
  unfold w64, two64. rewrite N.mod_small by lia. destruct (N.ltb_spec (bmax b) (getLen b + n)) as [L|L]; [reflexivity|].
  destruct H as [H|H]; [|lia]. unfold w32, two32. rewrite N.mod_small by lia. unfold rand_int, random_bytes, to_int32.
  destruct (N.leb_spec 2147483648 n) as [K|K]; [lia|]. rewrite Z.mod_small by lia.
  destruct (Z.ltb_spec (Z.of_N n) 2147483648) as [J|J]; [|lia]. destruct (Z.ltb_spec (Z.of_N n) 0) as [Q|_]; [lia|].
  destruct (N.eqb_spec (lenN (rnd n)) n) as [E|E]; [|reflexivity]. cbn [bind]. rewrite E. destruct (N.ltb_spec (bmax b) (getLen b + n)); [lia|].
  unfold getLen in *. replace (lenN (bdata b ++ rnd n)) with (lenN (bdata b) + n) by (unfold lenN in *; rewrite app_length; lia).
  rewrite N.ltb_irrefl. rewrite takeN_all; [reflexivity|]. unfold lenN in *. rewrite app_length. lia.
Qed.
Lemma addrandom_negative rnd m b : within b -> bmax b < 9223372036854775808 -> 1 <= m <= 2147483648 ->
  addrandomZ rnd (- Z.of_N m) b = if m <=? getLen b then Crash Undefined else Throw LengthError.
Proof.
  intros W M S. unfold addrandomZ, within in *.
  assert (U : Z.to_N ((- Z.of_N m) mod 18446744073709551616) = two64 - m).
  { replace ((- Z.of_N m) mod 18446744073709551616)%Z with (18446744073709551616 - Z.of_N m)%Z; [unfold two64; lia|].
    symmetry. rewrite <- (Z.mod_small (18446744073709551616 - Z.of_N m) 18446744073709551616) by lia.
    rewrite <- (Z_mod_plus_full (- Z.of_N m) 1). f_equal. lia. }
  rewrite U. destruct (N.leb_spec m (getLen b)) as [L|L].
  - assert (V : w64 (getLen b + (two64 - m)) = getLen b - m).
    { unfold w64. replace (getLen b + (two64 - m)) with (getLen b - m + 1 * two64) by (unfold two64 in *; lia). rewrite N.mod_add by discriminate. apply N.mod_small. unfold two64. lia. }
    rewrite V. destruct (N.ltb_spec (bmax b) (getLen b - m)) as [K|K]; [lia|].
    assert (X : w32 (two64 - m) = two32 - m).
    { unfold w32. replace (two64 - m) with (two32 - m + 4294967295 * two32) by (unfold two64, two32; lia). rewrite N.mod_add by discriminate. apply N.mod_small. unfold two32. lia. }
    rewrite X. unfold rand_int, to_int32. rewrite Z.mod_small by (unfold two32; lia).
    destruct (Z.ltb_spec (Z.of_N (two32 - m)) 2147483648) as [J|J]; [unfold two32 in J; lia|].
    destruct (Z.ltb_spec (Z.of_N (two32 - m) - 4294967296) 0) as [Q|Q]; [reflexivity|]. unfold two32 in Q. lia.
  - assert (V : w64 (getLen b + (two64 - m)) = getLen b + (two64 - m)) by (unfold w64; apply N.mod_small; unfold two64; lia).
    rewrite V. destruct (N.ltb_spec (bmax b) (getLen b + (two64 - m))) as [K|K]; [reflexivity|]. unfold two64 in K. lia.
Qed.
Lemma fill_object rnd n b : n < two32 ->
  (bmax b < n -> fillRandomBytes rnd n b = Throw LogicError) /\
  (n <= bmax b -> n < 2147483648 -> lenN (rnd n) = n -> fillRandomBytes rnd n b = Ret (mkBytes (rnd n) (bmax b))) /\
  (n <= bmax b -> n < 2147483648 -> lenN (rnd n) <> n -> fillRandomBytes rnd n b = Throw RuntimeError) /\
  (n <= bmax b -> 2147483648 <= n -> fillRandomBytes rnd n b = Crash Undefined).
Proof.
  intros S. unfold fillRandomBytes, rand_int, to_int32. unfold two32 in S. rewrite Z.mod_small by lia. split; [|split; [|split]].
  - intros L. apply N.ltb_lt in L. rewrite L. reflexivity.
  - intros L K E. apply N.ltb_ge in L. rewrite L. destruct (Z.ltb_spec (Z.of_N n) 2147483648); [|lia]. destruct (Z.ltb_spec (Z.of_N n) 0); [lia|].
    apply N.eqb_eq in E. rewrite E. reflexivity.
  - intros L K E. apply N.ltb_ge in L. rewrite L. destruct (Z.ltb_spec (Z.of_N n) 2147483648); [|lia]. destruct (Z.ltb_spec (Z.of_N n) 0); [lia|].
    apply N.eqb_neq in E. rewrite E. reflexivity.
  - intros L K. apply N.ltb_ge in L. rewrite L. destruct (Z.ltb_spec (Z.of_N n) 2147483648); [lia|]. destruct (Z.ltb_spec (Z.of_N n - 4294967296) 0); [reflexivity|lia].
Qed.

(** any negative number *)
Lemma addrandom_any_negative rnd m b : within b -> bmax b < 9223372036854775808 -> 1 <= m <= 9223372036854775808 ->
  addrandomZ rnd (- Z.of_N m) b =
  if getLen b <? m then Throw LengthError
  else
    let k := (4294967296 - m mod 4294967296) mod 4294967296 in
    if 2147483648 <=? k then Crash Undefined
    else if negb (lenN (rnd k) =? k) then Throw RuntimeError
    else if bmax b <? getLen b + k then Crash Undefined
    else Ret (mkBytes (takeN (getLen b - m) (bdata b)) (bmax b)).
Proof.
  intros W M S. unfold addrandomZ, within in *.
  assert (U : Z.to_N ((- Z.of_N m) mod 18446744073709551616) = two64 - m).
  { replace ((- Z.of_N m) mod 18446744073709551616)%Z with (18446744073709551616 - Z.of_N m)%Z; [unfold two64; lia|].
    symmetry. rewrite <- (Z.mod_small (18446744073709551616 - Z.of_N m) 18446744073709551616) by lia.
    rewrite <- (Z_mod_plus_full (- Z.of_N m) 1). f_equal. lia. }
  rewrite U. destruct (N.ltb_spec (getLen b) m) as [L|L].
  { assert (V : w64 (getLen b + (two64 - m)) = getLen b + (two64 - m)) by (unfold w64; apply N.mod_small; unfold two64; lia).
    rewrite V. destruct (N.ltb_spec (bmax b) (getLen b + (two64 - m))) as [K|K]; [reflexivity|]. unfold two64 in K. lia. }
  assert (V : w64 (getLen b + (two64 - m)) = getLen b - m).
  { unfold w64. replace (getLen b + (two64 - m)) with (getLen b - m + 1 * two64) by (unfold two64 in *; lia). rewrite N.mod_add by discriminate. apply N.mod_small. unfold two64. lia. }
  rewrite V. destruct (N.ltb_spec (bmax b) (getLen b - m)) as [K|K]; [lia|]. cbv zeta.
  assert (X : w32 (two64 - m) = (4294967296 - m mod 4294967296) mod 4294967296).
  { unfold w32, two64, two32. pose proof (N.div_mod m 4294967296 ltac:(discriminate)) as D. pose proof (N.mod_lt m 4294967296 ltac:(discriminate)) as R.
    set (q := m / 4294967296) in *. set (r := m mod 4294967296) in *.
    replace (18446744073709551616 - m) with (4294967296 - r + (4294967295 - q) * 4294967296) by lia. apply N.mod_add. discriminate. }
  rewrite X. set (k := (4294967296 - m mod 4294967296) mod 4294967296) in *. assert (k < 4294967296) as Lk by (apply N.mod_lt; discriminate).
  unfold rand_int, to_int32. rewrite Z.mod_small by lia.
  destruct (N.leb_spec 2147483648 k) as [J|J].
  { destruct (Z.ltb_spec (Z.of_N k) 2147483648); [lia|]. destruct (Z.ltb_spec (Z.of_N k - 4294967296) 0); [reflexivity|lia]. }
  destruct (Z.ltb_spec (Z.of_N k) 2147483648); [|lia]. destruct (Z.ltb_spec (Z.of_N k) 0); [lia|].
  destruct (N.eqb_spec (lenN (rnd k)) k) as [E|E]; cbn [negb bind]; [|reflexivity]. rewrite E.
  destruct (N.ltb_spec (bmax b) (getLen b + k)); [reflexivity|]. unfold getLen in *.
  destruct (N.ltb_spec (lenN (bdata b ++ rnd k)) (lenN (bdata b) - m)) as [Q|Q]; [unfold lenN in *; rewrite app_length in Q; lia|].
  f_equal. f_equal. apply takeN_app_le. lia.
Qed.
(** an array that is shorter than the length that goes with it *)
Lemma short_array a len b : lenN a < len ->
  newPtr (Some a) len = Crash Undefined /\ (len <= bmax b -> setPtr (Some a) len b = Crash Undefined /\ consumePtr (Some a) len b = Crash Undefined) /\
  (getLen b + len <= bmax b -> bmax b < two64 -> addPtr (Some a) len b = Crash Undefined).
Proof.
  intros L. unfold newPtr, setPtr, consumePtr, addPtr, read_ptr. destruct (N.ltb_spec (lenN a) len); [|lia]. split; [reflexivity|]. split.
  - intros M. destruct (N.ltb_spec (bmax b) len); [lia|]. split; reflexivity.
  - intros M T. unfold w64. rewrite N.mod_small by lia. destruct (N.ltb_spec (bmax b) (getLen b + len)); [lia|]. reflexivity.
Qed.
