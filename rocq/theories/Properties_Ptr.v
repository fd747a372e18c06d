(** Property C86. *)
From Coq Require Import ZArith.
From Verif Require Import Base BytesModel BytesSpec BytesFacts2 PtrModel PtrFacts.
Open Scope N_scope.

(** C86 *)
Theorem C86_null_rejected : forall len b, no_result (newPtr None len) /\ no_result (setPtr None len b) /\ no_result (addPtr None len b) /\
  no_result (consumePtr None len b) /\ no_result (copyToArray b None len).
Proof. exact null_rejected. Qed.
Print Assumptions C86_null_rejected.
Theorem C86_arrays_as_lists : forall a r b, getLen b + lenN a < two64 ->
  newPtr (Some (a ++ r)) (lenN a) = Ret (fromArray a) /\ setPtr (Some (a ++ r)) (lenN a) b = setBytes a b /\ addPtr (Some (a ++ r)) (lenN a) b = addBytes a b /\
  consumePtr (Some (a ++ r)) (lenN a) b = consumeBytes a b.
Proof. exact arrays_as_lists. Qed.
Print Assumptions C86_arrays_as_lists.
Theorem C86_copy_out : forall b a len,
  (getLen b <= len -> getLen b <= lenN a -> exists a', copyToArray b (Some a) len = Ret a' /\
    takeN (getLen b) a' = bdata b /\ dropN (getLen b) a' = dropN (getLen b) a /\ lenN a' = lenN a) /\
  (len < getLen b -> copyToArray b (Some a) len = Throw LengthError) /\ (lenN a < getLen b <= len -> copyToArray b (Some a) len = Crash Undefined).
Proof. exact copy_out. Qed.
Print Assumptions C86_copy_out.
Theorem C86_addrandom_nonnegative : forall rnd (n : N) b, within b -> bmax b < 9223372036854775808 -> n < 9223372036854775808 ->
  (n < 2147483648 \/ bmax b < getLen b + n) -> addrandomZ rnd (Z.of_N n) b = addrandom rnd n b.
Proof. exact addrandom_nonneg. Qed.
Print Assumptions C86_addrandom_nonnegative.
Theorem C86_addrandom_negative : forall rnd m b, within b -> bmax b < 9223372036854775808 -> 1 <= m <= 2147483648 ->
  addrandomZ rnd (- Z.of_N m) b = if m <=? getLen b then Crash Undefined else Throw LengthError.
Proof. exact addrandom_negative. Qed.
Print Assumptions C86_addrandom_negative.
(** in general: with -m for m beyond 2^31, which takes an object of more than 2 GiB, the content can also become shorter *)
Theorem C86_addrandom_any_negative : forall rnd m b, within b -> bmax b < 9223372036854775808 -> 1 <= m <= 9223372036854775808 ->
  addrandomZ rnd (- Z.of_N m) b =
  if getLen b <? m then Throw LengthError
  else
    let k := (4294967296 - m mod 4294967296) mod 4294967296 in
    if 2147483648 <=? k then Crash Undefined
    else if negb (lenN (rnd k) =? k) then Throw RuntimeError
    else if bmax b <? getLen b + k then Crash Undefined
    else Ret (mkBytes (takeN (getLen b - m) (bdata b)) (bmax b)).
Proof. exact addrandom_any_negative. Qed.
Print Assumptions C86_addrandom_any_negative.
Theorem C86_short_array : forall a len b, lenN a < len ->
  newPtr (Some a) len = Crash Undefined /\ (len <= bmax b -> setPtr (Some a) len b = Crash Undefined /\ consumePtr (Some a) len b = Crash Undefined) /\
  (getLen b + len <= bmax b -> bmax b < two64 -> addPtr (Some a) len b = Crash Undefined).
Proof. exact short_array. Qed.
Print Assumptions C86_short_array.
Theorem C86_fill_object : forall rnd n b, n < two32 ->
  (bmax b < n -> fillRandomBytes rnd n b = Throw LogicError) /\
  (n <= bmax b -> n < 2147483648 -> lenN (rnd n) = n -> fillRandomBytes rnd n b = Ret (mkBytes (rnd n) (bmax b))) /\
  (n <= bmax b -> n < 2147483648 -> lenN (rnd n) <> n -> fillRandomBytes rnd n b = Throw RuntimeError) /\
  (n <= bmax b -> 2147483648 <= n -> fillRandomBytes rnd n b = Crash Undefined).
Proof. exact fill_object. Qed.
Print Assumptions C86_fill_object.
Definition C86_b : Bytes := mkBytes [x01; x02] 5.
Definition C86_rnd (n : N) : bytes := repeat xaa (N.to_nat n).
Example C86_ex : setPtr None 6 C86_b = Throw LengthError /\ setPtr None 5 C86_b = Throw InvalidArgument /\ newPtr (Some [x07; x08; x09]) 2 = Ret (mkBytes [x07; x08] 2) /\
  addPtr (Some [x07; x08; x09]) 2 C86_b = Ret (mkBytes [x01; x02; x07; x08] 5) /\ addPtr (Some [x07]) 2 C86_b = Crash Undefined /\
  copyToArray C86_b (Some [x05; x06; x07]) 3 = Ret [x01; x02; x07] /\ copyToArray C86_b (Some [x05]) 3 = Crash Undefined /\
  addrandomZ C86_rnd 3 C86_b = Ret (mkBytes [x01; x02; xaa; xaa; xaa] 5) /\ addrandomZ C86_rnd 4 C86_b = Throw LengthError /\
  addrandomZ C86_rnd (-1) C86_b = Crash Undefined /\ addrandomZ C86_rnd (-3) C86_b = Throw LengthError /\
  fillRandomBytes C86_rnd 3 C86_b = Ret (mkBytes [xaa; xaa; xaa] 5) /\ within C86_b.
Proof. repeat split; vm_compute; congruence. Qed.
