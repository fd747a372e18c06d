(** Properties C45-C48: byte strings. *)
From Verif Require Import Base BytesModel BytesSpec BytesFacts BytesFacts2.

(** C45 *)
Theorem C45_plus_minus : forall a b, getLen a = getLen b ->
  exists s, plusBytes a b = Ret s /\ getLen s = getLen a /\
    exists d, minusBytes s b = Ret d /\ bdata d = bdata a.
Proof. exact plus_minus_lemma. Qed.
Print Assumptions C45_plus_minus.
Theorem C45_minus_plus : forall a b, getLen a = getLen b ->
  exists s, minusBytes a b = Ret s /\ getLen s = getLen a /\
    exists d, plusBytes s b = Ret d /\ bdata d = bdata a.
Proof. exact minus_plus_lemma. Qed.
Print Assumptions C45_minus_plus.
Theorem C45_length_error : forall a b, getLen a <> getLen b ->
  plusBytes a b = Throw LengthError /\ minusBytes a b = Throw LengthError.
Proof. exact plus_length_error. Qed.
Print Assumptions C45_length_error.
Theorem C45_commutative : forall a b s t, plusBytes a b = Ret s -> plusBytes b a = Ret t -> bdata s = bdata t.
Proof. exact plus_comm_lemma. Qed.
Print Assumptions C45_commutative.
Theorem C45_associative : forall a b c ab abc bc abc',
  plusBytes a b = Ret ab -> plusBytes ab c = Ret abc ->
  plusBytes b c = Ret bc -> plusBytes a bc = Ret abc' -> bdata abc = bdata abc'.
Proof. exact plus_assoc_lemma. Qed.
Print Assumptions C45_associative.
Definition C45_a := fromArray [xff; x01; x80].
Definition C45_b := fromArray [x02; x03; x80].
Example C45_ex : plusBytes C45_a C45_b = Ret (fromArray [x01; x04; x00]) /\
  minusBytes C45_a C45_b = Ret (fromArray [xfd; xfe; x00]).
Proof. vm_compute. auto. Qed.
Example C45_ex_assoc : match plusBytes C45_a C45_b, plusBytes C45_b C45_a with
  | Ret ab, Ret ba => plusBytes ab C45_a = plusBytes C45_a ba /\ is_ret (plusBytes ab C45_a) = true | _, _ => False end.
Proof. vm_compute. auto. Qed.
Example C45_ex_len : getLen C45_a <> getLen (fromArray [x00]).
Proof. vm_compute. discriminate. Qed.

(** C46 *)
Theorem C46_fromLong_toLong : forall n z, n < 2 ^ 64 ->
  exists b, fromLong n z = Ret b /\ toLong b = Ret n /\ (z = true -> getLen b = 8).
Proof. exact fromLong_toLong. Qed.
Print Assumptions C46_fromLong_toLong.
Theorem C46_minimal : forall n b l, n < 2 ^ 64 -> fromLong n false = Ret b -> be_val l = n -> getLen b <= lenN l.
Proof. exact fromLong_minimal. Qed.
Print Assumptions C46_minimal.
Theorem C46_toLong_value : forall b, getLen b <= 8 -> toLong b = Ret (be_val (bdata b)).
Proof. exact toLong_val. Qed.
Print Assumptions C46_toLong_value.
Theorem C46_toLong_too_long : forall b, 8 < getLen b -> toLong b = Throw LengthError.
Proof. exact toLong_long. Qed.
Print Assumptions C46_toLong_too_long.
Theorem C46_getLongLen : forall n b, n < 2 ^ 64 -> fromLong n false = Ret b -> getLongLen n = Ret (getLen b).
Proof. exact getLongLen_len. Qed.
Print Assumptions C46_getLongLen.
Example C46_ex : fromLong 66051 false = Ret (mkBytes [x01; x02; x03] 8) /\ getLongLen 66051 = Ret 3 /\
  fromLong 66051 true = Ret (mkBytes [x00; x00; x00; x00; x00; x01; x02; x03] 8) /\
  be_val [x00; x01; x02; x03] = 66051 /\ toLong (fromArray [x01; x02; x03]) = Ret 66051 /\
  getLongLen 0 = Ret 0.
Proof. vm_compute. repeat split. Qed.
Example C46_ex_long : 8 < getLen (fromArray (repeat x01 9)).
Proof. reflexivity. Qed.

(** C47 *)
Theorem C47_toHex_shape : forall b, lenN (toHex b) = 2 * getLen b /\ Forall is_hex (toHex b).
Proof. exact toHex_shape. Qed.
Print Assumptions C47_toHex_shape.
Theorem C47_toHex_injective : forall a b, toHex a = toHex b -> bdata a = bdata b.
Proof. exact toHex_inj. Qed.
Print Assumptions C47_toHex_injective.
(** reading the digits back (two per byte, high nibble first) gives the content *)
Theorem C47_unhex : forall b, unhex (toHex b) = bdata b.
Proof. exact unhex_toHex. Qed.
Print Assumptions C47_unhex.
Example C47_ex : toHex (fromArray [x0f; xa0]) = [x30; x46; x41; x30].   (* "0FA0" *)
Proof. vm_compute. reflexivity. Qed.

(** C48 *)
Theorem C48_bounded_list : forall ops b, within b -> ops_ok b ops ->
  repr (model_run b ops) = spec_run (repr b) ops /\ within (model_run b ops).
Proof. exact run_refines. Qed.
Print Assumptions C48_bounded_list.
Theorem C48_step : forall b o, within b -> bop_ok b o = true -> bmax b < 2 ^ 64 ->
  match spec_step (repr b) o with
  | Some s => exists b', model_step b o = Ret b' /\ repr b' = s /\ within b'
  | None => exists e, model_step b o = Throw e
  end.
Proof. exact step_refines. Qed.
Print Assumptions C48_step.
Definition C48_ops : list bop :=
  [BAdd [x01; x02]; BAdd [x03; x04; x05]; BAddSize 3; BAdd [x03; x04; x05]; BShrink 4; BAddByte x09; BFillRandom [x0a; x0b; x0c]].
Example C48_ex : within (withU64 4) /\ ops_ok (withU64 4) C48_ops /\
  repr (model_run (withU64 4) C48_ops) = ([x01; x02; x03; x04; x09; x0a; x0b], 7).
Proof. vm_compute. repeat split; congruence. Qed.
