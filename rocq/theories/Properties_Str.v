(** Property C123. *)
From Coq Require Import Strings.String.
From Verif Require Import Base BytesModel PwModel StrSpec StrFacts.
Open Scope N_scope.
Open Scope list_scope.

(** a string survives the way through an array, whatever bytes it has; and two arrays made of strings are equal only if the strings are *)
Theorem C123_string : forall s, bytesToString (stringToBytes s) = s.
Proof. exact there_and_back. Qed.
Print Assumptions C123_string.
Theorem C123_array : forall b, eqBytes (stringToBytes (bytesToString b)) b = true.
Proof. exact back_and_there. Qed.
Print Assumptions C123_array.
Theorem C123_equal : forall s t, eqBytes (stringToBytes s) (stringToBytes t) = true <-> s = t.
Proof. exact same_string. Qed.
Print Assumptions C123_equal.
Example C123_string_ex : bytesToString (stringToBytes [x41; x00; xff; x00]) = [x41; x00; xff; x00] /\ bytesToString (mkBytes (str "ab") 9) = str "ab" /\
  eqBytes (stringToBytes (bytesToString (mkBytes (str "ab") 9))) (mkBytes (str "ab") 9) = true /\
  eqBytes (stringToBytes [x41]) (stringToBytes [x41; x00]) = false /\ eqBytes (stringToBytes (str "ab")) (stringToBytes (str "ba")) = false.
Proof. vm_compute. repeat split. Qed.

(** strings that are added one after the other *)
Theorem C123_pieces : forall l b, roomy b ->
  add_all l b = if lenN (concat l) <=? bmax b - lenN (bdata b) then Ret (mkBytes (bdata b ++ concat l) (bmax b)) else Throw RuntimeError.
Proof. exact added. Qed.
Print Assumptions C123_pieces.
Theorem C123_from_pieces : forall l, lenN (concat l) < two64 -> add_all l (withU64 (lenN (concat l))) = Ret (stringToBytes (concat l)).
Proof. exact from_pieces. Qed.
Print Assumptions C123_from_pieces.
Theorem C123_refused : forall l b, roomy b -> add_fitting l b = Ret (mkBytes (bdata b ++ concat (fitting (bmax b - lenN (bdata b)) l)) (bmax b)).
Proof. exact left_out. Qed.
Print Assumptions C123_refused.
(** an array made of a string is full *)
Theorem C123_full : forall s t, lenN s < two64 ->
  (addStringToBytes t (stringToBytes s) = Ret (stringToBytes s) <-> t = []) /\ (t <> [] -> addStringToBytes t (stringToBytes s) = Throw RuntimeError).
Proof. exact no_room. Qed.
Print Assumptions C123_full.
Example C123_pieces_ex : roomy (mkBytes (str "ab") 6) /\
  add_all [str "c"; []; str "def"] (mkBytes (str "ab") 6) = Ret (mkBytes (str "abcdef") 6) /\
  add_all [str "c"; []; str "defg"] (mkBytes (str "ab") 6) = Throw RuntimeError /\
  add_fitting [str "c"; str "long text"; str "de"; str "fg"; str "h"] (mkBytes (str "ab") 6) = Ret (mkBytes (str "abcdeh") 6) /\
  add_all [str "c"; []; str "def"] (withU64 4) = Ret (stringToBytes (str "cdef")) /\
  addStringToBytes (str "x") (stringToBytes (str "abc")) = Throw RuntimeError.
Proof. split; [split; vm_compute; [discriminate|reflexivity]|]. vm_compute. repeat split. Qed.
