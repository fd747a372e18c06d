(** Lemmas for C123. *)
From Verif Require Import Base BaseFacts BytesModel BytesFacts2 StrSpec.
Open Scope N_scope.
Open Scope list_scope.

Lemma room_of b : roomy b -> sub64 (bmax b) (getLen b) = bmax b - lenN (bdata b).
Proof. intros [A B]. unfold sub64, getLen. unfold two64 in *. replace (bmax b + 18446744073709551616 - lenN (bdata b)) with (bmax b - lenN (bdata b) + 1 * 18446744073709551616) by lia. rewrite N.mod_add by lia. apply N.mod_small. lia. Qed.
Lemma add_one s b : roomy b -> addStringToBytes s b = if lenN s <=? bmax b - lenN (bdata b) then Ret (mkBytes (bdata b ++ s) (bmax b)) else Throw RuntimeError.
Proof.
  intros R. unfold addStringToBytes. rewrite (room_of b R). destruct R as [A B]. destruct (N.leb_spec (lenN s) (bmax b - lenN (bdata b))) as [L|L].
  - destruct (N.ltb_spec (bmax b - lenN (bdata b)) (lenN s)); [lia|]. unfold addBytes, getLen. destruct (N.ltb_spec (bmax b) (lenN (bdata b) + lenN s)); [lia|reflexivity].
  - destruct (N.ltb_spec (bmax b - lenN (bdata b)) (lenN s)); [reflexivity|lia].
Qed.
Lemma add_roomy s b : roomy b -> lenN s <= bmax b - lenN (bdata b) -> roomy (mkBytes (bdata b ++ s) (bmax b)).
Proof. intros [A B] L. split; cbn; [rewrite lenN_app; lia|exact B]. Qed.
Lemma added l : forall b, roomy b ->
  add_all l b = if lenN (concat l) <=? bmax b - lenN (bdata b) then Ret (mkBytes (bdata b ++ concat l) (bmax b)) else Throw RuntimeError.
Proof.
  induction l as [|s l IH]; intros b R; cbn [add_all concat].
  - rewrite app_nil_r. change (lenN []) with 0. destruct (N.leb_spec 0 (bmax b - lenN (bdata b))); [destruct b; reflexivity|lia].
  - rewrite (add_one s b R). rewrite lenN_app. destruct (N.leb_spec (lenN s) (bmax b - lenN (bdata b))) as [L|L]; cbn [bind].
    + rewrite (IH _ (add_roomy s b R L)). cbn [bdata bmax]. rewrite lenN_app, <- app_assoc.
      destruct (N.leb_spec (lenN (concat l)) (bmax b - (lenN (bdata b) + lenN s))), (N.leb_spec (lenN s + lenN (concat l)) (bmax b - lenN (bdata b))); try reflexivity; lia.
    + destruct (N.leb_spec (lenN s + lenN (concat l)) (bmax b - lenN (bdata b))); [lia|reflexivity].
Qed.
Lemma left_out l : forall b, roomy b -> add_fitting l b = Ret (mkBytes (bdata b ++ concat (fitting (bmax b - lenN (bdata b)) l)) (bmax b)).
Proof.
  induction l as [|s l IH]; intros b R; cbn [add_fitting fitting concat].
  - rewrite app_nil_r. destruct b; reflexivity.
  - rewrite (add_one s b R). destruct (N.leb_spec (lenN s) (bmax b - lenN (bdata b))) as [L|L]; [|apply IH, R].
    rewrite (IH _ (add_roomy s b R L)). cbn [bdata bmax concat]. rewrite lenN_app, <- app_assoc, N.sub_add_distr. reflexivity.
Qed.
Lemma there_and_back s : bytesToString (stringToBytes s) = s.
Proof. reflexivity. Qed.
Lemma back_and_there b : eqBytes (stringToBytes (bytesToString b)) b = true.
Proof. unfold eqBytes. cbn. rewrite N.eqb_refl. apply eqb_bytes_refl. Qed.
Lemma same_string s t : eqBytes (stringToBytes s) (stringToBytes t) = true <-> s = t.
Proof.
  split; [|intros ->; apply (back_and_there (stringToBytes t))]. unfold eqBytes. cbn. destruct (_ =? _); [|discriminate]. apply eqb_bytes_spec.
Qed.
Lemma from_pieces l : lenN (concat l) < two64 -> add_all l (withU64 (lenN (concat l))) = Ret (stringToBytes (concat l)).
Proof. intros L. rewrite added by (split; [apply N.le_0_l|exact L]). cbn [withU64 bdata bmax]. change (lenN []) with 0. rewrite N.sub_0_r, N.leb_refl. reflexivity. Qed.
Lemma no_room s t : lenN s < two64 -> (addStringToBytes t (stringToBytes s) = Ret (stringToBytes s) <-> t = []) /\ (t <> [] -> addStringToBytes t (stringToBytes s) = Throw RuntimeError).
Proof.
  intros L. rewrite add_one by (split; [apply N.le_refl|exact L]). cbn [stringToBytes bdata bmax]. rewrite N.sub_diag. split.
  - destruct t as [|c t]; [rewrite app_nil_r; split; reflexivity|]. split; discriminate.
  - intros Ne. destruct t as [|c t]; [contradiction|reflexivity].
Qed.
