(** Property C111. *)
From Coq Require Import Strings.String Strings.Byte.
From Verif Require Import Base BaseFacts BytesModel BytesSpec CipherModel CipherSpec2 PwModel PwSpec ChModel ChSpec EqModel EqFacts Toy Properties_Ch.
Open Scope N_scope.
Open Scope list_scope.

(** C111 *)
Theorem C111_bytes : forall a b, (eqBytes a b = true <-> bdata a = bdata b) /\ neqBytes a b = negb (eqBytes a b).
Proof. exact eq_bytes. Qed.
Print Assumptions C111_bytes.
Theorem C111_timed : forall a b, eqTimed a b = true <-> fst a = fst b /\ bdata (snd a) = bdata (snd b).
Proof. exact eq_timed. Qed.
Print Assumptions C111_timed.
Example C111_ex_bytes : let a := mkBytes [x61; x62] 2 in let b := mkBytes [x61; x62] 9 in let c := mkBytes [x61] 9 in
  eqBytes a b = true /\ a <> b /\ eqBytes a c = false /\ neqBytes a c = true /\ eqTimed (3, a) (3, b) = true /\ eqTimed (3, a) (4, b) = false.
Proof. vm_compute. repeat split; discriminate. Qed.
Theorem C111_format : forall a b, 1 <= a <= 5 -> 1 <= b <= 5 -> (format_eqb a b = true <-> a = b).
Proof. exact eq_format. Qed.
Print Assumptions C111_format.

(** data of chain hashes: they are equal if both are complete and their bytes are the same *)
Theorem C111_data : forall bd m1 ops1 m2 ops2, 1 <= m1 <= 5 -> Forall cdop_ok ops1 -> 1 <= m2 <= 5 -> Forall cdop_ok ops2 ->
  let ps1 := spec_cd_run m1 [] ops1 in let ps2 := spec_cd_run m2 [] ops2 in
  (cd_eqb (cd_run bd (newChd m1) ops1) (cd_run bd (newChd m2) ops2) = true <->
   lenN ps1 = lenN (layout m1) /\ lenN ps2 = lenN (layout m2) /\ concat ps1 = concat ps2).
Proof. exact eq_data. Qed.
Print Assumptions C111_data.
Theorem C111_data_of_one_mode : forall bd m ops1 ops2, 1 <= m <= 5 -> Forall cdop_ok ops1 -> Forall cdop_ok ops2 ->
  let ps1 := spec_cd_run m [] ops1 in let ps2 := spec_cd_run m [] ops2 in
  (cd_eqb (cd_run bd (newChd m) ops1) (cd_run bd (newChd m) ops2) = true <-> lenN ps1 = lenN (layout m) /\ ps1 = ps2).
Proof. exact eq_data_mode. Qed.
Print Assumptions C111_data_of_one_mode.
(** a part that is refused in between makes no difference; a part that is missing or another one does *)
Example C111_ex_data : let a := [AddPart eight; AddPart (mkBytes [x70] 1)] in let b := [AddPart (mkBytes [x01] 1); AddPart eight; AddPart (mkBytes [x70] 7)] in
  let eq x y := cd_eqb (cd_run Debug (newChd 4) x) (cd_run Debug (newChd 4) y) in
  eq a b = true /\ eq a [AddPart eight] = false /\ eq a [AddPart eight; AddPart (mkBytes [x71] 1)] = false.
Proof. vm_compute. auto. Qed.
(** an object with missing parts is not equal to itself *)
Theorem C111_reflexive_refuted : exists bd d, made bd d /\ cd_eqb d d = false.
Proof. exists Release, (newChd 3). split; [|reflexivity]. exists 3, []. split; [split; discriminate|]. split; [constructor|reflexivity]. Qed.
Print Assumptions C111_reflexive_refuted.

(** equal data of the same mode make the same chain hash; equal data of different modes do not *)
Theorem C111_same_chain : forall bd c1 c2 m d1 d2, built bd c1 -> built bd c2 -> ch_val c1 = true -> ch_val c2 = true -> ch_mode c1 = Some m -> ch_mode c2 = Some m ->
  ch_data c1 = Some d1 -> ch_data c2 = Some d2 -> ch_iters c1 = ch_iters c2 -> cd_eqb d1 d2 = true ->
  forall h clk, (forall pw t, performChainHash_s h clk c1 pw t = performChainHash_s h clk c2 pw t) /\ (forall x t, performChainHash_b h clk c1 x t = performChainHash_b h clk c2 x t).
Proof. exact eq_chain. Qed.
Print Assumptions C111_same_chain.
Definition with_eight (m : N) : chainhash :=
  match newChainHash m 2 (Some (cd_run Release (newChd m) [AddPart eight])) with Ret c => c | _ => ch_default end.
Example with_eight_built m : m = 2 \/ m = 3 -> built Release (with_eight m).
Proof.
  intros X. apply (built_ctor Release m 2 (Some (cd_run Release (newChd m) [AddPart eight]))); [|destruct X as [-> | ->]; reflexivity].
  intros x E. injection E as <-. exists m, [AddPart eight]. split; [destruct X as [-> | ->]; split; discriminate|]. split; [repeat constructor|reflexivity].
Qed.
Theorem C111_other_mode_refuted : exists bd c1 c2 d1 d2 h, built bd c1 /\ built bd c2 /\ ch_val c1 = true /\ ch_val c2 = true /\
  ch_data c1 = Some d1 /\ ch_data c2 = Some d2 /\ ch_iters c1 = ch_iters c2 /\ cd_eqb d1 d2 = true /\ hash_ok h /\
  performChainHash_s h (fun _ => 0) c1 [x61] 0 <> performChainHash_s h (fun _ => 0) c2 [x61] 0.
Proof.
  exists Release, (with_eight 2), (with_eight 3), (cd_run Release (newChd 2) [AddPart eight]), (cd_run Release (newChd 3) [AddPart eight]), ex_hash.
  split; [apply with_eight_built; auto|]. split; [apply with_eight_built; auto|]. repeat (split; [reflexivity|]). split; [exact ex_hash_ok|]. vm_compute. discriminate.
Qed.
Print Assumptions C111_other_mode_refuted.
(** two descriptions of the same mode, whose data were given in different ways *)
Definition with_salt_part (ops : list cdop) : chainhash :=
  match newChainHash 4 2 (Some (cd_run Release (newChd 4) ops)) with Ret c => c | _ => ch_default end.
Example C111_ex_chain : let c1 := with_salt_part [AddPart eight; AddPart (mkBytes [x70] 1)] in let c2 := with_salt_part [AddPart (mkBytes [x01] 1); AddPart eight; AddPart (mkBytes [x70] 7)] in
  ch_val c1 = true /\ ch_val c2 = true /\ match ch_data c1, ch_data c2 with Some d1, Some d2 => cd_eqb d1 d2 = true | _, _ => False end /\
  performChainHash_s ex_hash (fun _ => 0) c1 [x61] 0 = performChainHash_s ex_hash (fun _ => 0) c2 [x61] 0.
Proof. vm_compute. auto. Qed.
