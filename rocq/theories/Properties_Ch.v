(** Property theorems about chain hash data blocks and chain hash descriptions. *)
From Coq Require Import Strings.String.
From Verif Require Import Base BytesModel BytesSpec CipherModel CipherFacts PwModel PwSpec PwFacts ChModel ChSpec ChFacts ChFacts2 Toy.

Definition ex_hash : hashfn := toy 32.
Example ex_hash_ok : hash_ok ex_hash.
Proof. split; [vm_compute; reflexivity|split; [vm_compute; congruence|exact (toy_len 32)]]. Qed.
Definition eight : Bytes := mkBytes [x00; x00; x00; x00; x00; x00; x01; x02] 8.
Definition ex_ops : list cdop := [AddPart eight; AddPart (mkBytes [x70; x71] 2)].
Definition ex_data : chd := cd_run Release (newChd 4) ex_ops.
Definition ex_ch : chainhash := match newChainHash 4 3 (Some ex_data) with Ret c => c | _ => ch_default end.
Example ex_built : built Release ex_ch /\ ch_val ex_ch = true.
Proof.
  split; [|vm_compute; reflexivity]. apply (built_ctor Release 4 3 (Some ex_data)).
  - intros x [= <-]. exists 4, ex_ops. split; [lia|]. split; [|reflexivity]. repeat constructor.
  - vm_compute. reflexivity.
Qed.
Definition ex_cht : chtimed := match newChainHashTimed 4 2 (Some ex_data) with Ret c => c | _ => ct_default end.
Example ex_tbuilt : tbuilt Release ex_cht /\ ct_val ex_cht = true.
Proof.
  split; [|vm_compute; reflexivity]. apply (tbuilt_ctor Release 4 2 (Some ex_data)).
  - intros x [= <-]. exists 4, ex_ops. split; [lia|]. split; [|reflexivity]. repeat constructor.
  - vm_compute. reflexivity.
Qed.

(** C14 *)
Theorem C14_timed_never_returns : forall h clks fuel c,
  (forall pw, is_ret (performTimed_s h clks fuel c pw) = false) /\
  (forall data, is_ret (performTimed_b h clks fuel c data) = false).
Proof. exact timed_never_returns. Qed.
Print Assumptions C14_timed_never_returns.
Theorem C14_timed_outcome : forall bd h clks fuel c, tbuilt bd c -> ct_val c = true -> hash_ok h ->
  (forall pw, performTimed_s h clks fuel c pw = Throw InvalidArgument \/ performTimed_s h clks fuel c pw = OutOfFuel) /\
  (forall data, getLen data <= bmax data -> bmax data + 275 < 2 ^ 64 ->
     performTimed_b h clks fuel c data = Throw InvalidArgument \/ performTimed_b h clks fuel c data = OutOfFuel).
Proof. exact timed_outcome. Qed.
Print Assumptions C14_timed_outcome.
(** once the clock reaches the run time the call ends, with an exception *)
Theorem C14_timed_throws : forall bd h clks fuel c k, tbuilt bd c -> ct_val c = true -> hash_ok h ->
  (forall j t, ct_time c = Some t -> t <= clks j k /\ forall q, (q < k)%nat -> clks j q < t) ->
  1000 * (N.of_nat k + 1) <= N.of_nat fuel -> 1000 * (N.of_nat k + 1) < 2 ^ 64 ->
  (forall pw, performTimed_s h clks fuel c pw = Throw InvalidArgument) /\
  (forall data, getLen data <= bmax data -> bmax data + 275 < 2 ^ 64 -> performTimed_b h clks fuel c data = Throw InvalidArgument).
Proof. exact timed_throws. Qed.
Print Assumptions C14_timed_throws.
Example C14_ex : performTimed_s ex_hash (fun _ p => N.of_nat p) (N.to_nat 3000) ex_cht [x70] = Throw InvalidArgument.
Proof.
  destruct ex_tbuilt as [Hb Hv].
  refine (proj1 (C14_timed_throws Release ex_hash _ (N.to_nat 3000) ex_cht 2 Hb Hv ex_hash_ok _ _ _) [x70]).
  - intros j t E. vm_compute in E. injection E as <-. split; [reflexivity|]. intros q Hq. lia.
  - rewrite N2Nat.id. reflexivity.
  - reflexivity.
Qed.

(** C16 *)
Theorem C16_performs_documented : forall bd c h clk pw, built bd c -> ch_val c = true -> hash_ok h ->
  exists mode d b, ch_mode c = Some mode /\ ch_data c = Some d /\
    performChainHash_s h clk c pw 0 = Ret (Done b) /\
    bdata b = iterated (hfun h) (described mode (bdata (cd_block d))) pw (N.to_nat (ch_iters c - 1)).
Proof. exact perform_documented. Qed.
Print Assumptions C16_performs_documented.
(** with a time limit and on Bytes: the function of the mode, with the same parameters *)
Theorem C16_dispatch : forall bd c h clk, built bd c -> ch_val c = true ->
  exists mode d, ch_mode c = Some mode /\ ch_data c = Some d /\
    (forall pw timeout, performChainHash_s h clk c pw timeout =
       call_string h clk (described mode (bdata (cd_block d))) pw (ch_iters c) timeout) /\
    (forall data timeout, performChainHash_b h clk c data timeout =
       call_bytes h clk (described mode (bdata (cd_block d))) data (ch_iters c) timeout) /\
    (hash_ok h -> fits h (described mode (bdata (cd_block d)))).
Proof. exact perform_dispatch. Qed.
Print Assumptions C16_dispatch.
Theorem C16_invalid_throws : forall h clk c, ch_val c = false ->
  (forall pw t, performChainHash_s h clk c pw t = Throw RuntimeError) /\
  (forall data t, performChainHash_b h clk c data t = Throw RuntimeError).
Proof. exact perform_invalid. Qed.
Print Assumptions C16_invalid_throws.
Example C16_ex : let H := hfun ex_hash in
  match performChainHash_s ex_hash (fun _ => 0) ex_ch [x61] 0 with
  | Ret (Done b) => bdata b = H (H (H ([x61; x70; x71] ++ str "258")%list ++ ([x70; x71] ++ str "259"))%list ++ ([x70; x71] ++ str "260"))%list
  | _ => False
  end.
Proof. vm_compute. reflexivity. Qed.

(** C17 *)
Theorem C17_parts_refine : forall bd mode ops o, 1 <= mode <= 5 -> Forall cdop_ok ops -> cdop_ok o ->
  let d := cd_run bd (newChd mode) ops in let ps := spec_cd_run mode [] ops in
  bdata (cd_block d) = concat ps /\ lenN (concat ps) <= 255 /\
  (cd_complete d = true <-> lenN ps = lenN (layout mode)) /\
  match spec_cd mode ps o with
  | inl ps' => exists d', cd_step bd d o = Ret d' /\ bdata (cd_block d') = concat ps'
  | inr e => cd_step bd d o = Throw e
  end.
Proof. exact cd_refines. Qed.
Print Assumptions C17_parts_refine.
Theorem C17_getPart_returns_part : forall bd mode ops j nm l, 1 <= mode <= 5 -> Forall cdop_ok ops ->
  nth_error (layout mode) j = Some (nm, l) ->
  match nth_error (spec_cd_run mode [] ops) j with
  | Some p => exists b, getPart (cd_run bd (newChd mode) ops) nm = Ret b /\ bdata b = p
  | None => getPart (cd_run bd (newChd mode) ops) nm = Throw InvalidArgument
  end.
Proof. exact cd_parts. Qed.
Print Assumptions C17_getPart_returns_part.
Theorem C17_getPart_unknown : forall bd mode ops nm, 1 <= mode <= 5 -> Forall cdop_ok ops -> ~ In nm (map fst (layout mode)) ->
  getPart (cd_run bd (newChd mode) ops) nm = Throw InvalidArgument.
Proof. exact cd_no_part. Qed.
Print Assumptions C17_getPart_unknown.
(** a rejected part, then both parts; reading them back *)
Example C17_ex :
  let ops := [AddPart (mkBytes [x01] 1); AddPart eight; AddPart (mkBytes (repeat x05 248) 300); AddPart (mkBytes [x70; x71] 2)] in
  let d := cd_run Debug (newChd 4) ops in
  spec_cd_run 4 [] ops = [bdata eight; [x70; x71]] /\ bdata (cd_block d) = (bdata eight ++ [x70; x71])%list /\
  match getPart d (str "SN"), getPart d (str "S"), getPart d (str "A") with
  | Ret a, Ret b, Throw InvalidArgument => bdata a = bdata eight /\ bdata b = [x70; x71]
  | _, _, _ => False
  end.
Proof. vm_compute. auto 10. Qed.

(** C18 *)
Theorem C18_setters_decide : forall bd c o c', built bd c -> op_built bd o -> is_setter o = true -> ch_step bd c o = Ret c' ->
  (ch_val c' = true <-> usable c').
Proof. exact setter_valid_iff. Qed.
Print Assumptions C18_setters_decide.
Theorem C18_constructor : forall bd mode iters d, (forall x, d = Some x -> made bd x) ->
  (1 <= mode <= 5 -> exists c, newChainHash mode iters d = Ret c /\ ch_mode c = Some mode /\ ch_iters c = iters /\ ch_data c = d /\
     (ch_val c = true <-> usable c)) /\
  (~ 1 <= mode <= 5 -> newChainHash mode iters d = Throw InvalidArgument).
Proof. exact ctor_valid_iff. Qed.
Print Assumptions C18_constructor.
Theorem C18_getters : forall bd c, built bd c ->
  (ch_val c = true -> usable c /\ exists mode d, ch_mode c = Some mode /\ ch_data c = Some d /\
      ch_getMode c = Ret mode /\ ch_getData c = Ret (Some d) /\ ch_getIters c = Ret (ch_iters c)) /\
  (ch_val c = false -> ch_getMode c = Throw RuntimeError /\ ch_getData c = Throw RuntimeError /\ ch_getIters c = Throw RuntimeError).
Proof. exact getters_valid. Qed.
Print Assumptions C18_getters.
Theorem C18_setters_throw : forall bd c o, op_built bd o ->
  match ch_step bd c o with Ret _ => True | Throw e =>
      (exists m, o = CMode m /\ ~ 1 <= m <= 5 /\ e = InvalidArgument) \/ (exists s, o = CAssign s /\ ch_val s = false /\ e = RuntimeError)
  | _ => False end.
Proof. exact setter_outcome. Qed.
Print Assumptions C18_setters_throw.
Example C18_ex :
  ch_getMode ex_ch = Ret 4 /\ ch_getIters ex_ch = Ret 3 /\
  match ch_setIters 1000000001 ex_ch, ch_setIters 1000000000 ex_ch, ch_setMode 2 ex_ch, ch_setIters 0 ex_ch with
  | Ret a, Ret b, Ret c, Ret d => ch_val a = false /\ ch_val b = true /\ ch_val c = false /\ ch_val d = false
  | _, _, _, _ => False
  end /\ newChainHash 6 3 (Some ex_data) = Throw InvalidArgument.
Proof. vm_compute. auto 10. Qed.

(** C19 *)
Theorem C19_generate_completes : forall mode rnd, 1 <= mode <= 5 -> (forall k, lenN (rnd k) = k) ->
  exists d, cd_generate rnd (newChd mode) = Ret d /\ cd_complete d = true /\ lenN (bdata (cd_block d)) = mode_size mode /\
    bdata (cd_block d) = rnd (mode_size mode) /\
    forall nm l, In (nm, l) (layout mode) -> exists b, getPart d nm = Ret b /\ fits_part l (bdata b) = true.
Proof. exact generate_fresh. Qed.
Print Assumptions C19_generate_completes.
Theorem C19_generate_used_throws : forall bd mode ops rnd, 1 <= mode <= 5 -> Forall cdop_ok ops ->
  bdata (cd_block (cd_run bd (newChd mode) ops)) <> [] ->
  cd_generate rnd (cd_run bd (newChd mode) ops) = Throw PointerThrown.
Proof. exact generate_used. Qed.
Print Assumptions C19_generate_used_throws.
Example C19_ex :
  match cd_generate (fun k => repeat x07 (N.to_nat k)) (newChd 4) with
  | Ret d => getLen (cd_block d) = 255 /\ cd_complete d = true /\
      match getPart d (str "S") with Ret b => lenN (bdata b) = 247 | _ => False end
  | _ => False
  end /\
  cd_generate (fun k => repeat x07 (N.to_nat k)) (cd_run Release (newChd 3) [AddPart eight]) = Throw PointerThrown.
Proof. vm_compute. auto. Qed.

(** C58 *)
Theorem C58_shared_never_invalidates : forall bd c ops, built bd c -> Forall cdop_ok ops ->
  ch_val (shared_run bd c ops) = ch_val c /\ (ch_val c = true -> usable (shared_run bd c ops)).
Proof. exact shared_valid_stays. Qed.
Print Assumptions C58_shared_never_invalidates.
Theorem C58_valid_is_frozen : forall bd c ops, built bd c -> ch_val c = true -> Forall cdop_ok ops ->
  (forall d, ch_mode c = Some 2 -> ch_data c = Some d -> bdata (cd_block d) <> []) ->
  shared_run bd c ops = c.
Proof. exact frozen. Qed.
Print Assumptions C58_valid_is_frozen.
Theorem C58_refresh : forall bd c ops, built bd c -> Forall cdop_ok ops ->
  exists c', ch_setIters (ch_iters c) (shared_run bd c ops) = Ret c' /\ (ch_val c' = true <-> usable c') /\
    ch_mode c' = ch_mode (shared_run bd c ops) /\ ch_data c' = ch_data (shared_run bd c ops).
Proof. exact refresh. Qed.
Print Assumptions C58_refresh.
(** the excluded case is real: an empty salt of mode 2 can be replaced under a valid description *)
Theorem C58_empty_salt_changes_refuted : exists bd c o d d', built bd c /\ ch_val c = true /\ cdop_ok o /\
  ch_data c = Some d /\ bdata (cd_block d) = [] /\
  ch_data (shared_run bd c [o]) = Some d' /\ lenN (bdata (cd_block d')) = 255 /\ ch_val (shared_run bd c [o]) = true.
Proof. exact empty_salt_changes. Qed.
Print Assumptions C58_empty_salt_changes_refuted.
(** and the report "not valid" can be out of date *)
Theorem C58_stale_invalid_refuted : exists bd c ops, built bd c /\ Forall cdop_ok ops /\
  ch_val (shared_run bd c ops) = false /\ usable (shared_run bd c ops).
Proof. exact stale_invalid. Qed.
Print Assumptions C58_stale_invalid_refuted.
Example C58_ex : shared_run Release ex_ch [AddPart eight; Generate (repeat x01 255)] = ex_ch /\ ch_val ex_ch = true.
Proof. vm_compute. auto. Qed.

(** C59 *)
Theorem C59_unset_runtime_undefined : forall bd c o, tbuilt bd c -> top_built bd o ->
  (exists m, o = TMode m /\ 1 <= m <= 5) \/ (exists d, o = TData (Some d)) ->
  (ct_step bd c o = Crash Undefined <->
     ct_time c = None /\ (ct_mode c <> None \/ exists m, o = TMode m) /\ (ct_data c <> None \/ exists d, o = TData d)).
Proof. exact ct_undefined. Qed.
Print Assumptions C59_unset_runtime_undefined.
Example C59_ex :
  (c <- ct_setData (Some ex_data) ct_default ;; ct_setMode 4 c) = Crash Undefined /\
  match (c <- ct_setTime 5 ct_default ;; c' <- ct_setData (Some ex_data) c ;; ct_setMode 4 c') with
  | Ret c => ct_val c = true | _ => False end.
Proof. vm_compute. auto. Qed.
