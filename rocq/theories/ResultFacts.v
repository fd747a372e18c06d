(** Lemmas for C91. *)
From Coq Require Import Strings.Byte.
From Verif Require Import Base BaseFacts BytesModel BytesFacts MiscModel MiscFacts CipherModel CipherSpec CipherFacts CipherFacts2 PwModel PwSpec PwFacts ChModel ChSpec ChFacts ChFacts2
  HeaderModel HeaderSpec HeaderFacts HeaderFacts2 HeaderFacts3 HeaderFacts4 HeaderFacts5 HeaderFacts8 HeaderFacts9 FileModel ApiModel ApiSpec FileFacts ApiFacts ApiFacts2 ApiFacts3 ApiFacts4 ApiFacts5 ApiFacts6
  ResultModel ResultSpec.

(** ** the replies of each call *)
Definition reply_ok (o : op) (r : reply) : Prop :=
  match r with
  | RErr s _ => s <> SUCCESS
  | ROk | RBool _ => type_of o = TBool
  | RNames _ => type_of o = TNames
  | RBytes _ => type_of o = TBytes
  | RData _ => type_of o = TData
  | RVoid => True
  end.
Lemma failed_ok o c : reply_ok o (failed c).
Proof. unfold failed. cbn. destruct c; discriminate. Qed.
Lemma noexcept_ret {A} (m : outcome A) x : noexcept m = Ret x -> m = Ret x.
Proof. destruct m; cbn; congruence. Qed.
Local Ltac fin := first [apply failed_ok | reflexivity | exact I].
Lemma step_reply w a f o f' a' r : step w a f o = (f', Ret (a', r)) -> reply_ok o r.
Proof.
  intros E. destruct o; cbn [step] in E.
  - destruct (a_state a); try (injection E as _ _ <-; fin).
    destruct (getRelevantFileNames w f (a_mode a) dir) as [[c|l]| | |]; cbn in E; try discriminate; injection E as _ _ <-; fin.
  - destruct (a_state a); try (injection E as _ _ <-; fin).
    destruct (fh_createFile w f p) as [g [[c|l]| | |]]; cbn in E; try discriminate; injection E as _ _ <-; fin.
  - destruct (a_state a); try (injection E as _ _ <-; fin).
    injection E as _ E. unfold selectFile in E. apply noexcept_ret in E. destruct (getFileHandler w f p) as [[c|h]| | |]; cbn [bind] in E; try discriminate; [injection E as _ <-; fin|].
    destruct (fh_empty h); [injection E as _ <-; fin|]. destruct (fh_getDataHeader w f 0 h) as [[c|d]| | |]; cbn [bind] in E; try discriminate; injection E as _ <-; fin.
  - destruct (a_state a); injection E as _ _ <-; fin.
  - destruct (a_state a); injection E as _ _ <-; fin.
  - assert (forall g b x, deleteFile w a f = (g, Ret (b, x)) -> reply_ok ODelete x) as X.
    { intros g b x. unfold deleteFile. destruct (a_file a) as [h|]; [|discriminate]. destruct (negb (w_remove w (fh_path h))); [discriminate|].
      destruct (f (w_loc w (fh_path h))); intros [= _ _ <-]; fin. }
    destruct (a_state a); try (injection E as _ _ <-; fin); exact (X _ _ _ E).
  - destruct (a_state a); try (injection E as _ _ <-; fin).
    injection E as _ E. unfold getFileContent in E. apply noexcept_ret in E. destruct (ptr (a_file a)) as [h| | |]; cbn [bind] in E; try discriminate.
    destruct (try_ _ _) as [[c|b]| | |]; cbn [bind] in E; try discriminate; injection E as _ <-; fin.
  - destruct (a_state a); try (injection E as _ _ <-; fin).
    injection E as _ E. unfold verifyPassword in E. apply noexcept_ret in E. destruct (ptr (a_dh a)) as [h| | |]; cbn [bind] in E; try discriminate.
    destruct (catch_std _ _) as [[c|b]| | |]; cbn [bind] in E; try discriminate; injection E as _ <-; fin.
  - destruct (negb (set_isComplete ds)); [injection E as _ _ <-; fin|].
    destruct (a_state a); try (injection E as _ _ <-; fin); injection E as _ E; apply noexcept_ret in E; unfold headerEmpty, headerDecrypted in E;
    destruct (createHeaderIters _ _ _ _ _) as [[c|[d k]]| | |]; cbn [bind] in E; try discriminate; injection E as _ <-; fin.
  - destruct (negb (set_isComplete ds)); [injection E as _ _ <-; fin|].
    destruct (a_state a); try (injection E as _ _ <-; fin); discriminate E.
  - destruct (a_state a); try (injection E as _ _ <-; fin).
    injection E as _ E. unfold changeSalt in E. apply noexcept_ret in E.
    repeat (apply bind_some in E as (? & _ & E)). 
    match type of E with context [match ?x with inl _ => _ | inr _ => _ end] => destruct x end; injection E as _ <-; fin.
  - destruct (a_state a); try (injection E as _ _ <-; fin).
    injection E as _ E. unfold getDecryptedData in E. apply noexcept_ret in E.
    destruct (try_ _ _) as [[c|b]| | |]; cbn [bind] in E; try discriminate; injection E as _ <-; fin.
  - destruct (a_state a); try (injection E as _ _ <-; fin).
    injection E as _ E. unfold getFileData in E. destruct (a_fdata a); injection E as _ <-; fin.
  - destruct (a_state a); try (injection E as _ _ <-; fin).
    injection E as _ E. unfold encryptData in E. apply noexcept_ret in E. destruct x as [x|]; cbn [ptr bind] in E; [|discriminate].
    destruct (fd_mode x) as [m|]; [|injection E as _ <-; fin]. destruct (negb _); [injection E as _ <-; fin|].
    destruct (ptr (fd_data x)) as [dt| | |]; cbn [bind] in E; try discriminate. destruct (ptr (a_dh a)) as [d| | |]; cbn [bind] in E; try discriminate.
    destruct (try_ _ _) as [[c|d1]| | |]; cbn [bind] in E; try discriminate; [injection E as _ <-; fin|].
    destruct (calcHeaderBytes _ _ _ d1) as [d2 y]. destruct (try_ _ _) as [[c|b]| | |]; cbn [bind] in E; try discriminate; injection E as _ <-; fin.
  - assert (forall a0 g0 q g b x, finishWrite w a0 g0 q = (g, Ret (b, x)) -> reply_ok OWrite x) as X.
    { intros a0 g0 q g b x. unfold finishWrite. destruct (noexcept _); intros [=]; subst; fin. }
    destruct (a_state a); try (injection E as _ _ <-; fin). unfold writeToFile in E. destruct (a_file a) as [h|]; [|discriminate].
    destruct (fh_getWriteStream w f h) as [[h' g] [[c|u]| | |]]; try discriminate; [injection E as _ _ <-; fin|exact (X _ _ _ _ _ _ E)].
  - assert (forall a0 g0 q g b x, finishWrite w a0 g0 q = (g, Ret (b, x)) -> reply_ok (OWriteTo p) x) as X.
    { intros a0 g0 q g b x. unfold finishWrite. destruct (noexcept _); intros [=]; subst; fin. }
    destruct (a_state a); try (injection E as _ _ <-; fin). unfold writeToPath in E. destruct (getFileHandler w f p) as [[c|h]| | |]; try discriminate; [injection E as _ _ <-; fin|].
    destruct (fh_getWriteStreamIfEmpty w f h) as [[h' g] [[c|u]| | |]]; try discriminate; [injection E as _ _ <-; fin|exact (X _ _ _ _ _ _ E)].
  - injection E as _ _ <-. fin.
  - injection E as _ _ <-. fin.
Qed.

(** ** encryptData and the pointer it was given *)
Lemma result_after_data h (Hh : hash_ok h) fuel key salt data c c1 : getLen key = hsize h -> getLen salt = hsize h -> getLen data < 2 ^ 63 ->
  new_chain Enc h key salt = Ret c -> addData fuel data c = Ret c1 -> exists r, getResult c1 = Ret r.
Proof.
  intros Lk Ls Ld Ec E1.
  assert (getLen data < 2 ^ 31) as L31.
  { destruct (N.ltb_spec (getLen data) (2 ^ 31)) as [L|L]; [exact L|exfalso]. rewrite addData_cap in E1.
    apply addData_big in E1; [exact E1|exact L|]. apply lt63. exact Ld. }
  set (fuel' := (fuel + N.to_nat (getLen data) + 2)%nat).
  assert (addData fuel' data c = Ret c1) as E1'.
  { unfold addData in E1 |- *. apply bind_some in E1 as (c0 & -> & E1). cbn [bind]. eapply addData_loop_more; [|exact E1]. subst fuel'. lia. }
  destruct (via_data_ok h Hh fuel' Enc key salt data Lk Ls L31 ltac:(subst fuel'; lia)) as (r' & E' & _). unfold via_data in E'.
  rewrite Ec in E'. cbn [bind] in E'. rewrite E1' in E'. cbn [bind] in E'. destruct (getResult c1) as [r| | |]; try discriminate. eauto.
Qed.
Section Given.
  Variable H : hashes.
  Hypothesis HH : hashes_ok H.
  Variable bd : build.
  Lemma leaves mode tr a w f x f' a' r : history bd H mode tr a -> world_ok bd H w -> op_ok (OEncrypt x) -> step w a f (OEncrypt x) = (f', Ret (a', r)) ->
    encryptLeaves w a x = match r with ROk => None | _ => x end.
  Proof.
    intros Hh (_ & WH & _) Ho E. pose proof (history_inv _ HH _ _ _ _ Hh) as [Em I]. cbn [step] in E.
    destruct (a_state a) eqn:Es; try (injection E as _ _ <-; unfold encryptLeaves; rewrite Es; reflexivity).
    destruct I as (p & c0 & h0 & pw0 & k0 & d0 & fh & fd & Q1 & Q2 & Q3 & Q4 & [Q5 Q5'] & Q6 & Q7 & Q8 & Ea).
    injection E as _ E. unfold encryptData in E. apply noexcept_ret in E. unfold encryptLeaves. rewrite Es.
    destruct x as [x|]; cbn [ptr bind] in E; [|discriminate].
    destruct (fd_mode x) as [m|]; [|injection E as _ <-; reflexivity]. destruct (negb (m =? a_mode a)) eqn:Eq; [injection E as _ <-; destruct (fd_data x), (a_dh a); reflexivity|].
    assert (a_dh a = Some d0) as Ed by (rewrite Ea; reflexivity). assert (a_key a = k0) as Ek by (rewrite Ea; reflexivity). rewrite Ed in E |- *.
    destruct (fd_data x) as [dt|] eqn:Edt; cbn [ptr bind] in E; [|discriminate].
    destruct (set_data_size d0 h0 (getLen dt) Q6) as (d1 & E1 & Hd1 & F1 & B1). rewrite E1 in E |- *. cbn [try_ dret bind] in E |- *.
    destruct (calc_plain_bytes d1 h0 (w_hashes w) (w_clk1 w) Hd1 _ F1) as [Cl Cg].
    destruct (N.ltb_spec (w32 (w32 (getLen dt) + hdr_len h0)) (hdr_len h0)) as [L|L].
    { rewrite (Cl L) in E |- *. cbn [try_ bind any_std dfail] in E |- *. injection E as _ <-. reflexivity. }
    rewrite (Cg L) in E |- *. set (d2 := with_bytes _ d1) in *. assert (holds d2 h0) as Hd2 by (apply holds_bytes; exact Hd1).
    cbn [bind] in E |- *. rewrite Ek in E |- *. assert (getLen dt < 2 ^ 63) as L63 by (apply Ho; exact Edt). unfold encryptBody in E.
    assert (exists p' hm hf s, getDataHeaderParts d2 = Ret p' /\ p_getHashMode p' = Ret hm /\ getHash (w_hashes w) hm = Ret hf /\ p_getSalt p' = Ret s /\
      hash_ok hf /\ getLen k0 = hsize hf /\ getLen s = hsize hf) as X.
    { destruct (holds_good d2 h0 Hd2) as (v & s & G & Bv & Bs & L1 & L2). destruct (hash_mode_ok H (h_hmode h0) HH (g_range _ _ _ _ G)) as (hf & Hg & Hhf & Hf).
      pose proof (getHash_size _ _ _ Hg) as [Hs _]. exists (d_parts d2), (h_hmode h0), hf, (copyBytes s). spl.
      - exact (holds_parts d2 h0 Hd2).
      - unfold p_getHashMode. rewrite (g_hmode _ _ _ _ G). reflexivity.
      - rewrite WH. exact Hg.
      - unfold p_getSalt. rewrite (g_salt _ _ _ _ G). reflexivity.
      - exact Hhf.
      - unfold getLen. rewrite Q5'. unfold key_of, chain_value. rewrite <- Hf. destruct Hhf as (_ & _ & K). destruct (N.to_nat _); cbn [iterated]; apply K.
      - rewrite Hs. exact (g_slen _ _ _ _ G). }
    destruct X as (p' & hm & hf & s & X1 & X2 & X3 & X4 & Hhf & Lk & Lsa). rewrite X1 in E |- *. cbn [bind] in E |- *. rewrite X2 in E |- *. cbn [bind] in E |- *. rewrite X3 in E |- *. cbn [bind] in E |- *. rewrite X4 in E |- *. cbn [bind] in E |- *.
    destruct (new_chain Enc hf k0 s) as [c|e|k|] eqn:Ec; cbn [bind] in E |- *.
    - destruct (addData (w_fuel w) dt c) as [c1|e|k|] eqn:Ead; cbn [bind] in E |- *.
      + destruct (result_after_data hf Hhf _ _ _ _ _ _ Lk Lsa L63 Ec Ead) as ([r0 c2] & Er). rewrite Er in E |- *. cbn in E. injection E as _ <-. reflexivity.
      + unfold try_ in E. destruct (any_std ERR e); cbn [bind dfail] in E; [injection E as _ <-; reflexivity|discriminate].
      + discriminate.
      + discriminate.
    - unfold try_ in E. destruct (any_std ERR e); cbn [bind dfail] in E; [injection E as _ <-; reflexivity|discriminate].
    - discriminate.
    - discriminate.
  Qed.

  (** ** results and slips *)
  Inductive repr : result -> slip -> Prop :=
  | repr_refused t s : s <> SUCCESS -> repr (mkRes t (err_fail s)) Refused
  | repr_silent t : t <> TData -> repr (mkRes t (err_fail SUCCESS)) Silent
  | repr_plain t v m : t <> TData -> repr (mkRes t (mkErr m false SUCCESS (Some v))) (Plain v m)
  | repr_parcel x m : (m = false -> x <> None) -> repr (mkRes TData (mkErr m true SUCCESS (Some (VData x)))) (Parcel x m).
  Lemma result_slip o r : reply_ok o r -> Forall2 repr (result_of o r) (slip_of o r).
  Proof.
    intros K. destruct r; cbn [result_of slip_of reply_ok] in *; try (constructor; [|constructor]); try (rewrite K); try (constructor; discriminate).
    - destruct o; cbn [type_of] in K |- *; try discriminate K; repeat constructor; discriminate.
    - constructor. exact K.
  Qed.
  Lemma forall2_nth {A B} (R : A -> B -> Prop) l l' i x : Forall2 R l l' -> nth_error l i = Some x -> exists y, nth_error l' i = Some y /\ R x y.
  Proof.
    intros F. revert i. induction F as [|a b l l' R1 F IH]; intros i E; [destruct i; discriminate|]. destruct i as [|i]; cbn in *; [injection E as <-; eauto|auto].
  Qed.
  Lemma forall2_nth' {A B} (R : A -> B -> Prop) l l' i y : Forall2 R l l' -> nth_error l' i = Some y -> exists x, nth_error l i = Some x /\ R x y.
  Proof.
    intros F. revert i. induction F as [|a b l l' R1 F IH]; intros i E; [destruct i; discriminate|]. destruct i as [|i]; cbn in *; [injection E as <-; eauto|auto].
  Qed.
  Lemma forall2_set {A B} (R : A -> B -> Prop) l l' i x y : Forall2 R l l' -> R x y -> Forall2 R (firstn i l ++ x :: skipn (S i) l) (firstn i l' ++ y :: skipn (S i) l').
  Proof.
    intros F K. revert i. induction F as [|a b l l' R1 F IH]; intros i.
    - destruct i; cbn; (constructor; [exact K|constructor]).
    - destruct i as [|i]; cbn; constructor; try assumption. apply IH.
  Qed.
  Lemma set_same {A} (l : list A) i x : nth_error l i = Some x -> firstn i l ++ x :: skipn (S i) l = l.
  Proof. revert i. induction l as [|a l IH]; intros [|i] E; cbn in *; try discriminate; [injection E as ->; reflexivity|]. f_equal. apply IH. exact E. Qed.
  Lemma res_eta (r : result) : mkRes (rs_type r) (rs_err r) = r.
  Proof. destruct r; reflexivity. Qed.

  (** what the call made by a step does *)
  Definition outcome_of (a : api) (rs : list result) (o : op) (x : fs * outcome (api * reply)) (c : client) : fs * (client * outcome answer) :=
    match x with
    | (f', Ret (a', r)) => (f', (mkClient a' (rs ++ result_of o r), Ret (AReply r)))
    | (f', Throw e) => (f', (c, Throw e))
    | (f', Crash k) => (f', (c, Crash k))
    | (f', OutOfFuel) => (f', (c, OutOfFuel))
    end.
  Definition agrees (mode : N) (evs : list event) (c : client) : Prop := (exists tr, history bd H mode tr (c_api c)) /\ Forall2 repr (c_res c) (slips evs).

  (** the step on one result *)
  Lemma look_step w f c o i r s : index o = Some i -> nth_error (c_res c) i = Some r -> repr r s -> cop_ok c o ->
    match foretold s o with
    | Some ans => exists r', cstep w f c o = (f, (mkClient (c_api c) (set_nth i r' (c_res c)), ans)) /\
        repr r' (match ans with Ret _ => match o with CMove _ => moved s | CTake _ => emptied s | CEdit _ y => edited y s | _ => s end | _ => s end)
    | None => exists x m, s = Parcel x m /\ o = CEncrypt i /\ op_ok (OEncrypt x) /\
        let r' := mkRes TData (mkErr true true SUCCESS (Some (VData (encryptLeaves w (c_api c) x)))) in
        cstep w f c o = outcome_of (c_api c) (set_nth i r' (c_res c)) (OEncrypt x) (step w (c_api c) f (OEncrypt x)) (mkClient (c_api c) (set_nth i r' (c_res c)))
    end.
  Proof.
    intros Ei En R Ho.
    assert (forall ans : outcome answer, exists r', (f, (c, ans)) = (f, (mkClient (c_api c) (set_nth i r' (c_res c)), ans)) /\ repr r' s) as Keep.
    { intros ans. exists r. split; [|exact R]. unfold set_nth. rewrite (set_same _ _ _ En). destruct c; reflexivity. }
    destruct o; cbn [index] in Ei; try discriminate; injection Ei as ->.
    all: cbn [cop_ok] in Ho; unfold cstep; cbv zeta; rewrite En.
    - assert (foretold s (CSuccess i) = Some (Ret (AYes (isSuccess (rs_err r))))) as ->.
      { destruct R as [t st N1|t N1|t v m N1|x m N1]; cbn; try reflexivity. destruct st; [contradiction|reflexivity|reflexivity]. }
      apply Keep.
    - destruct R as [t st N1|t N1|t v m N1|x m N1]; cbn.
      + destruct st; [contradiction| |]; apply Keep.
      + apply Keep.
      + destruct m; cbn; [apply Keep|]. eexists. split; [reflexivity|]. constructor; assumption.
      + destruct m; cbn; apply Keep.
    - destruct R as [t st N1|t N1|t v m N1|x m N1]; cbn.
      + destruct st; [contradiction| |]; apply Keep.
      + apply Keep.
      + destruct m; cbn; [apply Keep|]. eexists. split; [reflexivity|]. constructor; assumption.
      + destruct m; cbn; [apply Keep|]. eexists. split; [reflexivity|]. constructor; assumption.
    - destruct R as [t st N1|t N1|t v m N1|x m N1]; cbn.
      + destruct st; [contradiction| |]; apply Keep.
      + apply Keep.
      + eexists; (split; [reflexivity|constructor; assumption]).
      + eexists; (split; [reflexivity|constructor; discriminate]).
    - destruct Ho as (r0 & E0 & T). rewrite En in E0. injection E0 as <-.
      destruct R as [t st N1|t N1|t v m N1|y m N1]; cbn in T |- *; try contradiction.
      + subst t. destruct st; [contradiction| |]; apply Keep.
      + destruct m; cbn.
        * destruct y; apply Keep.
        * destruct y as [y|]; [|exfalso; apply N1; reflexivity]. eexists. split; [reflexivity|]. constructor. discriminate.
    - destruct Ho as (r0 & E0 & T). rewrite En in E0. injection E0 as <-.
      destruct R as [t st N1|t N1|t v m N1|y m N1]; cbn in T |- *; try contradiction.
      + subst t. destruct st; [contradiction| |]; apply Keep.
      + eexists. split; [reflexivity|]. constructor. discriminate.
    - destruct Ho as (r0 & E0 & T & Hop). rewrite En in E0. injection E0 as <-.
      destruct R as [t st N1|t N1|t v m N1|y m N1]; cbn in T |- *; try contradiction.
      + subst t. destruct st; [contradiction| |]; apply Keep.
      + exists y, m. split; [reflexivity|]. split; [reflexivity|]. split; [apply Hop; reflexivity|]. reflexivity.
  Qed.
  Lemma index_slip evs c o i : Forall2 repr (c_res c) (slips evs) -> cop_ok c o -> index o = Some i ->
    exists r s, nth_error (c_res c) i = Some r /\ nth_error (slips evs) i = Some s /\ repr r s.
  Proof.
    intros F Ho Ei. assert (exists r, nth_error (c_res c) i = Some r) as [r En].
    { destruct o; cbn in Ei; try discriminate; injection Ei as ->; cbn in Ho.
      1-4: destruct (nth_error (c_res c) i) eqn:En; [eauto|apply nth_error_None in En; lia].
      - destruct Ho as (r & En & _). eauto.
      - destruct Ho as (r & En & _). eauto.
      - destruct Ho as (r & En & _). eauto. }
    destruct (forall2_nth _ _ _ _ _ F En) as (s & Es & R). eauto 10.
  Qed.
  Lemma change_repr rs ss i r' g s : Forall2 repr rs ss -> nth_error ss i = Some s -> repr r' (g s) -> Forall2 repr (set_nth i r' rs) (change i g ss).
  Proof. intros F E R. unfold change, set_nth. rewrite E. apply forall2_set; assumption. Qed.
  Lemma keep_repr rs ss i r' s : Forall2 repr rs ss -> nth_error ss i = Some s -> repr r' s -> Forall2 repr (set_nth i r' rs) ss.
  Proof. intros F E R. rewrite <- (set_same ss i s E). unfold set_nth. apply forall2_set; assumption. Qed.
  Lemma cstep_agrees mode evs c w f o f' c' ans : agrees mode evs c -> world_ok bd H w -> fs_ok f -> cop_ok c o -> cstep w f c o = (f', (c', ans)) -> goes_on ans ->
    agrees mode (mkEv o ans :: evs) c'.
  Proof.
    intros [[tr Hh] F] W Hf Ho E G. destruct (index o) as [i|] eqn:Ei.
    - destruct (index_slip evs c o i F Ho Ei) as (r & s & En & Es & R). pose proof (look_step w f c o i r s Ei En R Ho) as X.
      destruct (foretold s o) as [ans'|] eqn:Ef.
      + destruct X as (r' & X & R'). rewrite X in E. injection E as <- <- <-. split; [exists tr; exact Hh|]. cbn [slips c_res].
        destruct ans' as [y|e|k|]; cbn in G; try contradiction.
        * destruct o; cbn [index] in Ei; try discriminate; injection Ei as ->; cbn [after ev_op ev_ans];
            first [eapply change_repr; eassumption | eapply keep_repr; eassumption | idtac].
          destruct s; cbn in Ef; discriminate.
        * destruct o; cbn [index] in Ei; try discriminate; injection Ei as ->; cbn [after ev_op ev_ans]; eapply keep_repr; eassumption.
      + destruct X as (x & m & -> & -> & Hx & X). cbv zeta in X. rewrite X in E. clear X. unfold outcome_of in E.
        destruct (step w (c_api c) f (OEncrypt x)) as [g [[a' rp]|e|k|]] eqn:Est; injection E as <- <- <-; cbn in G; try contradiction.
        * split; [cbn [c_api]; eexists; eapply hist_call; eassumption|]. cbn [c_res slips after ev_op ev_ans].
          pose proof (leaves mode tr (c_api c) w f x g a' rp Hh W Hx Est) as Lv. pose proof (step_reply _ _ _ _ _ _ _ Est) as K.
          assert (match rp with ROk | RErr _ _ => True | _ => False end) as Kr.
          { cbn [step] in Est. destruct (a_state (c_api c)); try (injection Est as _ _ <-; exact I). injection Est as _ Est. unfold encryptData in Est. apply noexcept_ret in Est.
            destruct x as [x|]; cbn [ptr bind] in Est; [|discriminate]. destruct (fd_mode x) as [m0|]; [|injection Est as _ <-; exact I]. destruct (negb _); [injection Est as _ <-; exact I|].
            destruct (ptr (fd_data x)) as [dt| | |]; cbn [bind] in Est; try discriminate. destruct (ptr (a_dh (c_api c))) as [d| | |]; cbn [bind] in Est; try discriminate.
            destruct (try_ _ _) as [[c0|d1]| | |]; cbn [bind] in Est; try discriminate; [injection Est as _ <-; exact I|].
            destruct (calcHeaderBytes _ _ _ d1) as [d2 y]. destruct (try_ _ _) as [[c0|b]| | |]; cbn [bind] in Est; try discriminate; injection Est as _ <-; exact I. }
          destruct rp; try contradiction; rewrite Lv; (apply Forall2_app; [eapply change_repr; [exact F|exact Es|cbn; constructor; discriminate]|]).
          { cbn. constructor; [|constructor]. constructor. discriminate. }
          { cbn. constructor; [|constructor]. constructor. exact K. }
        * exfalso. cbn [step] in Est. destruct (a_state (c_api c)); try discriminate Est. injection Est as _ Est. unfold encryptData in Est.
          match type of Est with noexcept ?y = _ => destruct y; discriminate Est end.
    - destruct o as [o| | | | | | | ]; try discriminate Ei. unfold cstep in E. cbv zeta in E.
      destruct (step w (c_api c) f o) as [g [[a' rp]|e|k|]] eqn:Est; injection E as <- <- <-; cbn in G; try contradiction.
      + split; [cbn [c_api]; eexists; eapply hist_call; eassumption|]. cbn [c_res slips after ev_op ev_ans]. apply Forall2_app; [exact F|]. apply result_slip. eapply step_reply. exact Est.
      + split; [exists tr; exact Hh|exact F].
  Qed.
  Lemma prog_agrees mode evs c : program bd H mode evs c -> agrees mode evs c.
  Proof.
    induction 1 as [a E|evs c w f o f' c' ans P IH W Hf Ho E G].
    - split; [|constructor]. exists []. constructor. exact E.
    - eapply cstep_agrees; eassumption.
  Qed.
  (** ** what the program is told *)
  Lemma answers mode evs c w f o i f' c' ans : program bd H mode evs c -> world_ok bd H w -> cop_ok c o -> index o = Some i -> cstep w f c o = (f', (c', ans)) ->
    exists s, nth_error (slips evs) i = Some s /\
      match foretold s o with
      | Some x => ans = x /\ f' = f /\ c_api c' = c_api c
      | None => exists x m, s = Parcel x m /\ f' = fst (step w (c_api c) f (OEncrypt x)) /\ ans = told (snd (step w (c_api c) f (OEncrypt x)))
      end.
  Proof.
    intros P W Ho Ei E. destruct (prog_agrees _ _ _ P) as [[tr Hh] F]. destruct (index_slip evs c o i F Ho Ei) as (r & s & En & Es & R). exists s. split; [exact Es|].
    pose proof (look_step w f c o i r s Ei En R Ho) as X. destruct (foretold s o).
    - destruct X as (r' & X & _). rewrite X in E. injection E as <- <- <-. auto.
    - destruct X as (x & m & -> & _ & _ & X). exists x, m. split; [reflexivity|]. cbv zeta in X. rewrite X in E. unfold outcome_of in E.
      destruct (step w (c_api c) f (OEncrypt x)) as [g [[a' rp]|e|k|]]; injection E as <- <- <-; auto.
  Qed.
  Lemma change_length i g l : length (change i g l) = length l.
  Proof.
    unfold change. destruct (nth_error l i) as [s|] eqn:E; [|reflexivity]. assert (i < length l)%nat by (apply nth_error_Some; congruence).
    rewrite app_length. cbn [length]. rewrite firstn_length, skipn_length. lia.
  Qed.
  Lemma change_nth i g l j : nth_error (change i g l) j = if Nat.eqb i j then option_map g (nth_error l j) else nth_error l j.
  Proof.
    unfold change. destruct (nth_error l i) as [s|] eqn:E.
    2: { destruct (Nat.eqb_spec i j) as [->|Nj]; [rewrite E|]; reflexivity. }
    revert i j E. induction l as [|x l IH]; intros [|i] [|j] E; cbn in *; try discriminate; try reflexivity; [injection E as ->; reflexivity|]. apply IH. exact E.
  Qed.
  Lemma slips_length evs : length (slips evs) = made evs.
  Proof.
    induction evs as [|e evs IH]; [reflexivity|]. cbn [slips]. unfold made in *. cbn [map list_sum fold_right]. fold (list_sum (map makes evs)). rewrite <- IH. destruct e as [o ans].
    unfold after, makes. cbn [ev_op ev_ans].
    destruct o; destruct ans as [[[]| | |]| | |]; try destruct o; cbn [slip_of]; rewrite ?app_length, ?change_length; cbn [length]; lia.
  Qed.
  Lemma after_keeps l e i s : nth_error l i = Some s -> s = Refused \/ s = Silent -> nth_error (after l e) i = Some s.
  Proof.
    intros E K. assert (forall g j, g s = s -> nth_error (change j g l) i = Some s) as C.
    { intros g j G. rewrite change_nth, E. cbn. rewrite G. destruct (Nat.eqb j i); reflexivity. }
    assert (forall g j x, g s = s -> nth_error (change j g l ++ x) i = Some s) as C2.
    { intros g j x G. rewrite nth_error_app1; [apply C; exact G|]. rewrite change_length. apply nth_error_Some. congruence. }
    unfold after. destruct e as [o ans]; cbn [ev_op ev_ans].
    destruct o; destruct ans as [[[]| | |]| | |]; try exact E; try (rewrite nth_error_app1 by (apply nth_error_Some; congruence); exact E);
      try (apply C; destruct K as [-> | ->]; reflexivity); apply C2; destruct K as [-> | ->]; reflexivity.
  Qed.
  Lemma later_keeps later evs i s : nth_error (slips evs) i = Some s -> s = Refused \/ s = Silent -> nth_error (slips (later ++ evs)) i = Some s.
  Proof. intros E K. induction later as [|e r IH]; [exact E|]. cbn [app slips]. apply after_keeps; assumption. Qed.
  Lemma call_slip o r evs s : slip_of o r = [s] -> nth_error (slips (mkEv (CCall o) (Ret (AReply r)) :: evs)) (made evs) = Some s.
  Proof. intros E. rewrite <- slips_length. cbn [slips after ev_op ev_ans]. rewrite nth_error_app2, Nat.sub_diag, E by lia. reflexivity. Qed.
  Lemma encrypt_slip i st k evs : nth_error (slips (mkEv (CEncrypt i) (Ret (AReply (RErr st k))) :: evs)) (made evs) = Some Refused.
  Proof. rewrite <- slips_length. cbn [slips after ev_op ev_ans]. rewrite nth_error_app2; rewrite change_length; [|lia]. rewrite Nat.sub_diag. reflexivity. Qed.
  Lemma reads_index o i : reads o i -> index o = Some i.
  Proof. intros [-> | [-> | ->]]; reflexivity. Qed.
  Lemma empty_answers mode evs c w f o i s f' c' ans : program bd H mode evs c -> world_ok bd H w -> cop_ok c o ->
    nth_error (slips evs) i = Some s -> s = Refused \/ s = Silent -> reads o i -> cstep w f c o = (f', (c', ans)) -> ans = Throw LogicError.
  Proof.
    intros P W Ho Es K R E. destruct (answers mode evs c w f o i f' c' ans P W Ho (reads_index _ _ R) E) as (s' & Es' & X). rewrite Es in Es'. injection Es' as <-.
    destruct R as [-> | [-> | ->]]; destruct K as [-> | ->]; cbn in X; tauto.
  Qed.
  (** ** data is given away once *)
  Lemma encrypt_null w a f f' a' r : step w a f (OEncrypt None) = (f', Ret (a', r)) -> r = RErr FAIL ERR_API_STATE_INVALID.
  Proof. cbn [step]. destruct (a_state a); try (intros [= _ _ <-]; reflexivity). Qed.
  Lemma gives_pos i e : gives i e <> 0%nat -> gives i e = 1%nat /\ ((exists x, ev_op e = CTake i /\ ev_ans e = Ret (AValue (VData (Some x)))) \/ (ev_op e = CEncrypt i /\ ev_ans e = Ret (AReply ROk))).
  Proof.
    destruct e as [o ans]. unfold gives. cbn [ev_op ev_ans]. destruct o; try contradiction.
    - destruct ans as [[|? |[| | |[x|]]|]| | |]; try contradiction. destruct (Nat.eqb_spec i i0) as [->|]; [|contradiction]. split; [reflexivity|]. left. eauto.
    - destruct ans as [[[]| | |]| | |]; try contradiction. destruct (Nat.eqb_spec i i0) as [->|]; [|contradiction]. auto.
  Qed.
  Lemma after_gone mode evs c w f o f' c' ans i : program bd H mode evs c -> world_ok bd H w -> cop_ok c o -> cstep w f c o = (f', (c', ans)) ->
    nth_error (slips evs) i = Some (Parcel None true) -> nth_error (slips (mkEv o ans :: evs)) i = Some (Parcel None true) /\ gives i (mkEv o ans) = 0%nat.
  Proof.
    intros P W Ho E Es. assert (i < length (slips evs))%nat as Li by (apply nth_error_Some; congruence).
    assert (forall g j, g (Parcel None true) = Parcel None true -> nth_error (change j g (slips evs)) i = Some (Parcel None true)) as C.
    { intros g j G. rewrite change_nth, Es. cbn. rewrite G. destruct (Nat.eqb j i); reflexivity. }
    assert (forall g j x, g (Parcel None true) = Parcel None true -> nth_error (change j g (slips evs) ++ x) i = Some (Parcel None true)) as C2.
    { intros g j x G. rewrite nth_error_app1; [apply C; exact G|]. rewrite change_length. exact Li. }
    destruct (index o) as [j|] eqn:Ej.
    - destruct (answers mode evs c w f o j f' c' ans P W Ho Ej E) as (s & Ej' & X).
      cbn [slips]. unfold after, gives. cbn [ev_op ev_ans].
      destruct o; cbn [index] in Ej; try discriminate; injection Ej as ->.
      + destruct ans as [[[]| | |]| | |]; auto.
      + destruct ans as [[[]| | |]| | |]; auto.
      + destruct ans as [[[]| | |]| | |]; auto.
      + destruct ans as [[[]| | |]| | |]; auto.
      + (* edit *) split; [|destruct ans as [[[]| | |]| | |]; reflexivity].
        destruct ans as [y|e|k|]; auto. rewrite change_nth. destruct (Nat.eqb_spec j i) as [->|_]; [|exact Es]. rewrite Es in Ej'. injection Ej' as <-. cbn in X. destruct X; discriminate.
      + (* take *) split; [destruct ans as [y|e|k|]; auto; apply C; reflexivity|].
        destruct ans as [[|? |[| | |[x|]]|]| | |]; try reflexivity. destruct (Nat.eqb_spec i j) as [->|_]; [|reflexivity]. rewrite Es in Ej'. injection Ej' as <-. cbn in X. destruct X; discriminate.
      + (* encrypt *) split; [destruct ans as [[[]| | |]| | |]; auto; apply C2; reflexivity|].
        destruct ans as [[[]| | |]| | |]; try reflexivity. destruct (Nat.eqb_spec i j) as [->|_]; [|reflexivity]. rewrite Es in Ej'. injection Ej' as <-. cbn [foretold] in X.
        destruct X as (x & m & [= <- <-] & _ & X). unfold told in X. destruct (step w (c_api c) f (OEncrypt None)) as [g [[a' r]| | |]] eqn:Est; cbn in X; try discriminate.
        apply encrypt_null in Est. congruence.
    - destruct o as [o| | | | | | | ]; try discriminate Ej. split; [|reflexivity]. cbn [slips after ev_op ev_ans]. destruct ans as [[r| | |]| | |]; auto. rewrite nth_error_app1 by exact Li. exact Es.
  Qed.
  Lemma given_once mode evs c i : program bd H mode evs c ->
    (list_sum (map (gives i) evs) <= 1)%nat /\ (list_sum (map (gives i) evs) <> 0%nat -> nth_error (slips evs) i = Some (Parcel None true)).
  Proof.
    induction 1 as [a E|evs c w f o f' c' ans P [IH1 IH2] W Hf Ho E G]; [split; [cbn; lia|intros X; contradiction X; reflexivity]|].
    change (list_sum (map (gives i) (mkEv o ans :: evs))) with (gives i (mkEv o ans) + list_sum (map (gives i) evs))%nat.
    destruct (Nat.eq_dec (list_sum (map (gives i) evs)) 0) as [Z|Z].
    - rewrite Z, Nat.add_0_r. destruct (Nat.eq_dec (gives i (mkEv o ans)) 0) as [Z2|Z2]; [rewrite Z2; split; [lia|contradiction]|].
      destruct (gives_pos _ _ Z2) as [-> X]. split; [lia|intros _]. cbn [ev_op ev_ans] in X.
      assert (exists x m, nth_error (slips evs) i = Some (Parcel x m)) as (x & m & Es).
      { destruct X as [(x & -> & ->)|[-> ->]];
        destruct (answers mode evs c w f _ i f' c' _ P W Ho eq_refl E) as (s & Es & Y); destruct s; cbn in Y; try (destruct Y; discriminate); eauto. }
      cbn [slips]. destruct X as [(y & -> & ->)|[-> ->]]; cbn [after ev_op ev_ans].
      + rewrite change_nth, Nat.eqb_refl, Es. reflexivity.
      + rewrite nth_error_app1; [rewrite change_nth, Nat.eqb_refl, Es; reflexivity|]. rewrite change_length. apply nth_error_Some. congruence.
    - destruct (after_gone mode evs c w f o f' c' ans i P W Ho E (IH2 Z)) as [A B]. rewrite B. auto.
  Qed.
  (** ** the theorems *)
  Lemma failed_reads mode later e earlier c w f o f' c' ans st k : program bd H mode (later ++ e :: earlier) c -> ev_ans e = Ret (AReply (RErr st k)) ->
    world_ok bd H w -> reads o (made earlier) -> cop_ok c o -> cstep w f c o = (f', (c', ans)) -> ans = Throw LogicError.
  Proof.
    intros P Ee W R Ho E. eapply (empty_answers mode _ c w f o (made earlier) Refused); try eassumption; [|auto]. apply later_keeps; [|auto].
    assert (exists evs' c'', program bd H mode (e :: evs') c'' /\ evs' = earlier) as (evs' & c'' & P' & ->).
    { clear - P. revert c P. induction later as [|e' r IH]; intros c P; [eauto|]. cbn in P. inversion P; subst. eapply IH. eassumption. }
    destruct e as [oe ae]. cbn in Ee. subst ae. inversion P' as [|? c0 w0 f0 ? f1 ? ? P0 W0 Hf0 Ho0 E0 G0]; subst. destruct (index oe) as [i|] eqn:Ei.
    - destruct (answers mode earlier c0 w0 f0 oe i f1 c'' _ P0 W0 Ho0 Ei E0) as (s & Es & X).
      destruct oe; cbn in Ei; try discriminate; injection Ei as ->; try (destruct s as [| |? []|[] []]; cbn in X; destruct X; discriminate). apply encrypt_slip.
    - destruct oe; try discriminate. apply call_slip. reflexivity.
  Qed.
  Lemma silent_reads mode later oe earlier c w f o f' c' ans : program bd H mode (later ++ mkEv (CCall oe) (Ret (AReply ROk)) :: earlier) c ->
    oe = OSalt \/ oe = OWrite \/ (exists p, oe = OWriteTo p) ->
    world_ok bd H w -> reads o (made earlier) -> cop_ok c o -> cstep w f c o = (f', (c', ans)) -> ans = Throw LogicError.
  Proof.
    intros P Ko W R Ho E. eapply (empty_answers mode _ c w f o (made earlier) Silent); try eassumption; [|auto]. apply later_keeps; [|auto]. apply call_slip.
    destruct Ko as [-> | [-> | [p ->]]]; reflexivity.
  Qed.
  Lemma after_giving mode evs c i w f f' c' ans : program bd H mode evs c -> list_sum (map (gives i) evs) <> 0%nat -> world_ok bd H w -> cop_ok c (CEncrypt i) ->
    cstep w f c (CEncrypt i) = (f', (c', ans)) -> f' = f /\
    ans = match a_state (c_api c) with DECRYPTED => Crash Undefined | _ => Ret (AReply (RErr FAIL ERR_API_STATE_INVALID)) end.
  Proof.
    intros P Z W Ho E. destruct (given_once mode evs c i P) as [_ X]. specialize (X Z).
    destruct (answers mode evs c w f _ i f' c' ans P W Ho eq_refl E) as (s & Es & Y). rewrite X in Es. injection Es as <-. cbn [foretold] in Y.
    destruct Y as (x & m & [= <- <-] & -> & ->). cbn [step]. destruct (a_state (c_api c)); split; reflexivity.
  Qed.
  Lemma refused_encrypt mode evs c i w f f' c' st k : program bd H mode evs c -> world_ok bd H w -> fs_ok f -> cop_ok c (CEncrypt i) ->
    cstep w f c (CEncrypt i) = (f', (c', Ret (AReply (RErr st k)))) -> exists x,
    (forall w2 f2, world_ok bd H w2 -> exists c2, cstep w2 f2 c (CMove i) = (f2, (c2, Ret (AValue (VData x))))) /\
    (forall w2 f2, world_ok bd H w2 -> exists c2, cstep w2 f2 c' (CMove i) = (f2, (c2, Ret (AValue (VData x))))) /\
    (forall w2 f2 y, world_ok bd H w2 -> exists c2, cstep w2 f2 c' (CRef i) = (f2, (c2, Throw LogicError)) /\ cstep w2 f2 c' (CEdit i y) = (f2, (c2, Throw LogicError))) /\
    (forall w2 f2, world_ok bd H w2 -> let r := cstep w2 f2 c' (CEncrypt i) in
       fst r = fst (step w2 (c_api c') f2 (OEncrypt x)) /\ snd (snd r) = told (snd (step w2 (c_api c') f2 (OEncrypt x)))).
  Proof.
    intros P W Hf Ho E. pose proof (prog_step bd H mode evs c w f _ _ _ _ P W Hf Ho E I) as P'.
    destruct (answers mode evs c w f _ i f' c' _ P W Ho eq_refl E) as (s & Es & Y).
    destruct s as [| |v m|x m]; cbn in Y; try (destruct Y; discriminate). clear Y.
    destruct (prog_agrees _ _ _ P) as [_ F]. destruct (prog_agrees _ _ _ P') as [_ F'].
    assert (nth_error (slips (mkEv (CEncrypt i) (Ret (AReply (RErr st k))) :: evs)) i = Some (Parcel x true)) as Es'.
    { cbn [slips after ev_op ev_ans]. rewrite nth_error_app1; [rewrite change_nth, Nat.eqb_refl, Es; reflexivity|]. rewrite change_length. apply nth_error_Some. congruence. }
    destruct (forall2_nth' _ _ _ _ _ F Es) as (r & En & R). destruct (forall2_nth' _ _ _ _ _ F' Es') as (r' & En' & R').
    assert (rs_type r = TData /\ rs_type r' = TData) as [T T'] by (inversion R; inversion R'; auto).
    assert (op_ok (OEncrypt x)) as Hx.
    { destruct Ho as (r0 & E0 & _ & Ho). rewrite En in E0. injection E0 as <-. apply Ho. inversion R; subst. reflexivity. }
    assert (cop_ok c' (CMove i) /\ cop_ok c' (CRef i) /\ cop_ok c (CMove i)) as (O1 & O2 & O3) by (cbn; repeat split; apply nth_error_Some; congruence).
    exists x. repeat split.
    - intros w2 f2 W2. destruct (look_step w2 f2 c (CMove i) i r _ eq_refl En R O3) as (y & -> & _). eauto.
    - intros w2 f2 W2. destruct (look_step w2 f2 c' (CMove i) i r' _ eq_refl En' R' O1) as (y & -> & _). eauto.
    - intros w2 f2 y W2. exists c'. inversion R' as [| | |x0 m0 K0]; subst. unfold cstep. cbv zeta. rewrite En'. cbn. auto.
    - assert (cop_ok c' (CEncrypt i)) as O4.
      { exists r'. repeat split; try assumption. intros x0 Ex. inversion R'; subst. cbn in Ex. injection Ex as <-. exact Hx. }
      destruct (look_step w2 f2 c' (CEncrypt i) i r' _ eq_refl En' R' O4) as (y & m0 & [= <- <-] & _ & _ & X). cbv zeta in X. rewrite X. unfold outcome_of.
      destruct (step w2 (c_api c') f2 (OEncrypt x)) as [g [[]| | |]]; reflexivity.
    - assert (cop_ok c' (CEncrypt i)) as O4.
      { exists r'. repeat split; try assumption. intros x0 Ex. inversion R'; subst. cbn in Ex. injection Ex as <-. exact Hx. }
      destruct (look_step w2 f2 c' (CEncrypt i) i r' _ eq_refl En' R' O4) as (y & m0 & [= <- <-] & _ & _ & X). cbv zeta in X. rewrite X. unfold outcome_of.
      destruct (step w2 (c_api c') f2 (OEncrypt x)) as [g [[]| | |]]; reflexivity.
  Qed.
End Given.

(** ** running programs, for the Examples *)
Definition data_okb (x : option filedata) : bool := match x with Some d => match fd_data d with Some b => getLen b <? 2 ^ 63 | None => true end | None => true end.
Definition is_tdata (r : result) : bool := match rs_type r with TData => true | _ => false end.
Definition cop_okb (c : client) (o : cop) : bool :=
  match o with
  | CCall _ => true
  | CSuccess i | CValue i | CRef i | CMove i => Nat.ltb i (length (c_res c))
  | CEdit i _ | CTake i => match nth_error (c_res c) i with Some r => is_tdata r | None => false end
  | CEncrypt i => match nth_error (c_res c) i with
                  | Some r => is_tdata r && match e_value (rs_err r) with Some (VData x) => data_okb x | _ => true end
                  | None => false
                  end
  end.
Fixpoint cplay (w : world) (f : fs) (l : list cop) (evs : list event) (c : client) : option (list event * client) :=
  match l with
  | [] => Some (evs, c)
  | o :: r => if cop_okb c o then
                match cstep w f c o with
                | (_, (c', Ret x)) => cplay w f r (mkEv o (Ret x) :: evs) c'
                | (_, (c', Throw x)) => cplay w f r (mkEv o (Throw x) :: evs) c'
                | _ => None
                end
              else None
  end.
Definition call_ok (o : cop) : Prop := match o with CCall o => op_ok o | _ => True end.
Lemma tdata_true r : is_tdata r = true -> rs_type r = TData.
Proof. unfold is_tdata. destruct (rs_type r); congruence. Qed.
Lemma cop_okb_ok c o : cop_okb c o = true -> call_ok o -> cop_ok c o.
Proof.
  destruct o; cbn; intros E K; try exact K; try (apply Nat.ltb_lt; exact E).
  - destruct (nth_error (c_res c) i); [|discriminate]. eexists. split; [reflexivity|]. apply tdata_true. exact E.
  - destruct (nth_error (c_res c) i); [|discriminate]. eexists. split; [reflexivity|]. apply tdata_true. exact E.
  - destruct (nth_error (c_res c) i); [|discriminate]. apply andb_true_iff in E as [E1 E2]. eexists. split; [reflexivity|]. split; [apply tdata_true; exact E1|].
    intros x Ex. rewrite Ex in E2. destruct x as [d|]; [|exact I]. cbn in *. intros b Eb. rewrite Eb in E2. apply N.ltb_lt. exact E2.
Qed.
Lemma cplay_program bd H mode w f l : world_ok bd H w -> fs_ok f -> Forall call_ok l -> forall evs c evs' c',
  program bd H mode evs c -> cplay w f l evs c = Some (evs', c') -> program bd H mode evs' c'.
Proof.
  intros W Hf. induction l as [|o r IH]; intros K evs c evs' c' P E; cbn [cplay] in E; [injection E as <- <-; exact P|]. inversion K as [|? ? K1 K2]; subst.
  destruct (cop_okb c o) eqn:Eb; [|discriminate]. destruct (cstep w f c o) as [g [c1 x]] eqn:Ec.
  destruct x as [x|x|x|]; try discriminate; (eapply IH; [exact K2| |exact E]); (eapply prog_step; [exact P|exact W|exact Hf|apply cop_okb_ok; assumption|exact Ec|exact I]).
Qed.
Lemma cplay_example bd H w f l (P : list event -> client -> Prop) : world_ok bd H w -> fs_ok f -> Forall call_ok l ->
  match cplay w f l [] (mkClient (fresh 1) []) with Some (evs, c) => P evs c | None => False end -> exists evs c, program bd H 1 evs c /\ P evs c.
Proof.
  intros W Hf K E. destruct (cplay w f l [] (mkClient (fresh 1) [])) as [[evs c]|] eqn:Ep; [|contradiction]. exists evs, c. split; [|exact E].
  eapply cplay_program; try eassumption. apply prog_new. reflexivity.
Qed.
