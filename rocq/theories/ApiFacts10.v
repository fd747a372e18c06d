(** Calls that end the process. *)
From Coq Require Import Strings.Byte.
From Verif Require Import Base BaseFacts BytesModel BytesFacts MiscModel MiscFacts CipherModel CipherSpec CipherFacts CipherFacts2 PwModel PwSpec PwFacts ChModel ChSpec ChFacts ChFacts2
  HeaderModel HeaderSpec HeaderFacts HeaderFacts2 HeaderFacts3 HeaderFacts4 HeaderFacts5 HeaderFacts8 HeaderFacts9 FileModel ApiModel ApiSpec ApiSpec2 FileFacts ApiFacts ApiFacts2 ApiFacts3 ApiFacts4 ApiFacts5 ApiFacts6.
Ltac Zify.zify_post_hook ::= Z.div_mod_to_equations.

(** ** a chain never ends the process *)
Definition calm {A} (P : A -> Prop) (m : outcome A) : Prop :=
  match m with Ret a => P a | Throw e => e <> PointerThrown | Crash _ => False | OutOfFuel => True end.
Lemma calm_bind {A B} (P : A -> Prop) (Q : B -> Prop) (m : outcome A) (k : A -> outcome B) : calm P m -> (forall a, P a -> calm Q (k a)) -> calm Q (bind m k).
Proof. destruct m; cbn; auto. Qed.
Lemma calm_throw {A} (P : A -> Prop) e : e <> PointerThrown -> calm P (Throw e).
Proof. exact (fun x => x). Qed.

Section Calm.
  Variable h : hashfn.
  Hypothesis Hh : hash_ok h.
  Notation n := (hsize h).
  Definition si_good (s : saltiter) : Prop := si_ready s = true /\ getLen (si_hash s) = n /\ getLen (si_salt s) = n /\ si_obj s = h.
  Definition b_good (b : block) : Prop :=
    blk_len b = n /\ bmax (blk_data b) = n /\ getLen (blk_data b) <= n /\ getLen (blk_salt b) = n /\ blk_obj b = h.
  Definition c_good (c : chain) : Prop := si_good (c_si c) /\ (exists r, c_res c = Some r) /\ forall b, c_cur c = Some b -> b_good b.
  Definition c_open (c : chain) : Prop := c_good c /\ c_cur c <> None.
  Lemma hash_calm x : exists r, do_hash h x 0 = Ret r /\ getLen r = n.
  Proof. destruct Hh as (Hp & Hl & Hn). rewrite (do_hash_ret h Hp Hl Hn). eexists. split; [reflexivity|]. unfold getLen. cbn [bdata]. apply Hn. Qed.
  Lemma plus_calm a b : calm (fun r => getLen r = getLen a) (plusBytes a b).
  Proof.
    unfold plusBytes. destruct (N.eqb_spec (getLen a) (getLen b)) as [E|E]; [|cbn; discriminate]. cbn. unfold getLen in *. cbn [bdata].
    rewrite <- bsum_zipb. rewrite lenN_bsum. lia.
  Qed.
  Lemma minus_calm a b : calm (fun r => getLen r = getLen a) (minusBytes a b).
  Proof.
    unfold minusBytes. destruct (N.eqb_spec (getLen a) (getLen b)) as [E|E]; [|cbn; discriminate]. cbn. unfold getLen in *. cbn [bdata].
    rewrite <- bdiff_zipb. rewrite lenN_bdiff. lia.
  Qed.
  Lemma plus_calm2 a b : calm (fun r => getLen r = getLen a /\ bmax r = bmax a) (plusBytes a b).
  Proof. pose proof (plus_calm a b) as X. unfold plusBytes in *. destruct (_ =? _); [|exact X]. cbn in *. auto. Qed.
  Lemma minus_calm2 a b : calm (fun r => getLen r = getLen a /\ bmax r = bmax a) (minusBytes a b).
  Proof. pose proof (minus_calm a b) as X. unfold minusBytes in *. destruct (_ =? _); [|exact X]. cbn in *. auto. Qed.
  Lemma next_calm s b : si_good s -> calm (fun r => getLen (fst r) = n /\ si_good (snd r)) (si_next s b).
  Proof.
    intros (R & L1 & L2 & O). unfold si_next. rewrite O, R. cbn [negb].
    apply calm_bind with (P := fun _ => True).
    { destruct (si_first s); [|exact I]. unfold setBytes. destruct (_ <? _); cbn; [discriminate|exact I]. }
    intros l _. destruct (negb _); [cbn; discriminate|].
    eapply calm_bind; [apply plus_calm|]. intros t1 E1. cbn beta in E1. eapply calm_bind; [apply plus_calm|]. intros t2 E2. cbn beta in E2.
    destruct (hash_calm (bdata t2)) as (hh & -> & Lh). cbn [bind].
    eapply calm_bind; [apply plus_calm|]. intros t3 E3. cbn beta in E3. eapply calm_bind; [apply plus_calm|]. intros t4 E4. cbn beta in E4.
    destruct (hash_calm (bdata t4)) as (ss & -> & Lss). cbn [bind].
    eapply calm_bind; [apply plus_calm|]. intros t5 E5. cbn beta in E5.
    destruct (hash_calm (bdata t5)) as (rr & -> & Lr). cbn [bind calm fst snd]. unfold si_good. cbn [si_ready si_hash si_salt si_obj]. auto.
  Qed.
  Lemma result_calm k b : b_good b -> calm (fun _ => True) (blk_getResult k b).
  Proof.
    intros (Ln & Lm & Ld & Ls & _). unfold blk_getResult. destruct (negb _); [|exact I].
    unfold copySubBytes. destruct (N.ltb_spec (getLen (blk_data b)) 0); [lia|]. destruct (N.ltb_spec (getLen (blk_salt b)) (getLen (blk_data b))); [lia|]. cbn [bind].
    set (s := mkBytes _ _). assert (getLen s = getLen (blk_data b)) as E.
    { unfold getLen at 1. subst s. cbn [bdata]. unfold sliceN. rewrite dropN_0, N.sub_0_r, lenN_takeN. fold (getLen (blk_salt b)). lia. }
    destruct k; unfold plusBytes, minusBytes; rewrite E, N.eqb_refl; exact I.
  Qed.
  Lemma new_calm salt : calm b_good (new_block h salt).
  Proof.
    unfold new_block. destruct (_ =? 0); [cbn; discriminate|]. destruct (N.eqb_spec (getLen salt) n) as [E|E]; cbn [negb]; [|cbn; discriminate].
    cbn. unfold b_good. cbn. unfold getLen. cbn. spl; try reflexivity; try exact E. apply N.le_0_l.
  Qed.
  Lemma addBlock_calm c : c_good c -> calm (fun r => c_open (snd r)) (addBlock c).
  Proof.
    intros (S & (res & R) & B). unfold addBlock. destruct (N.eqb_spec (c_free c) 0) as [F|F]; cbn [negb].
    2: { cbn. split; [split; [exact S|split; [eauto|exact B]]|]. unfold c_free in F. destruct (c_cur c); [discriminate|contradiction]. }
    apply calm_bind with (P := fun r => si_good (snd (fst r)) /\ exists x, snd r = Some x).
    - destruct (c_cur c) as [b|].
      + specialize (B b eq_refl). apply calm_bind with (P := fun _ => True).
        { unfold blk_getHash. destruct (negb _); [cbn; discriminate|]. destruct (_ =? 0); [cbn; discriminate|exact I]. }
        intros bh _. eapply calm_bind; [apply next_calm, S|]. intros [salt si] [_ S2]. cbn [snd] in S2.
        eapply calm_bind; [apply result_calm, B|]. intros r _. rewrite R. unfold addcopyToBytes. destruct (_ <? _); cbn; [discriminate|]. eauto.
      + eapply calm_bind; [apply next_calm, S|]. intros [salt si] [_ S2]. cbn [snd] in S2. rewrite R. cbn. eauto.
    - intros [[salt si] r] [S2 [x E]]. cbn [fst snd] in S2, E. subst r. assert (si_obj si = h) as -> by apply S2.
      eapply calm_bind; [apply new_calm|]. intros nb G. cbn. split; [|discriminate]. split; [exact S2|]. split; [eexists; reflexivity|]. cbn. intros b [= <-]. exact G.
  Qed.
  Lemma add_calm k d b : b_good b -> calm b_good (blk_addData k d b).
  Proof.
    intros (Ln & Lm & Ld & Ls & O). unfold blk_addData. destruct (N.ltb_spec (blk_free b) (getLen d)) as [L|L]; [cbn; discriminate|].
    unfold addcopyToBytes. destruct (N.ltb_spec (bmax (blk_data b)) (getLen d + getLen (blk_data b))) as [L1|L1]; [cbn; discriminate|]. cbn [bind].
    set (d1 := mkBytes (bdata (blk_data b) ++ bdata d) _). assert (getLen d1 = getLen (blk_data b) + getLen d) as E1 by (unfold d1, getLen; cbn [bdata]; rewrite lenN_app; reflexivity).
    destruct (blk_free _ =? 0).
    2: { cbn. unfold b_good. cbn [blk_len blk_data blk_salt blk_obj]. subst d1. cbn [bmax]. spl; try assumption. rewrite E1. lia. }
    cbn [blk_dec_hash]. destruct (negb _).
    { cbn. unfold b_good. cbn [blk_len blk_data blk_salt blk_obj]. subst d1. cbn [bmax]. spl; try assumption. rewrite E1. lia. }
    rewrite O. destruct k.
    - destruct (hash_calm (bdata d1)) as (dh & -> & _). cbn [bind]. eapply calm_bind with (P := fun r => getLen r = getLen d1 /\ bmax r = bmax d1).
      { apply plus_calm2. }
      intros r [E2 E3]. cbn. unfold b_good. cbn [blk_len blk_data blk_salt blk_obj]. subst d1. cbn [bmax] in *. spl; try assumption; try reflexivity; try congruence. rewrite E2, E1. lia.
    - eapply calm_bind with (P := fun r => getLen r = getLen d1 /\ bmax r = bmax d1).
      { apply minus_calm2. }
      intros r [E2 E3]. destruct (hash_calm (bdata r)) as (dh & -> & _). cbn [bind]. cbn. unfold b_good. cbn [blk_len blk_data blk_salt blk_obj]. subst d1. cbn [bmax] in *.
      spl; try assumption; try reflexivity; try congruence. rewrite E2, E1. lia.
  Qed.
  Lemma set_cur_open c b : c_good c -> b_good b -> c_open (set_cur c b).
  Proof. intros (S & R & _) G. split; [|discriminate]. split; [exact S|]. split; [exact R|]. cbn. intros b' [= <-]. exact G. Qed.
  Lemma data_loop_calm fuel : forall data written c, c_open c -> calm c_open (addData_loop fuel data written c).
  Proof.
    induction fuel as [|fuel IH]; intros data written c [G Ne]; cbn [addData_loop]; [exact I|].
    apply calm_bind with (P := fun _ => True).
    { unfold copySubBytes. destruct (_ <? _); [cbn; discriminate|]. destruct (_ <? _); [cbn; discriminate|exact I]. }
    intros part _. destruct (c_cur c) as [b|] eqn:E; [|contradiction].
    eapply calm_bind; [apply add_calm, G; exact E|]. intros b' Gb. destruct (_ <? _).
    - eapply calm_bind; [apply addBlock_calm, set_cur_open; assumption|]. intros [x c'] Gc. cbn [snd] in Gc. apply IH, Gc.
    - cbn. apply set_cur_open; assumption.
  Qed.
  Lemma stream_loop_calm fuel : forall s total written c, c_open c -> calm c_open (addStream_loop fuel s total written c).
  Proof.
    induction fuel as [|fuel IH]; intros s total written c [G Ne]; cbn [addStream_loop]; [exact I|].
    apply calm_bind with (P := fun _ => True).
    { unfold newBytes. destruct (_ <? _)%Z; [cbn; discriminate|exact I]. }
    intros part _. destruct (readExact _ s) as [[got s']|]; [|cbn; discriminate]. destruct (c_cur c) as [b|] eqn:E; [|contradiction].
    eapply calm_bind; [apply add_calm, G; exact E|]. intros b' Gb. destruct (_ <? _).
    - eapply calm_bind; [apply addBlock_calm, set_cur_open; assumption|]. intros [x c'] Gc. cbn [snd] in Gc. apply IH, Gc.
    - cbn. apply set_cur_open; assumption.
  Qed.
  Lemma start_calm c m : c_good c -> calm c_open (addData_start c m).
  Proof.
    intros (S & (r & R) & B). unfold addData_start. rewrite R. destruct (c_cur c) as [b|] eqn:E; cbn [c_cur].
    - cbn. split; [|cbn; congruence]. split; [exact S|]. split; [eexists; reflexivity|]. cbn. intros b' E'. apply B. congruence.
    - eapply calm_bind; [apply addBlock_calm|].
      + split; [exact S|]. split; [eexists; reflexivity|]. cbn. congruence.
      + intros [x c'] Gc. exact Gc.
  Qed.
  Lemma new_chain_calm k key salt : calm c_good (new_chain k h key salt).
  Proof.
    unfold new_chain, si_init. destruct (N.eqb_spec (getLen key) n) as [E1|E1]; cbn [negb bind]; [|cbn; discriminate].
    destruct (N.eqb_spec (getLen salt) n) as [E2|E2]; cbn [negb bind]; [|cbn; discriminate]. cbn. split; [|split; [eexists; reflexivity|discriminate]].
    unfold si_good, copyBytes. cbn. spl; try reflexivity; assumption.
  Qed.
  Lemma getResult_calm c : c_open c -> calm (fun _ => True) (getResult c).
  Proof.
    intros [(_ & (r & R) & B) Ne]. unfold getResult. destruct (c_cur c) as [b|]; [|contradiction].
    eapply calm_bind; [apply result_calm, B; reflexivity|]. intros x _. rewrite R. unfold addcopyToBytes. destruct (_ <? _); cbn; [discriminate|exact I].
  Qed.
  Lemma via_data_calm fuel k key salt data : calm (fun _ => True) (via_data h fuel k key salt data).
  Proof.
    unfold via_data. eapply calm_bind; [apply new_chain_calm|]. intros c G. unfold addData.
    eapply calm_bind; [eapply calm_bind; [apply start_calm, G|intros c1 G1; apply data_loop_calm, G1]|]. intros c2 G2.
    eapply calm_bind; [apply getResult_calm, G2|]. intros [r c3] _. exact I.
  Qed.
  Lemma via_stream_calm fuel k key salt s total : calm (fun _ => True) (via_stream h fuel k key salt s total).
  Proof.
    unfold via_stream. eapply calm_bind; [apply new_chain_calm|]. intros c G. unfold addStream.
    eapply calm_bind; [eapply calm_bind; [apply start_calm, G|intros c1 G1; apply stream_loop_calm, G1]|]. intros c2 G2.
    eapply calm_bind; [apply getResult_calm, G2|]. intros [r c3] _. exact I.
  Qed.
  (** a stream that is cut off gives the same outcome or an exception *)
  Lemma stream_cut fuel : forall s more total written c,
    addStream_loop fuel s total written c = addStream_loop fuel (s ++ more) total written c \/ addStream_loop fuel s total written c = Throw RuntimeError.
  Proof.
    induction fuel as [|fuel IH]; intros s more total written c; cbn [addStream_loop]; [left; reflexivity|].
    destruct (newBytes (piece c total written)) as [p| | |]; cbn [bind]; try (left; reflexivity).
    unfold readExact. destruct (N.leb_spec (bmax p) (lenN s)) as [L|L]; [|right; reflexivity].
    destruct (N.leb_spec (bmax p) (lenN (s ++ more))) as [L2|L2]; [|rewrite lenN_app in L2; lia].
    assert (takeN (bmax p) (s ++ more) = takeN (bmax p) s) as -> by (apply takeN_app_le; exact L).
    assert (dropN (bmax p) (s ++ more) = dropN (bmax p) s ++ more) as -> by (apply dropN_app_le; exact L).
    destruct (c_cur c) as [b|]; [|left; reflexivity]. destruct (blk_addData _ _ b) as [b'| | |]; cbn [bind]; try (left; reflexivity).
    destruct (_ <? total); [|left; reflexivity]. destruct (addBlock _) as [[x c']| | |]; cbn [bind]; try (left; reflexivity). apply IH.
  Qed.
  Lemma via_stream_ends fuel k key salt s total : total < 2 ^ 31 -> (N.to_nat total + 2 <= fuel)%nat -> via_stream h fuel k key salt s total <> OutOfFuel.
  Proof.
    intros L Hf E. destruct (N.eq_dec (getLen key) (hsize h)) as [Lk|Lk].
    2: { unfold via_stream, new_chain, si_init in E. destruct (N.eqb_spec (getLen key) (hsize h)); [contradiction|discriminate]. }
    destruct (N.eq_dec (getLen salt) (hsize h)) as [Ls|Ls].
    2: { unfold via_stream, new_chain, si_init in E. destruct (N.eqb_spec (getLen key) (hsize h)); [|discriminate]. destruct (N.eqb_spec (getLen salt) (hsize h)); [contradiction|discriminate]. }
    set (more := repeat x00 (N.to_nat total)).
    destruct (via_stream_ok h Hh fuel k key salt (s ++ more) total Lk Ls) as (r & E' & _); try assumption.
    { rewrite lenN_app. unfold more. rewrite lenN_repeat. lia. }
    unfold via_stream in E, E'. destruct (new_chain k h key salt) as [c| | |]; cbn [bind] in *; try discriminate. unfold addStream in *.
    destruct (addData_start c total) as [c1| | |]; cbn [bind] in *; try discriminate.
    destruct (stream_cut fuel s more total 0 c1) as [X|X]; rewrite X in E; cbn [bind] in E; try discriminate. rewrite E in E'. discriminate.
  Qed.
End Calm.
