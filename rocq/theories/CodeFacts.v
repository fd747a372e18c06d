(** Lemmas for C119. *)
From Coq Require Import Strings.Byte.
From Verif Require Import Base BaseFacts BytesModel BytesSpec MiscModel CipherModel CipherSpec PwModel PwSpec ChModel ChSpec HeaderModel HeaderSpec FileModel ApiModel ApiSpec
  RefSpec RefSpec2 RefFacts2 RefFacts4 CodeSpec.

(** every code of a verdict is in a list *)
Definition only {A} (L : list errcode) (v : verdict A) : Prop := match v with Rejects e => In e L | _ => True end.
Lemma only_also {A B} L (v : verdict A) (k : A -> verdict B) : only L v -> (forall x, v = Gives x -> only L (k x)) -> only L (also v k).
Proof. destruct v; cbn; auto. Qed.
Lemma only_check L b e : In e L -> only L (check b e).
Proof. destruct b; cbn; auto. Qed.
Lemma only_insist L bd b : only L (insist bd b).
Proof. destruct bd, b; exact I. Qed.
Lemma only_take L n s : In ERR_NOT_ENOUGH_DATA L -> only L (take_n n s).
Proof. unfold take_n. destruct (_ <=? _); cbn; auto. Qed.
Lemma only_num L n s : In ERR_NOT_ENOUGH_DATA L -> only L (take_num n s).
Proof. intros Hi. apply only_also; [apply only_take, Hi|intros [x r] _; exact I]. Qed.
Lemma only_blocks L n s : In ERR_NOT_ENOUGH_DATA L -> only L (take_blocks n s).
Proof.
  intros Hi. revert s. induction n as [|n IH]; intros s; [exact I|]. cbn [take_blocks].
  apply only_also; [apply only_num, Hi|intros [ty s1] _]. apply only_also; [apply only_num, Hi|intros [len s2] _].
  apply only_also; [apply only_take, Hi|intros [x s3] _]. destruct (len =? 0); [exact I|]. apply only_also; [apply IH|intros [bs s4] _; exact I].
Qed.
Lemma only_encs L n s : In ERR_NOT_ENOUGH_DATA L -> only L (take_encs n s).
Proof.
  intros Hi. revert s. induction n as [|n IH]; intros s; [exact I|]. cbn [take_encs].
  apply only_also; [apply only_num, Hi|intros [ty s1] _]. apply only_also; [apply only_num, Hi|intros [len s2] _].
  apply only_also; [apply only_take, Hi|intros [x s3] _]. apply only_also; [apply IH|intros [bs s4] _; exact I].
Qed.
Lemma only_chain L bd e s : In ERR_NOT_ENOUGH_DATA L -> In ERR_CHAINHASHMODE_FORMAT_INVALID L -> In e L -> only L (take_chain bd e s).
Proof.
  intros H1 H2 H3. unfold take_chain.
  apply only_also; [apply only_num, H1|intros [mode s1] _]. apply only_also; [apply only_check, H2|intros _ _].
  apply only_also; [apply only_num, H1|intros [it s2] _]. apply only_also; [apply only_num, H1|intros [lb s3] _].
  apply only_also; [apply only_check, H1|intros _ _]. apply only_also; [apply only_take, H1|intros [x s4] _].
  apply only_also; [apply only_insist|intros _ _]. apply only_also; [apply only_check, H3|intros _ _]. exact I.
Qed.
(** a file whose two sizes fit *)
Lemma only_file bd c : sized c = true -> lenN c <> 0 -> only (codes KSelect) (read_file bd c).
Proof.
  intros Z Nz. unfold sized in Z. destruct (N.eqb_spec (lenN c) 0) as [|_]; [contradiction|]. cbn [orb] in Z.
  apply andb_true_iff in Z as [Z Z4]. apply andb_true_iff in Z as [Z Z3]. apply andb_true_iff in Z as [Z1 Z2].
  assert (In ERR_NOT_ENOUGH_DATA (codes KSelect)) as Hi by (cbn; tauto).
  unfold read_file, take_num at 1, take_n at 1. apply N.leb_le in Z1. destruct (N.leb_spec 8 (lenN c)) as [L1|]; [|lia]. cbn [also].
  unfold take_num at 1, take_n at 1. destruct (N.leb_spec 8 (lenN (dropN 8 c))) as [L2|X]; [|rewrite lenN_dropN in X; lia]. cbn [also].
  rewrite Z2. cbn [check also]. unfold header_size in Z4. rewrite Z4. cbn [check also].
  repeat match goal with
  | |- only _ (Gives _) => exact I
  | |- only _ (let _ := _ in _) => cbv zeta
  | |- only _ (also _ _) => apply only_also; [|intros ? ?]
  | |- only _ (check _ _) => apply only_check; cbn; tauto
  | |- only _ (insist _ _) => apply only_insist
  | |- only _ (take_num _ _) => apply only_num, Hi
  | |- only _ (take_n _ _) => apply only_take, Hi
  | |- only _ (take_blocks _ _) => apply only_blocks, Hi
  | |- only _ (take_encs _ _) => apply only_encs, Hi
  | |- only _ (take_chain _ _ _) => apply only_chain; [exact Hi|cbn; tauto|cbn; tauto]
  | |- only _ (match ?x with (_, _) => _ end) => destruct x
  end.
Qed.
Lemma only_named w p L : In ERR_EMPTY_FILEPATH L -> In ERR_EXTENSION_INVALID L -> only L (named w p).
Proof. intros H1 H2. unfold named. destruct p; [exact H1|]. destruct (enc_name _); [destruct (w_stat w _); exact I|exact H2]. Qed.
Lemma only_opened w f p L : In ERR_EMPTY_FILEPATH L -> In ERR_EXTENSION_INVALID L -> In ERR_FILE_NOT_FOUND L -> In ERR_FILE_NOT_OPEN L -> only L (opened w f p).
Proof.
  intros H1 H2 H3 H4. apply only_also; [apply only_named; assumption|intros _ _]. destruct (f (w_loc w p)); [|exact H3]. destruct (w_read w p); [exact I|exact H4].
Qed.
Lemma only_opened_path w f p L : enc_path p -> In ERR_FILE_NOT_FOUND L -> In ERR_FILE_NOT_OPEN L -> only L (opened w f p).
Proof.
  intros Ep H3 H4. apply only_also.
  - destruct (named_cases w p) as [[-> _]|[(_ & Np & _)|[(_ & _ & ->)|(_ & _ & ->)]]]; try exact I; [|contradiction].
    destruct Ep as (q & x & E & _). apply (f_equal (@List.length byte)) in E. rewrite app_length in E. cbn in E. lia.
  - intros _ _. destruct (f (w_loc w p)); [|exact H3]. destruct (w_read w p); [exact I|exact H4].
Qed.
Lemma only_sized w f p L : In ERR_EMPTY_FILEPATH L -> In ERR_EXTENSION_INVALID L -> In ERR_FILE_NOT_FOUND L -> In ERR_FILE_NOT_OPEN L -> In ERR_FILEHANDLER_CREATION L ->
  only L (opened_sized w f p).
Proof. intros H1 H2 H3 H4 H5. apply only_also; [apply only_opened; assumption|intros c _]. destruct (sized c); [exact I|exact H5]. Qed.
Lemma only_looked w f p : only (codes KSelect) (looked_at w f p).
Proof.
  apply only_also; [apply only_sized; cbn; tauto|]. intros c E. destruct (N.eqb_spec (lenN c) 0) as [|Nz]; [exact I|].
  apply only_also; [|intros [h r] _; exact I]. apply only_file; [|exact Nz].
  unfold opened_sized in E. destruct (opened w f p) as [c'| |]; try discriminate. cbn [also] in E. destruct (sized c') eqn:Z; [|discriminate]. congruence.
Qed.
Lemma only_all w f dir l : forall i L, only L (look_all w f dir i l).
Proof.
  induction l as [|[n b] l IH]; intros i L; [exact I|]. cbn [look_all]. destruct (b && enc_name n); [|apply IH].
  destruct (looked_at w f (join dir n)); try exact I; destruct (i + 1 <? 2 ^ 31); try exact I; apply IH.
Qed.
Lemma only_listed w f dir : only (codes KList) (listed w f dir).
Proof. unfold listed. destruct dir; [cbn; tauto|]. destruct (w_dir w _); [cbn; tauto|exact I|apply only_all]. Qed.

Definition fails_in (L : list errcode) (r : fs * result) : Prop := match r with (_, Done _ (Err e)) => In e L | _ => True end.
Lemma fails_settle {A} L s f (v : verdict A) k : only L v -> (forall x, v = Gives x -> fails_in L (k x)) -> fails_in L (settle s f v k).
Proof. destruct v; cbn; auto. Qed.
Definition path_ok (s : session) : Prop := match s with Sealed p _ _ _ => enc_path p | _ => True end.
Ltac here := solve [exact I | cbn; tauto].
Lemma act_codes w s f o : path_ok s -> fails_in (codes (kind_of o)) (act w s f o).
Proof.
  intros P. destruct o; cbn [act kind_of].
  - destruct s; try here. apply fails_settle; [apply only_listed|here].
  - destruct s; try here. apply fails_settle; [apply only_named; cbn; tauto|intros _ _]. destruct (f _); [here|]. destruct (w_create w p); here.
  - destruct s; try here. apply fails_settle; [apply only_looked|here].
  - destruct s; here.
  - destruct s; here.
  - destruct s; try here; (destruct (w_remove w _); [destruct (f _); here|here]).
  - destruct s; try here. destruct (f _); [destruct (w_read w _); here|here].
  - destruct s; try here. destruct (negb _); [here|]. destruct (unlocked _ _ _); here.
  - destruct (negb _); [here|]. assert (only (codes KHeader) (new_header w ds pw timeout)) as O.
    { unfold new_header. destruct (negb _); [here|]. destruct (_ && _); here. }
    destruct s; try here; (apply fails_settle; [exact O|here]).
  - destruct (negb _); [here|]. destruct s; here.
  - destruct s; here.
  - destruct s; try here. cbv zeta. destruct (_ && _); [here|]. destruct (_ && _); here.
  - destruct s; try here. destruct fetch; here.
  - destruct s; try here. destruct x as [[[m|] data]|]; try here. destruct (negb _); [here|]. destruct data; [|here]. destruct (_ <? _); [here|]. destruct (forever _); here.
  - destruct s; try here. apply fails_settle; [apply only_opened_path; [exact P|cbn; tauto|cbn; tauto]|intros _ _]. destruct (w_write w _); here.
  - destruct s; try here. apply fails_settle; [apply only_sized; cbn; tauto|intros c _]. destruct (negb _); [here|]. destruct (w_write w _); here.
  - here.
  - here.
Qed.
Lemma seen_err st e x : seen (RErr st e) = Some x -> x = Err e /\ st = match e with ERR_TIMEOUT => TIMEOUT | _ => FAIL end.
Proof. destruct st, e; cbn [seen]; intros [= <-]; split; reflexivity. Qed.

Section Codes.
  Variable H : hashes.
  Hypothesis HH : hashes_ok H.
  Variable bd : build.
  Lemma api_codes mode tr a w f o f' a' st e : history bd H mode tr a -> world_ok bd H w -> fs_ok f -> op_ok o ->
    step w a f o = (f', Ret (a', RErr st e)) -> In e (codes (kind_of o)) /\ st = match e with ERR_TIMEOUT => TIMEOUT | _ => FAIL end.
  Proof using HH.
    intros Hh W Hf Ho E. destruct (sim_history H HH bd _ _ _ Hh) as (s & _ & R & _).
    assert (path_ok s) as P by (destruct s; try exact I; destruct R; assumption).
    pose proof (sim_step H HH bd w s f o a R W Hf Ho) as X. rewrite E in X. destruct X as [[X _]|X]; [discriminate|].
    unfold agrees in X. pose proof (act_codes w s f o P) as C. destruct (act w s f o) as [g [s' x|c|]]; try contradiction. destruct X as (_ & X & _).
    apply seen_err in X as [-> ->]. split; [exact C|reflexivity].
  Qed.
  Lemma api_never mode tr a w f o f' a' st e : history bd H mode tr a -> world_ok bd H w -> fs_ok f -> op_ok o ->
    step w a f o = (f', Ret (a', RErr st e)) -> ~ In e never.
  Proof using HH.
    intros Hh W Hf Ho E. destruct (api_codes _ _ _ _ _ _ _ _ _ _ Hh W Hf Ho E) as [I _]. clear -I. intros J.
    destruct (kind_of o); cbn in I; repeat (destruct I as [I|I]; [subst; cbn in J; intuition discriminate|]); exact I.
  Qed.
End Codes.
