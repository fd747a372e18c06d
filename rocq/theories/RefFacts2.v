(** The API is the reference machine: files, time limits and new headers. *)
From Coq Require Import Strings.Byte Strings.String.
From Verif Require Import Base BaseFacts BytesModel BytesSpec BytesFacts MiscModel MiscFacts CipherModel CipherSpec CipherFacts CipherFacts2 PwModel PwSpec PwFacts ChModel ChSpec ChFacts ChFacts2
  HeaderModel HeaderSpec HeaderFacts HeaderFacts2 HeaderFacts3 HeaderFacts4 HeaderFacts5 HeaderFacts8 HeaderFacts9 FileModel ApiModel ApiSpec ApiSpec2 FileFacts ApiFacts ApiFacts2 ApiFacts3 ApiFacts4 ApiFacts5 ApiFacts6 ApiFacts10 ApiFacts11
  RefSpec RefFacts RefSpec2.
Ltac Zify.zify_post_hook ::= Z.div_mod_to_equations.

(** ** names *)
Lemma enc_name_path p : enc_name p = true <-> enc_path p.
Proof.
  unfold enc_name. split.
  - intros E. destruct (rev p) as [|a [|b [|c [|d [|x r]]]]] eqn:R; try discriminate; destruct a; try discriminate; destruct b; try discriminate; destruct c; try discriminate; destruct d; try discriminate.
    exists (rev r), x. split.
    + rewrite <- (rev_involutive p), R. cbn [rev]. rewrite <- !app_assoc. reflexivity.
    + intros ->. discriminate.
  - intros (a & c & -> & Nc). rewrite !rev_app_distr. cbn. destruct (Byte.eqb c x2f) eqn:E; [|reflexivity]. apply Byte.byte_dec_bl in E. contradiction.
Qed.
Lemma enc_name_false p : enc_name p = false <-> ~ enc_path p.
Proof. rewrite <- enc_name_path. symmetry. apply not_true_iff_false. Qed.

(** ** sizes *)
Lemma sizes_sized c : lenN c < two64 -> c <> [] ->
  (sized c = true -> sizes_fit c (header_size c)) /\ (forall hsz, hsz < two64 -> sizes_fit c hsz -> sized c = true /\ header_size c = hsz).
Proof.
  intros Hc Ne. unfold sized. assert ((lenN c =? 0) = false) as -> by (apply N.eqb_neq; intros E; apply lenN_0 in E; contradiction). cbn [orb]. split.
  - rewrite !andb_true_iff, !N.leb_le, N.eqb_eq. intros [[[L E] G] G'].
    assert (lenN (takeN 8 c) = 8) as L8 by (rewrite lenN_takeN; lia). destruct (u64_of_bytes _ L8) as (v & Hv & Ev).
    assert (lenN (takeN 8 (dropN 8 c)) = 8) as L9 by (rewrite lenN_takeN, lenN_dropN; lia). destruct (u64_of_bytes _ L9) as (v' & Hv' & Ev').
    unfold header_size in *. rewrite Ev in E. rewrite Ev' in *. rewrite u64_val in * by assumption. exists (dropN 8 (dropN 8 c)). split; [|lia].
    rewrite <- (takeN_dropN 8 c) at 1. rewrite Ev, E. f_equal. rewrite <- (takeN_dropN 8 (dropN 8 c)) at 1. rewrite Ev'. reflexivity.
  - intros hsz Lh (rest & E & G).
    assert (takeN 8 c = u64 (lenN c)) as T1. { rewrite E at 1. pose proof (takeN_app_exact (u64 (lenN c)) (u64 hsz ++ rest)) as X. rewrite u64_len in X. exact X. }
    assert (dropN 8 c = u64 hsz ++ rest) as T2. { rewrite E at 1. pose proof (dropN_app_exact (u64 (lenN c)) (u64 hsz ++ rest)) as X. rewrite u64_len in X. exact X. }
    assert (takeN 8 (dropN 8 c) = u64 hsz) as T3. { rewrite T2. pose proof (takeN_app_exact (u64 hsz) rest) as X. rewrite u64_len in X. exact X. }
    unfold header_size. rewrite T1, T3, !u64_val by assumption. split; [|reflexivity].
    rewrite !andb_true_iff, !N.leb_le, N.eqb_eq. spl; try reflexivity; try lia.
Qed.
Definition to_fh (p c : bytes) : handler := if lenN c =? 0 then mkFH p 0 0 true else mkFH p (header_size c) (lenN c) false.
Definition ansd {A B} (g : A -> B) (v : verdict A) : dres B :=
  match v with Gives x => dret (g x) | Rejects e => dfail e | Dies c => Crash c end.
Lemma named_cases w p :
  (p = [] /\ named w p = Rejects ERR_EMPTY_FILEPATH) \/ (p <> [] /\ ~ enc_path p /\ named w p = Rejects ERR_EXTENSION_INVALID) \/
  (enc_path p /\ w_stat w p = false /\ named w p = Dies Terminate) \/ (enc_path p /\ w_stat w p = true /\ named w p = Gives tt).
Proof.
  unfold named. destruct p as [|x q]; [left; split; reflexivity|]. right. set (p := x :: q). destruct (enc_name p) eqn:E.
  - apply enc_name_path in E. right. destruct (w_stat w p); [right|left]; auto.
  - apply enc_name_false in E. left. spl; [discriminate|exact E|reflexivity].
Qed.
Lemma opened_gives w f p c : opened w f p = Gives c <-> openable w f p c.
Proof.
  unfold opened, openable. destruct (named_cases w p) as [[E ->]|[(Ne & Np & ->)|[(Ep & S & ->)|(Ep & S & ->)]]]; cbn [also].
  - split; [discriminate|]. intros (E1 & _). subst p. apply enc_path_nonempty in E1. discriminate.
  - split; [discriminate|]. intros (E1 & _). contradiction.
  - split; [discriminate|]. intros (_ & S' & _). congruence.
  - destruct (f (w_loc w p)) as [x|]; [|split; [discriminate|intros (_ & _ & X & _); discriminate]].
    destruct (w_read w p); split; try discriminate; try (intros (_ & _ & X & Y); congruence). intros [= <-]. auto.
Qed.
Lemma valid_ref w f p : isValidPath w f p true = ansd (fun _ => tt) (opened w f p).
Proof.
  unfold opened. destruct (valid_path_cases w f p true) as [[E V]|[(Ne & Np & V)|[(Ep & S & V)|(Ep & S & V)]]]; rewrite V.
  - subst p. reflexivity.
  - destruct (named_cases w p) as [[E ->]|[(_ & _ & ->)|[(Ep & _)|(Ep & _)]]]; try contradiction; reflexivity.
  - destruct (named_cases w p) as [[E _]|[(_ & Np & _)|[(_ & _ & ->)|(_ & S' & _)]]]; try contradiction; try congruence; [|reflexivity].
    subst p. apply enc_path_nonempty in Ep. discriminate.
  - destruct (named_cases w p) as [[E _]|[(_ & Np & _)|[(_ & S' & _)|(_ & _ & ->)]]]; try contradiction; try congruence.
    + subst p. apply enc_path_nonempty in Ep. discriminate.
    + cbn [also]. destruct (f (w_loc w p)); [destruct (w_read w p)|]; reflexivity.
Qed.
Lemma handler_ref w f p : fs_ok f -> getFileHandler w f p = ansd (to_fh p) (opened_sized w f p).
Proof.
  intros Hf. unfold opened_sized.
  assert (forall c, openable w f p c -> lenN c < two64) as L by (intros c (_ & _ & F & _); apply lt63_two64, (Hf _ _ F)).
  destruct (opened w f p) as [c|e|k] eqn:O; cbn [also].
  - apply opened_gives in O. specialize (L c O). destruct (list_eq_dec Byte.byte_eq_dec c []) as [->|Ne].
    + cbn [sized lenN]. change (sized []) with true. cbn. apply handler_empty, O.
    + destruct (sizes_sized c L Ne) as [A B]. destruct (sized c) eqn:S.
      * cbn [ansd]. unfold to_fh. assert ((lenN c =? 0) = false) as -> by (apply N.eqb_neq; intros E; apply lenN_0 in E; contradiction).
        specialize (A eq_refl). apply handler_fit; [exact O|exact L| |exact A]. destruct A as (r & _ & A). lia.
      * destruct (handler_cases w f p Hf) as [(x & O' & -> & E & _)|[(x & hsz & O' & L' & Lh & Sf & E & _)|[(x & e & _ & _ & _ & _ & E & _)|[(No & _)|(No & _)]]]].
        -- assert (c = []) by (destruct O as (_ & _ & F & _), O' as (_ & _ & F' & _); congruence). contradiction.
        -- assert (x = c) by (destruct O as (_ & _ & F & _), O' as (_ & _ & F' & _); congruence). subst x. destruct (B hsz Lh Sf). congruence.
        -- exact E.
        -- destruct (No c O).
        -- destruct (No c O).
  - cbn [ansd]. unfold getFileHandler. rewrite valid_ref, O. reflexivity.
  - cbn [ansd]. unfold getFileHandler. rewrite valid_ref, O. reflexivity.
Qed.

(** ** headers that are read *)
Lemma read_fmode bd file h r : read_file bd file = Gives (h, r) -> h_fmode h = 1.
Proof.
  unfold read_file. repeat (match goal with |- context [also ?v _] => destruct v as [?|?|?] eqn:?; cbn [also]; try discriminate | |- context [let '(_, _) := ?x in _] => destruct x end).
  all: try (intros [= <- _]; cbn [h_fmode]).
  all: match goal with E : check (?x =? 1) _ = Gives _ |- ?x = 1 => unfold check in E; destruct (N.eqb_spec x 1); [assumption|discriminate] end.
Qed.
Lemma read_holds bd file h r : lenN file < two64 -> read_file bd file = Gives (h, r) ->
  holds (decoded (lenN file) h) h /\ exists hsz l1 l2, written_as file hsz l1 l2 h r.
Proof.
  intros L E. pose (rnd := fun k : N => takeN k (repeat x00 (N.to_nat k))).
  assert (forall k, lenN (rnd k) = k) as Hr by (intros k; unfold rnd; rewrite lenN_takeN; unfold lenN; rewrite repeat_length; lia).
  pose proof (reader_refines bd rnd file Hr L) as D. rewrite E in D. cbn [ans] in D.
  destruct (decode_ret bd rnd file _ _ Hr L D) as (hsz & l1 & l2 & h' & W & Ed & _).
  assert (holds (decoded (lenN file) h') h') as Hh by (split; [apply decoded_hinv|apply decoded_contents]; try apply W; exact L).
  assert (h = h') as ->.
  { pose proof (obj_contents (Some (lenN file)) h (read_fmode _ _ _ _ E)) as C1. change (contents (decoded (lenN file) h) = Some h) in C1.
    rewrite Ed in C1. destruct Hh as [_ C2]. congruence. }
  split; [exact Hh|eauto].
Qed.
Definition selected_obj (p c : bytes) (h : header) : api :=
  mkApi FILE_SELECTED 1 None void None (Some (decoded (lenN c) h)) (Some (mkFH p (header_size c) (lenN c) false)).
Definition empty_sel (p : bytes) : api := mkApi EMPTY_FILE_SELECTED 1 None void None None (Some (mkFH p 0 0 true)).
Lemma header_ref bd H w f p c i : world_ok bd H w -> openable w f p c -> lenN c < two64 ->
  fh_getDataHeader w f i (mkFH p (header_size c) (lenN c) false) = ansd (fun '(h, _) => decoded (lenN c) h) (read_file (w_build w) c).
Proof.
  intros (Wb & _ & R & _) O L. unfold fh_getDataHeader. cbn [fh_path]. rewrite (openable_stream _ _ _ _ O).
  rewrite (reader_refines (w_build w) (w_rnd w i) c (R i) L). destruct (read_file (w_build w) c) as [[h r]|e|k]; reflexivity.
Qed.
Lemma select_ref bd H w f p : world_ok bd H w -> fs_ok f ->
  selectFile w (fresh 1) f p = match looked_at w f p with
    | Gives None => Ret (empty_sel p, ROk)
    | Gives (Some (c, h)) => Ret (selected_obj p c h, ROk)
    | Rejects e => Ret (fresh 1, failed e)
    | Dies c => Crash c
    end.
Proof.
  intros W Hf. unfold selectFile. rewrite (handler_ref w f p Hf). unfold looked_at.
  destruct (opened_sized w f p) as [c|e|k] eqn:O; cbn [also ansd]; try reflexivity.
  unfold opened_sized in O. destruct (opened w f p) as [x|e|k] eqn:O1; cbn [also] in O; try discriminate. destruct (sized x); [|discriminate]. injection O as ->.
  apply opened_gives in O1. assert (lenN c < two64) as L by (apply lt63_two64; destruct O1 as (_ & _ & F & _); exact (Hf _ _ F)).
  unfold to_fh. destruct (lenN c =? 0); unfold dret; cbn [bind fh_empty]; [reflexivity|].
  rewrite (header_ref bd H w f p c 0 W O1 L). destruct (read_file (w_build w) c) as [[h r]|e|k]; reflexivity.
Qed.
(** listing *)
Lemma keep_name e : keep e = snd e && enc_name (fst e).
Proof.
  apply Bool.eq_iff_eq_true. rewrite keep_iff, andb_true_iff, enc_name_path. reflexivity.
Qed.
Lemma look_all_ref bd H w f dir : world_ok bd H w -> fs_ok f -> forall l i, N.of_nat i < 2 ^ 31 ->
  relevant_loop w f i 1 dir (map fst (filter keep l)) [] = match look_all w f dir (N.of_nat i) l with Gives x => Ret x | Rejects _ => Ret [] | Dies c => Crash c end /\
  (forall e, look_all w f dir (N.of_nat i) l <> Rejects e).
Proof.
  intros W Hf. induction l as [|[n b] l IH0]; intros i Li; [split; [reflexivity|discriminate]|]. cbn [filter look_all]. rewrite keep_name. cbn [fst snd].
  destruct (b && enc_name n); [|apply IH0, Li].
  assert (count_up i (relevant_loop w f (S i) 1 dir (map fst (filter keep l)) []) =
      match (if N.of_nat i + 1 <? 2 ^ 31 then look_all w f dir (N.of_nat i + 1) l else Dies Undefined) with Gives x => Ret x | Rejects _ => Ret [] | Dies c => Crash c end /\
    (forall e, (if N.of_nat i + 1 <? 2 ^ 31 then look_all w f dir (N.of_nat i + 1) l else Dies Undefined) <> Rejects e)) as [IH IH2].
  { unfold count_up. destruct (next_index i Li) as [[Ei Ei']|(Ni & Ls & Es)].
    - apply N.eqb_eq in Ei. rewrite Ei, Ei'. split; [reflexivity|discriminate].
    - apply N.eqb_neq in Ni. rewrite Ni. rewrite <- Es. apply N.ltb_lt in Ls as Lb. rewrite Lb. apply IH0, Ls. }
  cbn [map fst relevant_loop]. rewrite (handler_ref w f (join dir n) Hf). unfold looked_at.
  destruct (opened_sized w f (join dir n)) as [c|e|k] eqn:O; cbn [also ansd]; try (split; [|discriminate]; reflexivity); [|split; assumption].
  unfold opened_sized in O. destruct (opened w f (join dir n)) as [x|e|k] eqn:O1; cbn [also] in O; try discriminate. destruct (sized x); [|discriminate]. injection O as ->.
  apply opened_gives in O1. assert (lenN c < two64) as L by (apply lt63_two64; destruct O1 as (_ & _ & F & _); exact (Hf _ _ F)).
  unfold to_fh. destruct (lenN c =? 0); unfold dret; cbn [bind fh_empty]; [split; assumption|].
  unfold fh_isDataHeader. rewrite (header_ref bd H w f (join dir n) c i W O1 L).
  destruct (read_file (w_build w) c) as [[h r]|e|k] eqn:R; cbn [also ansd dbind dret dfail bind noexcept]; [|split; assumption|split; [reflexivity|discriminate]].
  destruct (read_holds _ _ _ _ L R) as [Hd _]. rewrite (holds_parts _ _ Hd). cbn [bind]. unfold dret. cbn [dbind].
  destruct (p_getFileDataMode (d_parts (decoded (lenN c) h))) as [m| | |] eqn:M.
  - unfold lift. cbn [bind dret dbind]. destruct (m =? 1); cbn; split; assumption.
  - discriminate M.
  - discriminate M.
  - discriminate M.
Qed.

(** ** time *)
Lemma hits_reached clk t n : hits clk t n = true <-> reached clk t n.
Proof.
  unfold hits, reached. rewrite andb_true_iff, negb_true_iff, N.eqb_neq, existsb_exists. split.
  - intros [A (k & Hk & B)]. split; [exact A|]. exists k. apply in_seq in Hk. apply N.leb_le in B. split; [lia|exact B].
  - intros [A (k & Hk & B)]. split; [exact A|]. exists k. split; [apply in_seq; lia|apply N.leb_le; exact B].
Qed.
Lemma hits_not clk t n : hits clk t n = false <-> ~ reached clk t n.
Proof. rewrite <- hits_reached. symmetry. apply not_true_iff_false. Qed.
Lemma verify_timely_iff w t a b : verify_timely w t a b = true <-> verify_in_time w t a b.
Proof.
  unfold verify_timely, verify_in_time. rewrite !andb_true_iff, orb_true_iff, !negb_true_iff, !hits_not, N.eqb_eq, N.eqb_neq.
  destruct (N.eq_dec t 0); tauto.
Qed.
Lemma create_timely_iff w t a b : create_timely w t a b = true <-> create_in_time w t a b.
Proof.
  unfold create_timely, create_in_time. rewrite !andb_true_iff, orb_true_iff, !negb_true_iff, !hits_not, N.eqb_eq, N.ltb_lt.
  destruct (N.eq_dec t 0); tauto.
Qed.

(** ** new headers *)
Lemma all_set_complete ds : all_set ds = set_isComplete ds.
Proof. unfold all_set, set_isComplete. destruct (s_fmode ds), (s_hmode ds), (s_ch1 ds), (s_ch2 ds), (s_n1 ds), (s_n2 ds); reflexivity. Qed.
Lemma created_made H w ds pw h : w_hashes w = H -> created H w ds pw h -> h = made w ds pw.
Proof.
  intros EH (F & Hm & (m1 & n1 & A1 & B1 & C1) & (m2 & n2 & A2 & B2 & C2) & X). unfold made. rewrite Hm, A1, B1, A2, B2, EH. cbn [value].
  destruct h as [fm hm bl c1 c2 va sa en]. cbn [h_fmode h_hmode h_ch1 h_ch2 h_salt h_blocks h_encs h_valid] in *.
  destruct X as (S & Bl & En & Op). unfold opens, validator, key_of in Op. cbn [h_valid h_hmode h_ch1 h_ch2] in Op. subst. reflexivity.
Qed.
Lemma unlocked_iff H h pw : unlocked H h pw = true <-> opens H h pw.
Proof. apply eqb_bytes_spec. Qed.
