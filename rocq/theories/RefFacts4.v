(** The API is the reference machine: calls and histories. *)
From Coq Require Import Strings.Byte.
From Verif Require Import Base BaseFacts BytesModel BytesSpec BytesFacts MiscModel MiscFacts CipherModel CipherSpec CipherFacts CipherFacts2 PwModel PwSpec PwFacts ChModel ChSpec ChFacts ChFacts2
  HeaderModel HeaderSpec HeaderFacts HeaderFacts2 HeaderFacts3 HeaderFacts4 HeaderFacts5 HeaderFacts8 HeaderFacts9 FileModel ApiModel ApiSpec ApiSpec2 FileFacts ApiFacts ApiFacts2 ApiFacts3 ApiFacts4 ApiFacts5 ApiFacts6 ApiFacts7 ApiFacts10 ApiFacts11 ApiFacts12
  RefSpec RefFacts RefSpec2 RefFacts2 RefFacts3.
Ltac Zify.zify_post_hook ::= Z.div_mod_to_equations.

Lemma seen_failed e : seen (failed e) = Some (Err e).
Proof. destruct e; reflexivity. Qed.
Lemma same_refl f : same f f.
Proof. intros l. reflexivity. Qed.

Ltac fin := first [split; [apply same_refl|first [reflexivity | split; [first [reflexivity | apply seen_failed]|first [reflexivity | assumption]]]] | apply same_refl].

Section Sim.
  Variable H : hashes.
  Hypothesis HH : hashes_ok H.
  Variable bd : build.

  Definition fdata_of (u : bool) : option filedata := if u then Some (mkFD (Some 1) (Some void)) else None.
  Definition rel (s : session) (a : api) : Prop :=
    match s with
    | Idle => a = fresh 1
    | Empty p => enc_path p /\ a = empty_sel p
    | Selected p c h => enc_path p /\ holds (decoded (lenN c) h) h /\ header_size c <= lenN c /\ lenN c < two64 /\ a = selected_obj p c h
    | Verified p c h pw => enc_path p /\ holds (decoded (lenN c) h) h /\ header_size c <= lenN c /\ lenN c < two64 /\
        exists k, keyed H h pw k /\ a = mkApi PASSWORD_VERIFIED 1 None k None (Some (decoded (lenN c) h)) (Some (mkFH p (header_size c) (lenN c) false))
    | Open p h pw u => enc_path p /\ exists k d fh, keyed H h pw k /\ holds d h /\ fh_path fh = p /\ a = mkApi DECRYPTED 1 (fdata_of u) k None (Some d) (Some fh)
    | Sealed p h pw data => enc_path p /\ lenN data < 2 ^ 31 /\ exists k d fh e, ready h (lenN data) d /\ fh_path fh = p /\ bdata e = cipher_of H h pw data /\
        a = mkApi ENCRYPTED 1 (Some (mkFD (Some 1) None)) k (Some e) (Some d) (Some fh)
    | Finished => a_state a = FINISHED /\ a_mode a = 1
    end.
  Definition agrees (w : world) (s : session) (f : fs) (o : op) (r : fs * outcome (api * reply)) : Prop :=
    match act w s f o, r with
    | (g, Done s' x), (f', Ret (a', y)) => same f' g /\ seen y = Some x /\ rel s' a'
    | (g, Ends c), (f', Crash c') => same f' g /\ c' = c
    | (g, Hangs), (f', OutOfFuel) => same f' g
    | _, _ => False
    end.
  Definition follows (w : world) (s : session) (f : fs) (o : op) (r : fs * outcome (api * reply)) : Prop :=
    (r = (f, OutOfFuel) /\ (w_fuel w < rounds s o)%nat) \/ agrees w s f o r.
  Lemma rel_mode s a : rel s a -> a_mode a = 1.
  Proof.
    destruct s; cbn [rel].
    - intros ->. reflexivity.
    - intros [_ ->]. reflexivity.
    - intros (_ & _ & _ & _ & ->). reflexivity.
    - intros (_ & _ & _ & _ & k & _ & ->). reflexivity.
    - intros (_ & k & d & fh & _ & _ & _ & ->). reflexivity.
    - intros (_ & _ & k & d & fh & e & _ & _ & _ & ->). reflexivity.
    - intros [_ X]. exact X.
  Qed.
  Definition state_of (s : session) : state :=
    match s with Idle => INIT | Empty _ => EMPTY_FILE_SELECTED | Selected _ _ _ => FILE_SELECTED | Verified _ _ _ _ => PASSWORD_VERIFIED
    | Open _ _ _ _ => DECRYPTED | Sealed _ _ _ _ => ENCRYPTED | Finished => FINISHED end.
  Lemma rel_state s a : rel s a -> a_state a = state_of s.
  Proof.
    destruct s; cbn [rel state_of].
    - intros ->. reflexivity.
    - intros [_ ->]. reflexivity.
    - intros (_ & _ & _ & _ & ->). reflexivity.
    - intros (_ & _ & _ & _ & k & _ & ->). reflexivity.
    - intros (_ & k & d & fh & _ & _ & _ & ->). reflexivity.
    - intros (_ & _ & k & d & fh & e & _ & _ & _ & ->). reflexivity.
    - intros [X _]. exact X.
  Qed.
  Lemma refused w s f o a e : rel s a -> act w s f o = (f, Done s (Err e)) -> follows w s f o (f, Ret (a, failed e)).
  Proof. intros R E. right. unfold agrees. rewrite E. auto using same_refl, seen_failed. Qed.

  (** the calls one by one *)
  Lemma sim_list w s f dir a : rel s a -> world_ok bd H w -> fs_ok f -> follows w s f (OList dir) (step w a f (OList dir)).
  Proof.
    intros R W Hf. cbn [step]. rewrite (rel_state _ _ R). destruct s; cbn [state_of]; try (apply refused; [exact R|reflexivity]).
    right. unfold agrees. cbn [act]. rewrite (rel_mode _ _ R). unfold getRelevantFileNames, getAllEncFileNames, listed.
    destruct dir as [|x dir]; [fin|]. change (lenN (x :: dir) =? 0) with false. set (d := x :: dir). cbn iota.
    destruct (w_dir w d) as [| |l]; [fin|fin|].
    cbn [dret dbind bind]. change (filter (fun e => snd e && eqb_bytes (extension (fst e)) enc_extension) l) with (filter keep l).
    destruct (look_all_ref bd H w f d W Hf l 0%nat eq_refl) as [E Nr]. rewrite E. change (N.of_nat 0) with 0 in *. destruct (look_all w f d 0 l) as [n|e|c]; [|destruct (Nr e eq_refl)|]; fin.
  Qed.
  Lemma sim_create w s f p a : rel s a -> world_ok bd H w -> fs_ok f -> follows w s f (OCreate p) (step w a f (OCreate p)).
  Proof.
    intros R W Hf. cbn [step]. rewrite (rel_state _ _ R). destruct s; cbn [state_of]; try (apply refused; [exact R|reflexivity]).
    right. unfold agrees. cbn [act]. unfold fh_createFile.
    destruct (valid_path_cases w f p false) as [[Ep V]|[(NEp & Np & V)|[(Ep & S & V)|(Ep & S & V)]]]; rewrite V.
    - subst p. fin.
    - destruct (named_cases w p) as [[E _]|[(_ & _ & ->)|[(E & _)|(E & _)]]]; try contradiction. fin.
    - destruct (named_cases w p) as [[E _]|[(_ & Np & _)|[(_ & _ & ->)|(_ & S' & _)]]]; try contradiction; try congruence.
      + subst p. apply enc_path_nonempty in Ep. discriminate.
      + fin.
    - destruct (named_cases w p) as [[E _]|[(_ & Np & _)|[(_ & S' & _)|(_ & _ & ->)]]]; try contradiction; try congruence.
      + subst p. apply enc_path_nonempty in Ep. discriminate.
      + cbn [settle]. destruct (f (w_loc w p)); [fin|]. destruct (w_create w p); fin.
  Qed.
  Lemma sim_select w s f p a : rel s a -> world_ok bd H w -> fs_ok f -> follows w s f (OSelect p) (step w a f (OSelect p)).
  Proof.
    intros R W Hf. cbn [step]. rewrite (rel_state _ _ R). destruct s; cbn [state_of]; try (apply refused; [exact R|reflexivity]).
    right. unfold agrees. cbn [act rel] in *. subst a. rewrite (select_ref bd H w f p W Hf). unfold looked_at, opened_sized.
    destruct (opened w f p) as [c|e|k] eqn:O; cbn [also settle]; try fin.
    apply opened_gives in O. assert (lenN c < two64) as L by (apply lt63_two64; destruct O as (_ & _ & F & _); exact (Hf _ _ F)).
    destruct (sized c) eqn:Sz; cbn [also settle]; try fin.
    destruct (N.eqb_spec (lenN c) 0) as [Z|Z]; cbn [also settle].
    { cbn [rel]. spl; try reflexivity; try apply same_refl. apply O. }
    destruct (read_file (w_build w) c) as [[h r]|e|k] eqn:E; cbn [also settle]; try fin.
    spl; try reflexivity; try apply same_refl. cbn [rel]. spl; try reflexivity; try assumption; try apply O.
    - apply (read_holds _ _ _ _ L E).
    - unfold sized in Sz. destruct (N.eqb_spec (lenN c) 0); [contradiction|]. cbn [orb] in Sz. rewrite !andb_true_iff, !N.leb_le in Sz. apply Sz.
  Qed.
  Lemma sim_empty w s f a : rel s a -> follows w s f OIsEmpty (step w a f OIsEmpty).
  Proof.
    intros R. cbn [step]. rewrite (rel_state _ _ R). destruct s; cbn [state_of]; try (apply refused; [exact R|reflexivity]); right; fin.
  Qed.
  Lemma sim_unselect w s f a : rel s a -> follows w s f OUnselect (step w a f OUnselect).
  Proof.
    intros R. cbn [step]. rewrite (rel_state _ _ R). destruct s; cbn [state_of]; try (apply refused; [exact R|reflexivity]); right; unfold agrees; cbn [act];
      (split; [apply same_refl|split; [reflexivity|]]); cbn [rel] in *.
    - destruct R as [_ ->]. reflexivity.
    - destruct R as (_ & _ & _ & _ & ->). reflexivity.
  Qed.
  Lemma sim_delete w s f a : rel s a -> follows w s f ODelete (step w a f ODelete).
  Proof.
    intros R. cbn [step]. rewrite (rel_state _ _ R). destruct s; cbn [state_of]; try (apply refused; [exact R|reflexivity]); right; unfold agrees; cbn [act]; pose proof R as R0; cbn [rel] in R.
    - destruct R as [_ ->]. unfold deleteFile. cbn [a_file empty_sel fh_path]. destruct (w_remove w p); cbn [negb]; try fin.
      destruct (f (w_loc w p)); fin.
    - destruct R as (_ & _ & _ & _ & ->). unfold deleteFile. cbn [a_file selected_obj fh_path]. destruct (w_remove w p); cbn [negb]; try fin.
      destruct (f (w_loc w p)); fin.
  Qed.
  Lemma sim_content w s f a : rel s a -> follows w s f OContent (step w a f OContent).
  Proof.
    intros R. cbn [step]. rewrite (rel_state _ _ R). destruct s; cbn [state_of]; try (apply refused; [exact R|reflexivity]); right; unfold agrees; cbn [act]; try fin.
    pose proof R as R0. cbn [rel] in R. destruct R as (_ & _ & _ & _ & Ea). unfold getFileContent, fh_getAllBytes. assert (a_file a = Some (mkFH p (header_size c) (lenN c) false)) as -> by (rewrite Ea; reflexivity). cbn [ptr bind fh_path].
    destruct (f (w_loc w p)) as [x|]; [|fin]. destruct (w_read w p); [|fin]. rewrite first_mod. fin.
  Qed.
  Lemma sim_verify w s f pw t a : rel s a -> world_ok bd H w -> t < 2 ^ 64 -> follows w s f (OVerify pw t) (step w a f (OVerify pw t)).
  Proof.
    intros R (Wb & WH & WR & We) Lt. cbn [step]. rewrite (rel_state _ _ R). destruct s; cbn [state_of]; try (apply refused; [exact R|reflexivity]); right; unfold agrees; cbn [act].
    pose proof R as R0. cbn [rel] in R. destruct R as (Ep & Hd & L1 & L2 & Ea). destruct (check_password H HH w _ h pw t WH We Lt Hd) as [A B].
    unfold verifyPassword. assert (a_dh a = Some (decoded (lenN c) h)) as -> by (rewrite Ea; reflexivity). cbn [ptr bind]. rewrite WH.
    change iters_of with iterations in *.
    destruct (verify_timely w t (iterations (h_ch1 h)) (iterations (h_ch2 h))) eqn:T; cbn [negb].
    - apply verify_timely_iff in T. destruct (B T) as [B1 B2]. destruct (unlocked H h pw) eqn:U.
      + apply unlocked_iff in U. destruct (B1 U) as (k & -> & Bk). cbn. split; [apply same_refl|]. split; [reflexivity|]. spl; try assumption. exists k. split; [split; assumption|]. rewrite Ea. reflexivity.
      + assert (~ opens H h pw) as U' by (rewrite <- unlocked_iff; congruence). rewrite (B2 U'). fin.
    - assert (~ verify_in_time w t (iterations (h_ch1 h)) (iterations (h_ch2 h))) as T' by (rewrite <- verify_timely_iff; congruence). rewrite (A T'). fin.
  Qed.
  Lemma new_ref w ds pw t : world_ok bd H w -> settings_made ds -> t < 2 ^ 64 -> all_set ds = true ->
    match new_header w ds pw t with
    | Gives h => exists d k, createHeaderIters w 1 pw ds t = dret (d, k) /\ holds d h /\ keyed H h pw k
    | Rejects e => createHeaderIters w 1 pw ds t = dfail e
    | Dies _ => False
    end.
  Proof.
    intros (Wb & WH & WR & We) Sm Lt C. rewrite all_set_complete in C. destruct (create_header H HH w pw ds t WH WR We Lt Sm C) as (it1 & it2 & N1 & N2 & A & B).
    unfold new_header. rewrite N1, N2. cbn [value]. destruct (create_timely w t it1 it2) eqn:T; cbn [negb].
    - apply create_timely_iff in T. destruct (B T) as [B1 B2]. destruct (N.leb_spec (lenN (s_dec ds)) 255) as [X|X]; cbn [andb]; [|apply B1; lia].
      destruct (N.leb_spec (lenN (s_enc ds)) 255) as [Y|Y]; [|apply B1; lia]. destruct (B2 X Y) as (d & k & h & E & Hd & _ & Cr & Bk).
      rewrite <- (created_made H w ds pw h WH Cr). exists d, k. split; [exact E|]. split; [exact Hd|]. split; [apply Cr|exact Bk].
    - apply A. rewrite <- create_timely_iff. congruence.
  Qed.
  Lemma sim_header w s f pw ds t a : rel s a -> world_ok bd H w -> settings_made ds -> t < 2 ^ 64 -> follows w s f (OHeader pw ds t) (step w a f (OHeader pw ds t)).
  Proof.
    intros R W Sm Lt. cbn [step]. rewrite <- all_set_complete. destruct (all_set ds) eqn:C; cbn [negb]; [|apply refused; [exact R|cbn [act]; rewrite C; reflexivity]].
    rewrite (rel_state _ _ R), (rel_mode _ _ R). destruct s; cbn [state_of]; try (apply refused; [exact R|cbn [act]; rewrite C; reflexivity]); right; unfold agrees; cbn [act]; rewrite C; cbn [negb];
      pose proof (new_ref w ds pw t W Sm Lt C) as Q; destruct (new_header w ds pw t) as [h'|e|c0]; cbn [settle]; try contradiction.
    - destruct Q as (x & k & -> & Hd & [K1 K2]). cbn [headerEmpty bind noexcept dret]. split; [apply same_refl|]. split; [reflexivity|]. cbn [rel] in *. destruct R as [Ep ->]. split; [exact Ep|].
      exists (copyBytes k), x, (mkFH p 0 0 true). spl; try assumption; try reflexivity. split; [exact K1|]. destruct k; exact K2.
    - rewrite Q. fin.
    - destruct Q as (x & k & -> & Hd & [K1 K2]). cbn [headerDecrypted bind noexcept dret]. split; [apply same_refl|]. split; [reflexivity|]. cbn [rel] in *.
      destruct R as (Ep & k0 & d0 & fh & _ & _ & Pf & ->). split; [exact Ep|]. exists (copyBytes k), x, fh. spl; try assumption; try reflexivity. split; [exact K1|]. destruct k; exact K2.
    - rewrite Q. fin.
  Qed.
  Lemma sim_time w s f pw ds a : rel s a -> follows w s f (OHeaderTime pw ds) (step w a f (OHeaderTime pw ds)).
  Proof.
    intros R. cbn [step]. rewrite <- all_set_complete. destruct (all_set ds) eqn:C; cbn [negb]; [|apply refused; [exact R|cbn [act]; rewrite C; reflexivity]].
    rewrite (rel_state _ _ R). destruct s; cbn [state_of]; try (apply refused; [exact R|cbn [act]; rewrite C; reflexivity]); right; unfold agrees; cbn [act]; rewrite C; fin.
  Qed.
  Lemma sim_salt w s f a : rel s a -> world_ok bd H w -> follows w s f OSalt (step w a f OSalt).
  Proof.
    intros R (Wb & WH & WR & We). cbn [step]. rewrite (rel_state _ _ R). destruct s; cbn [state_of]; try (apply refused; [exact R|reflexivity]); right; unfold agrees; cbn [act].
    cbn [rel] in R. destruct R as (Ep & k & d & fh & [K1 K2] & Hd & Pf & ->). destruct (new_salt w d h WR Hd) as (d' & Es' & _ & _ & Hd').
    unfold changeSalt. cbn [a_dh ptr bind]. pose proof (holds_parts d h Hd) as P. rewrite P in Es' |- *. cbn [bind] in Es' |- *.
    destruct (p_getSalt (d_parts d)) as [s| | |]; cbn [bind] in Es' |- *; try discriminate.
    destruct (newBytes (Z.of_N (getLen s))) as [b| | |]; cbn [bind] in Es' |- *; try discriminate.
    destruct (fillrandom (w_rnd w 0) b) as [b'| | |]; cbn [bind] in Es' |- *; try discriminate.
      destruct (p_setSalt b' (d_parts d)) as [p'| | |]; cbn [bind] in Es' |- *; try discriminate.
    rewrite Es'. cbn. split; [apply same_refl|]. split; [reflexivity|]. split; [exact Ep|]. exists k, d', fh. spl; try assumption; try reflexivity. split; [exact K1|exact K2].
  Qed.
  Lemma sim_get w s f a : rel s a -> follows w s f OGetData (step w a f OGetData).
  Proof.
    intros R. cbn [step]. rewrite (rel_state _ _ R). destruct s; cbn [state_of]; try (apply refused; [exact R|reflexivity]); right; unfold agrees; cbn [act].
    cbn [rel] in R. destruct R as (Ep & k & d & fh & K & Hd & Pf & ->). unfold getFileData. destruct fetch; cbn; (split; [apply same_refl|]; split; [reflexivity|]; split; [exact Ep|];
      exists k, d, fh; spl; try assumption; try reflexivity).
  Qed.
  Lemma sim_logout w s f a : rel s a -> follows w s f OLogout (step w a f OLogout) /\ forall m, follows w s f (OLogoutMode m) (step w a f (OLogoutMode m)).
  Proof.
    intros R. assert (forall o, act w s f o = (f, Done Idle Void) -> follows w s f o (f, Ret (fresh (a_mode a), RVoid))) as Q.
    { intros o E. right. unfold agrees. rewrite E. rewrite (rel_mode _ _ R). spl; try reflexivity; apply same_refl. }
    split; [|intros m]; apply Q; destruct s; reflexivity.
  Qed.
  Lemma sim_decrypt w s f a : rel s a -> world_ok bd H w -> follows w s f ODecrypt (step w a f ODecrypt).
  Proof.
    intros R (Wb & WH & WR & We). cbn [step]. rewrite (rel_state _ _ R). destruct s; cbn [state_of]; try (apply refused; [exact R|reflexivity]).
    pose proof R as R0. cbn [rel] in R. destruct R as (Ep & Hd & L1 & L2 & k & [K1 K2] & Ea).
    destruct (crypt_body H HH w _ h pw k WH Hd K2) as (hf & sa & Hhf & Ef & Es & Lk & Lsa & Bs & _ & Eb).
    unfold getDecryptedData. rewrite (Eb a (mkFH p (header_size c) (lenN c) false) f) by (rewrite Ea; reflexivity).
    unfold fh_dataSize. cbn [fh_fsize fh_hsize]. rewrite (sub64_le _ _ L1 L2). unfold fh_dataStream, stream_of. cbn [fh_hsize fh_path].
    set (n := lenN c - header_size c).
    set (st := dropN (header_size c) _).
    assert (st = match f (w_loc w p) with Some x => if w_read w p then dropN (header_size c) x else [] | None => [] end) as Est.
    { subst st. destruct (w_read w p), (f (w_loc w p)); try reflexivity; unfold dropN; destruct (N.to_nat (header_size c)); reflexivity. }
    assert (n < two64) as Ln by (subst n; lia).
    assert (forall e, e <> PointerThrown -> any_std ERR e = Some ERR) as An by (intros e Ne; destruct e; try reflexivity; contradiction).
    assert (act w (Verified p c h pw) f ODecrypt = if (n <=? lenN st) && (n <? limit) then (f, Done (Open p h pw false) (Data 1 (plain_of H h pw (takeN n st))))
          else if forever n && (n mod 4294967296 <=? lenN st) then (f, Hangs) else (f, Done (Verified p c h pw) (Err ERR))) as EA.
    { cbn [act]. rewrite WH. fold n. rewrite <- Est. reflexivity. }
    assert (forall r, out n (w_fuel w) r (throws r) -> act w (Verified p c h pw) f ODecrypt = (f, Done (Verified p c h pw) (Err ERR)) ->
      follows w (Verified p c h pw) f ODecrypt (f, noexcept (r <- try_ (any_std ERR) r ;; match r with inl c => Ret (a, failed c) | inr res => Ret (mkApi DECRYPTED (a_mode a) None (a_key a) (a_enc a) (a_dh a) (a_file a), RData (mkFD (Some (a_mode a)) (Some res))) end))) as Bad.
    { intros r [[-> Fu]|(e & -> & Ne)] E.
      - left. split; [reflexivity|exact Fu].
      - unfold try_. rewrite (An e Ne). right. unfold agrees. rewrite E. cbn [bind noexcept dfail]. fin. }
    destruct (N.leb_spec n (lenN st)) as [L3|L3]; destruct (N.ltb_spec n limit) as [L4|L4]; cbn [andb] in EA.
    - destruct (stream_small hf Hhf Dec k sa Lk Lsa (w_fuel w) st n L4 L3) as [[-> Fu]|(r & -> & Br)].
      { left. split; [reflexivity|exact Fu]. }
      right. unfold agrees. rewrite EA. cbn [try_ bind dret noexcept]. rewrite Ea. cbn [a_mode a_key a_enc a_dh a_file seen].
      split; [apply same_refl|]. split.
      + rewrite Br. cbn [spec_k]. rewrite Ef, Es, K2, Bs. reflexivity.
      + cbn [rel]. split; [exact Ep|]. exists k, (decoded (lenN c) h), (mkFH p (header_size c) (lenN c) false). spl; try reflexivity; try assumption. split; assumption.
    - destruct (forever n) eqn:Fo; cbn [andb] in EA.
      + assert (n mod 4294967296 <= lenN st) as L5. { assert (n mod 4294967296 <= n) by (apply N.mod_le; discriminate). lia. }
        destruct (N.leb_spec (n mod 4294967296) (lenN st)) as [_|X]; [|lia].
        rewrite (stream_forever hf Hhf Dec k sa Lk Lsa (w_fuel w) st n Ln Fo L5). right. unfold agrees. rewrite EA. fin.
      + apply Bad; [|exact EA]. rewrite (stream_refused hf Hhf Dec k sa Lk Lsa (w_fuel w) st n Ln L4 Fo).
        destruct (Nat.eqb_spec (w_fuel w) 0) as [Z|Z]; [left; split; [reflexivity|lia]|right]. exists InvalidArgument. split; [reflexivity|discriminate].
    - assert (forever n = false) as Fo by (unfold forever; destruct (N.leb_spec 4294967296 n); [unfold limit in L4; lia|reflexivity]). rewrite Fo in EA. cbn [andb] in EA.
      apply Bad; [|exact EA]. apply stream_short; assumption.
    - destruct (forever n) eqn:Fo; cbn [andb] in EA.
      + destruct (N.leb_spec (n mod 4294967296) (lenN st)) as [L5|L5].
        * rewrite (stream_forever hf Hhf Dec k sa Lk Lsa (w_fuel w) st n Ln Fo L5). right. unfold agrees. rewrite EA. fin.
        * apply Bad; [|exact EA]. apply (stream_big_short hf Hhf Dec k sa Lk Lsa (w_fuel w) st n Ln Fo L5).
      + apply Bad; [|exact EA]. rewrite (stream_refused hf Hhf Dec k sa Lk Lsa (w_fuel w) st n Ln L4 Fo).
        destruct (Nat.eqb_spec (w_fuel w) 0) as [Z|Z]; [left; split; [reflexivity|lia]|right]. exists InvalidArgument. split; [reflexivity|discriminate].
  Qed.
  Lemma sim_encrypt w s f x a : rel s a -> world_ok bd H w -> op_ok (OEncrypt x) -> follows w s f (OEncrypt x) (step w a f (OEncrypt x)).
  Proof.
    intros R (Wb & WH & WR & We) Ho. cbn [step]. rewrite (rel_state _ _ R). destruct s; cbn [state_of]; try (apply refused; [exact R|reflexivity]).
    pose proof R as R0. cbn [rel] in R. destruct R as (Ep & k & d & fh & [K1 K2] & Hd & Pf & Ea).
    unfold encryptData. destruct x as [[m dt]|]; cbn [ptr bind fd_mode fd_data]; [|right; unfold agrees; cbn [act]; fin].
    destruct m as [m|]; [|apply refused; [exact R0|reflexivity]]. rewrite (rel_mode _ _ R0).
    destruct (N.eqb_spec m 1) as [->|Nm]; cbn [negb].
    2: { apply refused; [exact R0|]. cbn [act]. destruct (N.eqb_spec m 1); [contradiction|]. reflexivity. }
    destruct dt as [dt|]; cbn [ptr bind]; [|right; unfold agrees; cbn [act]; fin]. specialize (Ho dt eq_refl).
    rewrite Ea. cbn [a_dh a_key a_file a_state a_fdata a_enc ptr bind].
    assert (act w (Open p h pw fetch) f (OEncrypt (Some (mkFD (Some 1) (Some dt)))) =
      if getLen dt <? limit then (f, Done (Sealed p h pw (bdata dt)) Ok) else if forever (getLen dt) then (f, Hangs) else (f, Done (Open p h pw fetch) (Err ERR))) as EA by reflexivity.
    assert (rounds (Open p h pw fetch) (OEncrypt (Some (mkFD (Some 1) (Some dt)))) = (N.to_nat (getLen dt) + 2)%nat) as ER by reflexivity.
    destruct (set_data_size d h (getLen dt) Hd) as (d1 & -> & Hd1 & F1 & B1). cbn [try_ dret bind].
    destruct (calc_plain_bytes d1 h (w_hashes w) (w_clk1 w) Hd1 _ F1) as [Cl Cg].
    pose proof (hdr_len_small h (holds_ok _ _ Hd)) as Lsm.
    assert (forall d', holds d' h -> rel (Open p h pw fetch) (mkApi DECRYPTED 1 (fdata_of fetch) k None (Some d') (Some fh))) as Keep.
    { intros d' Hd'. cbn [rel]. split; [exact Ep|]. exists k, d', fh. spl; try assumption; try reflexivity. split; assumption. }
    destruct (N.ltb_spec (w32 (w32 (getLen dt) + hdr_len h)) (hdr_len h)) as [L|L].
    { rewrite (Cl L). right. unfold agrees. rewrite EA. unfold w32, two32 in L.
      destruct (N.ltb_spec (getLen dt) limit) as [X|X]; [exfalso; unfold limit in X; rewrite (N.mod_small (getLen dt)), N.mod_small in L by lia; lia|].
      destruct (forever (getLen dt)) eqn:Fo.
      - exfalso. unfold forever in Fo. rewrite andb_true_iff, N.leb_le, N.ltb_lt in Fo. unfold limit in Fo. destruct Fo as [_ Fo]. set (q := getLen dt mod 4294967296) in *. rewrite N.mod_small in L by lia. lia.
      - cbn [try_ any_std bind dfail noexcept]. split; [apply same_refl|]. split; [apply seen_failed|]. apply Keep. exact Hd1. }
    rewrite (Cg L). set (d2 := with_bytes _ d1). assert (holds d2 h) as Hd2 by (apply holds_bytes; exact Hd1).
    destruct (crypt_body H HH w d2 h pw k WH Hd2 K2) as (hf & sa & Hhf & Ef & Esz & Lk & Lsa & Bs & Eb & _). cbn [bind]. rewrite Eb.
    destruct (N.ltb_spec (getLen dt) limit) as [L4|L4].
    - destruct (data_small hf Hhf Enc k sa Lk Lsa (w_fuel w) dt L4) as [[-> Fu]|(r & -> & Br)].
      { left. split; [reflexivity|rewrite ER; exact Fu]. }
      right. unfold agrees. rewrite EA. cbn [try_ bind dret noexcept]. split; [apply same_refl|]. split; [reflexivity|]. cbn [rel]. split; [exact Ep|]. split; [exact L4|].
      exists k, d2, fh, r. spl; try reflexivity; try assumption.
      + assert (w32 (w32 (getLen dt) + hdr_len h) = hdr_len h + lenN (bdata dt)) as Eq.
        { unfold w32, two32. unfold limit, getLen in *. rewrite (N.mod_small (lenN (bdata dt))), N.mod_small by lia. lia. }
        split; [exact Hd2|]. split; [rewrite <- Eq; exact F1|]. subst d2. unfold with_bytes. cbn [d_bytes]. rewrite Eq. reflexivity.
      + rewrite Br. cbn [spec_k]. rewrite Ef, Esz, K2, Bs. reflexivity.
    - destruct (forever (getLen dt)) eqn:Fo.
      + rewrite (data_forever hf Hhf Enc k sa Lk Lsa (w_fuel w) dt Ho Fo). right. unfold agrees. rewrite EA. fin.
      + rewrite (data_refused hf Hhf Enc k sa Lk Lsa (w_fuel w) dt Ho L4 Fo). destruct (Nat.eqb_spec (w_fuel w) 0) as [Z|Z].
        * left. split; [reflexivity|rewrite ER; lia].
        * right. unfold agrees. rewrite EA. cbn [try_ any_std bind dfail noexcept]. split; [apply same_refl|]. split; [apply seen_failed|]. apply Keep. exact Hd2.
  Qed.
  Lemma saved_same w f p h pw data e : w_hashes w = H -> bdata e = cipher_of H h pw data ->
    same (write_stream w (upd f (w_loc w p) (Some [])) p (ser (hdr_len h + lenN data) h ++ bdata e)) (saved w f p h pw data).
  Proof.
    intros WH B l. unfold write_stream, saved, content, upd. rewrite WH, B. destruct (N.eqb_spec l (w_loc w p)) as [->|Ne]; reflexivity.
  Qed.
  Lemma sim_write w s f a : rel s a -> world_ok bd H w -> follows w s f OWrite (step w a f OWrite).
  Proof.
    intros R (Wb & WH & WR & We). cbn [step]. rewrite (rel_state _ _ R). destruct s; cbn [state_of]; try (apply refused; [exact R|reflexivity]). right. unfold agrees. cbn [act].
    pose proof R as R0. cbn [rel] in R. destruct R as (Ep & L & k & d & fh & e & Rd & Pf & Be & Ea).
    assert (getLen e = lenN data) as Le by (unfold getLen; rewrite Be; apply (cipher_len H HH); apply (holds_ok d), Rd).
    unfold writeToFile. rewrite Ea. cbn [a_file]. unfold fh_getWriteStream. rewrite Pf, valid_ref.
    assert (forall fh', fh_path fh' = p -> rel (Sealed p h pw data) (mkApi ENCRYPTED 1 (Some (mkFD (Some 1) None)) k (Some e) (Some d) (Some fh'))) as Keep.
    { intros fh' P'. cbn [rel]. split; [exact Ep|]. split; [exact L|]. exists k, d, fh', e. auto. }
    destruct (opened w f p) as [x|er|c] eqn:O; cbn [ansd settle dret dfail].
    - unfold dret at 1. destruct (w_write w p); unfold dret, dfail.
      + unfold finishWrite. edestruct full_data as (t & -> & Bt); [reflexivity|reflexivity|exact Rd|exact Le|exact L|]. cbn [noexcept]. rewrite Bt.
        split; [apply saved_same; assumption|]. split; [reflexivity|]. split; reflexivity.
      + split; [apply same_refl|]. split; [apply seen_failed|]. apply Keep. reflexivity.
    - unfold dfail. split; [apply same_refl|]. split; [apply seen_failed|]. apply Keep. reflexivity.
    - fin.
  Qed.
  Lemma sim_write_to w s f q a : rel s a -> world_ok bd H w -> fs_ok f -> follows w s f (OWriteTo q) (step w a f (OWriteTo q)).
  Proof.
    intros R (Wb & WH & WR & We) Hf. cbn [step]. rewrite (rel_state _ _ R). destruct s; cbn [state_of]; try (apply refused; [exact R|reflexivity]). right. unfold agrees. cbn [act].
    pose proof R as R0. cbn [rel] in R. destruct R as (Ep & L & k & d & fh & e & Rd & Pf & Be & Ea).
    assert (getLen e = lenN data) as Le by (unfold getLen; rewrite Be; apply (cipher_len H HH); apply (holds_ok d), Rd).
    unfold writeToPath. rewrite (handler_ref w f q Hf). destruct (opened_sized w f q) as [c|er|c] eqn:O; cbn [ansd settle]; unfold dret, dfail; try fin.
    unfold to_fh. destruct (N.eqb_spec (lenN c) 0) as [Z|Z]; cbn [negb].
    - unfold fh_getWriteStreamIfEmpty, fh_getWriteStream. cbn [fh_empty fh_path negb]. rewrite valid_ref.
      unfold opened_sized in O. destruct (opened w f q) as [x|er|cr]; cbn [also] in O; try discriminate. cbn [ansd]. unfold dret at 1. destruct (w_write w q); unfold dret, dfail; [|fin].
      unfold finishWrite. destruct (full_data a d e h (lenN data)) as (t & -> & Bt); try assumption; try (rewrite Ea; reflexivity). cbn [noexcept]. rewrite Bt, Ea.
      split; [apply saved_same; assumption|]. split; [reflexivity|]. split; reflexivity.
    - fin.
  Qed.

  Lemma sim_step w s f o a : rel s a -> world_ok bd H w -> fs_ok f -> op_ok o -> follows w s f o (step w a f o).
  Proof.
    intros R W Hf Ho. destruct o.
    - apply sim_list; assumption.
    - apply sim_create; assumption.
    - apply sim_select; assumption.
    - apply sim_empty; assumption.
    - apply sim_unselect; assumption.
    - apply sim_delete; assumption.
    - apply sim_content; assumption.
    - apply sim_verify; assumption.
    - destruct Ho. apply sim_header; assumption.
    - apply sim_time; assumption.
    - apply sim_salt; assumption.
    - apply sim_decrypt; assumption.
    - apply sim_get; assumption.
    - apply sim_encrypt; assumption.
    - apply sim_write; assumption.
    - apply sim_write_to; assumption.
    - apply sim_logout; assumption.
    - apply sim_logout; assumption.
  Qed.
  (** ** histories *)
  Lemma agrees_matches w s f o r : agrees w s f o r -> matches w s f o r.
  Proof.
    unfold agrees, matches. destruct (act w s f o) as [g [s' x|c|]], r as [f' [[a' y]| | |]]; try tauto.
  Qed.
  Lemma sim_history mode tr a : history bd H mode tr a -> exists s, follow tr = Some s /\ rel s a /\ answered tr.
  Proof.
    induction 1 as [a E|tr a w f o f' a' r Hh IH W Hf Ho E].
    - exists Idle. unfold newAPI in E. destruct (file_mode_valid mode) eqn:V; [|discriminate]. injection E as <-. cbn. spl; try exact I; try reflexivity.
      cbn [rel]. f_equal. unfold file_mode_valid in V. rewrite andb_true_iff, !N.leb_le in V. lia.
    - destruct IH as (s & Fs & R & An). pose proof (sim_step w s f o a R W Hf Ho) as [[X _]|X]; [congruence|]. rewrite E in X. unfold agrees in X.
      destruct (act w s f o) as [g [s' x|c|]] eqn:EA; try contradiction. destruct X as (X1 & X2 & X3). exists s'. cbn [follow answered e_world e_before e_op e_reply e_after].
      rewrite Fs, EA. spl; try assumption; try reflexivity. exists s, g, s', x. auto.
  Qed.
  Lemma machine mode tr a w f o : history bd H mode tr a -> world_ok bd H w -> fs_ok f -> op_ok o ->
    answered tr /\ exists s, follow tr = Some s /\
      (matches w s f o (step w a f o) \/ step w a f o = (f, OutOfFuel) /\ (w_fuel w < rounds s o)%nat).
  Proof.
    intros Hh W Hf Ho. destruct (sim_history _ _ _ Hh) as (s & Fs & R & An). split; [exact An|]. exists s. split; [exact Fs|].
    destruct (sim_step w s f o a R W Hf Ho) as [X|X]; [right; exact X|left; apply agrees_matches, X].
  Qed.
End Sim.
