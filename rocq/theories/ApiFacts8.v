(** Lemmas for the properties of the API: whole sessions. *)
From Coq Require Import Strings.Byte.
From Verif Require Import Base BaseFacts BytesModel BytesFacts MiscModel MiscFacts CipherModel CipherSpec CipherFacts CipherFacts2 PwModel PwSpec PwFacts ChModel ChSpec ChFacts ChFacts2
  HeaderModel HeaderSpec HeaderFacts HeaderFacts2 HeaderFacts3 HeaderFacts4 HeaderFacts5 HeaderFacts8 HeaderFacts9 FileModel ApiModel ApiSpec FileFacts FileFacts2 ApiFacts ApiFacts2 ApiFacts3 ApiFacts4 ApiFacts5 ApiFacts6 ApiFacts7.

Section Api8.
  Variable H : hashes.
  Hypothesis HH : hashes_ok H.
  Variable bd : build.
  Notation hand := (at_hand bd H).

  Definition empty_obj (p : bytes) : api := mkApi EMPTY_FILE_SELECTED 1 None void None None (Some (mkFH p 0 0 true)).
  Lemma create_select w1 w2 p l f : hand w1 p l -> hand w2 p l -> enc_path p -> w_create w1 p = true -> f l = None ->
    calls [(w1, OCreate p); (w2, OSelect p)] (fresh 1) f = Some ([ROk; ROk], empty_obj p, upd f l (Some [])).
  Proof.
    intros (_ & (S1 & _ & _) & E1) (_ & (S2 & R2 & _) & E2) Ep C Fl.
    eapply calls_cons.
    - cbn [step a_state fresh]. unfold fh_createFile. destruct (valid_path_cases w1 f p false) as [[-> _]|[(_ & N & _)|[(_ & N & _)|(_ & _ & V)]]].
      + apply enc_path_nonempty in Ep. discriminate Ep.
      + contradiction.
      + congruence.
      + rewrite V, E1, Fl. cbn [dret]. rewrite C. reflexivity.
    - eapply calls_cons; [|reflexivity]. cbn [step a_state fresh]. unfold selectFile. rewrite handler_empty; [reflexivity|]. unfold openable. rewrite E2, upd_same. auto.
  Qed.
  Lemma made_header w ds pw t it1 it2 : world_ok bd H w -> settings_readable ds -> t < 2 ^ 64 -> s_n1 ds = Some it1 -> s_n2 ds = Some it2 -> create_in_time w t it1 it2 ->
    exists d k h, createHeaderIters w 1 pw ds t = dret (d, k) /\ holds d h /\ created H w ds pw h /\ keyed H h pw (copyBytes k) /\ no_empty_block h /\
      iterations (h_ch1 h) = it1 /\ iterations (h_ch2 h) = it2.
  Proof.
    intros (Wb & WH & WR & We) (Sm & Sc & L1 & L2 & Ne) Lt N1 N2 T. apply complete_iff in Sc.
    destruct (create_header H HH w pw ds t WH WR We Lt Sm Sc) as (i1 & i2 & M1 & M2 & _ & B). assert (i1 = it1) by congruence. assert (i2 = it2) by congruence. subst i1 i2.
    destruct (B T) as [_ B2]. destruct (B2 L1 L2) as (d & k & h & E & Hd & _ & Hc & Bk). exists d, k, h. pose proof Hc as (_ & _ & (m1 & n1 & _ & X1 & Y1) & (m2 & n2 & _ & X2 & Y2) & _ & Hb & _ & O). spl; try assumption.
    - split; [exact O|exact Bk].
    - unfold no_empty_block. rewrite Hb. apply Forall_map. exact Ne.
    - rewrite Y1. unfold iterations. cbn. congruence.
    - rewrite Y2. unfold iterations. cbn. congruence.
  Qed.
  Lemma header_empty w p ds pw t it1 it2 f : world_ok bd H w -> settings_readable ds -> t < 2 ^ 64 -> s_n1 ds = Some it1 -> s_n2 ds = Some it2 -> create_in_time w t it1 it2 ->
    exists a h, step w (empty_obj p) f (OHeader pw ds t) = (f, Ret (a, ROk)) /\ dec_obj H a p h pw /\ created H w ds pw h /\ no_empty_block h /\ iterations (h_ch1 h) = it1 /\ iterations (h_ch2 h) = it2.
  Proof.
    intros W S Lt N1 N2 T. destruct (made_header w ds pw t it1 it2 W S Lt N1 N2 T) as (d & k & h & E & Hd & Hc & Hk & Ne & I1 & I2). destruct S as (_ & Sc & _). apply complete_iff in Sc.
    cbn [step]. rewrite Sc. cbn [negb a_state empty_obj a_mode]. rewrite E. eexists _, h. split; [reflexivity|]. spl; try assumption. do 4 eexists. split; [reflexivity|]. spl; try assumption. reflexivity.
  Qed.
  Lemma header_dec w a p h0 pw0 ds pw t it1 it2 f : dec_obj H a p h0 pw0 -> world_ok bd H w -> settings_readable ds -> t < 2 ^ 64 -> s_n1 ds = Some it1 -> s_n2 ds = Some it2 -> create_in_time w t it1 it2 ->
    exists a' h, step w a f (OHeader pw ds t) = (f, Ret (a', ROk)) /\ dec_obj H a' p h pw /\ created H w ds pw h /\ no_empty_block h /\ iterations (h_ch1 h) = it1 /\ iterations (h_ch2 h) = it2.
  Proof.
    intros (fd & k0 & d0 & fh & -> & _ & _ & Ep) W S Lt N1 N2 T. destruct (made_header w ds pw t it1 it2 W S Lt N1 N2 T) as (d & k & h & E & Hd & Hc & Hk & Ne & I1 & I2). destruct S as (_ & Sc & _). apply complete_iff in Sc.
    cbn [step]. rewrite Sc. cbn [negb a_state a_mode]. rewrite E. eexists _, h. split; [reflexivity|]. spl; try assumption. do 4 eexists. split; [reflexivity|]. spl; try assumption.
  Qed.
  Lemma opens_salt s h pw : opens H (with_salt s h) pw <-> opens H h pw.
  Proof. reflexivity. Qed.
  Lemma salt_dec w a p h pw f : dec_obj H a p h pw -> world_ok bd H w ->
    exists a', step w a f OSalt = (f, Ret (a', ROk)) /\ dec_obj H a' p (with_salt (w_rnd w 0 (digest_len (h_hmode h))) h) pw.
  Proof.
    intros (fd & k0 & d0 & fh & -> & Hd & [K1 K2] & Ep) (_ & _ & WR & _). cbn [step a_state].
    unfold changeSalt. cbn [a_dh ptr bind]. destruct (new_salt w d0 h WR Hd) as (d' & Es' & _ & _ & Hd').
    pose proof (holds_parts d0 h Hd) as P. rewrite P in Es'. rewrite P. cbn [bind] in *.
    destruct (p_getSalt (d_parts d0)) as [s| | |]; cbn [bind] in *; try discriminate.
    destruct (newBytes (Z.of_N (getLen s))) as [b| | |]; cbn [bind] in *; try discriminate.
    destruct (fillrandom (w_rnd w 0) b) as [b'| | |]; cbn [bind] in *; try discriminate.
      destruct (p_setSalt b' (d_parts d0)) as [p'| | |]; cbn [bind] in *; try discriminate.
    rewrite Es'. cbn. eexists. split; [reflexivity|]. exists fd, k0, d', fh. spl; try assumption; try reflexivity. split; assumption.
  Qed.
  Lemma logout_calls w a f l xs a2 f2 : a_mode a = 1 -> calls l (fresh 1) f = Some (xs, a2, f2) -> calls ((w, OLogout) :: l) a f = Some (RVoid :: xs, a2, f2).
  Proof. intros Em E. eapply calls_cons; [cbn [step]; rewrite Em; reflexivity|exact E]. Qed.

  (** encrypt, write, and open again with the same password *)
  Lemma write_reopen ws a p l f h pw data c0 t : dec_obj H a p h pw -> (forall i, hand (ws i) p l) -> enc_path p -> f l = Some c0 -> no_empty_block h ->
    getLen data < 2 ^ 31 -> patient (ws 0%nat) (getLen data) -> hdr_len h + getLen data <= w_room (ws 1%nat) ->
    t < 2 ^ 64 -> verify_in_time (ws 4%nat) t (iterations (h_ch1 h)) (iterations (h_ch2 h)) -> patient (ws 5%nat) (getLen data) ->
    exists b c a' f', calls [(ws 0%nat, OEncrypt (text data)); (ws 1%nat, OWrite); (ws 2%nat, OLogout); (ws 3%nat, OSelect p); (ws 4%nat, OVerify pw t); (ws 5%nat, ODecrypt)] a f =
        Some ([ROk; ROk; RVoid; ROk; ROk; RData (mkFD (Some 1) (Some b))], a', f') /\
      bdata b = bdata data /\ f' l = Some c /\ sealed H h pw (bdata data) c /\ (forall l', l' <> l -> f' l' = f l').
  Proof.
    intros D A Ep Fl Ne L P1 R Lt T P2. destruct (encrypt_write H HH bd ws a p l f h pw data c0 D A Ep Fl L P1) as (a1 & f1 & E1 & _ & Em & Fo & c & Sc & Fc).
    rewrite (room_all H HH _ _ _ _ _ Sc R) in Fc.
    destruct (reopen H HH bd (fun i => ws (3 + i)%nat) p l f1 h pw (bdata data) c t) as (b & a2 & E2 & Bb & _); try assumption; [intros i; apply A|].
    exists b, c, a2, f1. spl; try assumption. eapply (calls_app _ _ _ _ _ _ [ROk; ROk] _ _ _ E1). apply logout_calls; [exact Em|]. exact E2.
  Qed.
  (** ** C36 *)
  Lemma round_trip ws p l f ds pw data t1 t2 it1 it2 : (forall i, hand (ws i) p l) -> enc_path p -> w_create (ws 0%nat) p = true -> f l = None ->
    settings_readable ds -> s_n1 ds = Some it1 -> s_n2 ds = Some it2 -> t1 < 2 ^ 64 -> create_in_time (ws 2%nat) t1 it1 it2 ->
    getLen data < 2 ^ 31 -> patient (ws 3%nat) (getLen data) -> (forall h, created H (ws 2%nat) ds pw h -> hdr_len h + getLen data <= w_room (ws 4%nat)) ->
    t2 < 2 ^ 64 -> verify_in_time (ws 7%nat) t2 it1 it2 -> patient (ws 8%nat) (getLen data) ->
    exists b h c a' f',
      calls [(ws 0%nat, OCreate p); (ws 1%nat, OSelect p); (ws 2%nat, OHeader pw ds t1); (ws 3%nat, OEncrypt (text data)); (ws 4%nat, OWrite);
             (ws 5%nat, OLogout); (ws 6%nat, OSelect p); (ws 7%nat, OVerify pw t2); (ws 8%nat, ODecrypt)] (fresh 1) f =
        Some ([ROk; ROk; ROk; ROk; ROk; RVoid; ROk; ROk; RData (mkFD (Some 1) (Some b))], a', f') /\
      bdata b = bdata data /\ created H (ws 2%nat) ds pw h /\ f' l = Some c /\ sealed H h pw (bdata data) c /\ (forall l', l' <> l -> f' l' = f l').
  Proof.
    intros A Ep C Fl S N1 N2 L1 T1 L P1 R L2 T2 P2. pose proof (create_select (ws 0%nat) (ws 1%nat) p l f (A _) (A _) Ep C Fl) as E1. set (f1 := upd f l (Some [])) in *.
    pose proof (A 2%nat) as (W2 & _). destruct (header_empty (ws 2%nat) p ds pw t1 it1 it2 f1 W2 S L1 N1 N2 T1) as (a2 & h & E2 & D & Hc & Ne & I1 & I2).
    destruct (write_reopen (fun i => ws (3 + i)%nat) a2 p l f1 h pw data [] t2 D) as (b & c & a3 & f3 & E3 & Bb & Fc & Sc & Fo); try assumption.
    - intros i. apply A.
    - apply upd_same.
    - apply R. exact Hc.
    - rewrite I1, I2. exact T2.
    - exists b, h, c, a3, f3. spl; try assumption.
      + eapply (calls_app [(ws 0%nat, OCreate p); (ws 1%nat, OSelect p)] _ _ _ _ _ [ROk; ROk] _ _ _ E1). eapply calls_cons; [exact E2|exact E3].
      + intros l' Nl. rewrite Fo by exact Nl. apply upd_other. exact Nl.
  Qed.
  (** ** C42 *)
  Lemma rekey ws p l f h0 pw0 data c0 ds pw t0 t1 t2 it1 it2 : (forall i, hand (ws i) p l) -> enc_path p -> f l = Some c0 -> sealed H h0 pw0 data c0 -> no_empty_block h0 ->
    lenN data < 2 ^ 31 -> t0 < 2 ^ 64 -> verify_in_time (ws 1%nat) t0 (iterations (h_ch1 h0)) (iterations (h_ch2 h0)) -> patient (ws 2%nat) (lenN data) ->
    settings_readable ds -> s_n1 ds = Some it1 -> s_n2 ds = Some it2 -> t1 < 2 ^ 64 -> create_in_time (ws 3%nat) t1 it1 it2 ->
    patient (ws 4%nat) (lenN data) -> (forall h, created H (ws 3%nat) ds pw h -> hdr_len h + lenN data <= w_room (ws 5%nat)) ->
    t2 < 2 ^ 64 -> verify_in_time (ws 8%nat) t2 it1 it2 -> patient (ws 9%nat) (lenN data) ->
    exists x a1, calls [(ws 0%nat, OSelect p); (ws 1%nat, OVerify pw0 t0); (ws 2%nat, ODecrypt)] (fresh 1) f = Some ([ROk; ROk; RData (mkFD (Some 1) (Some x))], a1, f) /\ bdata x = data /\
    exists b h c a' f',
      calls [(ws 3%nat, OHeader pw ds t1); (ws 4%nat, OEncrypt (text x)); (ws 5%nat, OWrite); (ws 6%nat, OLogout); (ws 7%nat, OSelect p); (ws 8%nat, OVerify pw t2); (ws 9%nat, ODecrypt)] a1 f =
        Some ([ROk; ROk; ROk; RVoid; ROk; ROk; RData (mkFD (Some 1) (Some b))], a', f') /\
      bdata b = data /\ created H (ws 3%nat) ds pw h /\ f' l = Some c /\ sealed H h pw data c /\ (forall l', l' <> l -> f' l' = f l').
  Proof.
    intros A Ep Fl S0 Ne0 L L0 T0 P0 S N1 N2 L1 T1 P1 R L2 T2 P2.
    destruct (reopen H HH bd ws p l f h0 pw0 data c0 t0 A Ep Fl S0 Ne0 L L0 T0 P0) as (x & a1 & E0 & Bx & k & fh & Ea & K & Ef).
    exists x, a1. split; [exact E0|]. split; [exact Bx|].
    assert (dec_obj H a1 p h0 pw0) as D0.
    { do 4 eexists. split; [exact Ea|]. spl; try assumption. destruct (sealed_written H HH _ _ _ _ S0 Ne0 L) as (_ & _ & L63 & _ & Wr). split; [apply decoded_hinv|apply decoded_contents]; try apply S0. exact (lt63_two64 _ L63). }
    pose proof (A 3%nat) as (W3 & _). destruct (header_dec (ws 3%nat) a1 p h0 pw0 ds pw t1 it1 it2 f D0 W3 S L1 N1 N2 T1) as (a2 & h & E2 & D & Hc & Ne & I1 & I2).
    assert (getLen x = lenN data) as Lx by (unfold getLen; rewrite Bx; reflexivity).
    destruct (write_reopen (fun i => ws (4 + i)%nat) a2 p l f h pw x c0 t2 D) as (b & c & a3 & f3 & E3 & Bb & Fc & Sc & Fo); rewrite ?Lx; try assumption.
    - intros i. apply A.
    - apply R. exact Hc.
    - rewrite I1, I2. exact T2.
    - rewrite Bx in *. exists b, h, c, a3, f3. spl; try assumption. eapply calls_cons; [exact E2|exact E3].
  Qed.
  (** ** C41 *)
  Lemma resalt ws mode tr a p l c0 f h pw data t : history bd H mode tr a -> a_state a = DECRYPTED -> selected tr = Some (p, c0) -> password tr = Some pw -> current H tr h ->
    (forall i, hand (ws i) p l) -> exists a1, step (ws 0%nat) a f OSalt = (f, Ret (a1, ROk)) /\ a_state a1 = DECRYPTED /\ a_key a1 = a_key a /\
    (enc_path p -> f l <> None -> no_empty_block h -> getLen data < 2 ^ 31 -> patient (ws 1%nat) (getLen data) -> hdr_len h + getLen data <= w_room (ws 2%nat) ->
     t < 2 ^ 64 -> verify_in_time (ws 5%nat) t (iterations (h_ch1 h)) (iterations (h_ch2 h)) -> patient (ws 6%nat) (getLen data) ->
     exists b c a' f', calls [(ws 1%nat, OEncrypt (text data)); (ws 2%nat, OWrite); (ws 3%nat, OLogout); (ws 4%nat, OSelect p); (ws 5%nat, OVerify pw t); (ws 6%nat, ODecrypt)] a1 f =
         Some ([ROk; ROk; RVoid; ROk; ROk; RData (mkFD (Some 1) (Some b))], a', f') /\ bdata b = bdata data /\ f' l = Some c /\
       sealed H (with_salt (w_rnd (ws 0%nat) 0 (digest_len (h_hmode h))) h) pw (bdata data) c).
  Proof.
    intros Hh Es Q1 Q2 Q3 A. destruct (history_dec H HH bd _ _ _ Hh Es) as (p' & c' & h' & pw' & R1 & R2 & R3 & D).
    assert (p' = p) by congruence. assert (pw' = pw) by congruence. subst p' pw'. rewrite (current_unique H bd _ _ _ Hh _ _ R3 Q3) in *.
    pose proof (A 0%nat) as (W0 & _). destruct (salt_dec (ws 0%nat) a p h pw f D W0) as (a1 & E & D1). exists a1. split; [exact E|].
    split; [destruct D1 as (fd & k & d & fh & -> & _); reflexivity|]. split.
    { destruct D as (fd & k & d & fh & -> & _). cbn [step a_state] in E. unfold changeSalt in E. cbn [a_dh ptr bind] in E.
      destruct (getDataHeaderParts d) as [p1| | |]; cbn [bind] in E; try discriminate.
      destruct (p_getSalt p1) as [s| | |]; cbn [bind] in E; try discriminate. destruct (newBytes _) as [b| | |]; cbn [bind] in E; try discriminate.
      destruct (fillrandom _ _) as [bz| | |]; cbn [bind] in E; try discriminate E. destruct (p_setSalt _ _) as [p2| | |]; cbn [bind] in E; try discriminate. destruct (setHeaderParts _ _) as [[e|d']| | |]; cbn in E; try discriminate. injection E as <-. reflexivity. }
    intros Ep Fl Ne L P1 R Lt T P2. destruct (f l) as [c1|] eqn:Fc; [|contradiction].
    destruct (write_reopen (fun i => ws (1 + i)%nat) a1 p l f _ pw data c1 t D1) as (b & c & a3 & f3 & E3 & Bb & Fc3 & Sc & _); try assumption; [intros i; apply A|].
    exists b, c, a3, f3. auto.
  Qed.

  (** ** C38 *)
  Lemma torn h pw data c k : sealed H h pw data c -> lenN data < 2 ^ 31 -> 0 < k < lenN c -> forall hsz, ~ sizes_fit (takeN k c) hsz.
  Proof.
    intros (Hok & _ & ->) L K hsz (r & E & B). pose proof (hdr_len_small h Hok) as Ls. change (2 ^ 31) with 2147483648 in L.
    set (full := ser (hdr_len h + lenN data) h ++ cipher_of H h pw data) in *.
    assert (lenN full = hdr_len h + lenN data) as Lc by (unfold full; rewrite lenN_app, ser_len, (cipher_len H HH) by exact Hok; reflexivity).
    assert (lenN (takeN k full) = k) as Lk by (rewrite lenN_takeN; lia). rewrite Lk in *.
    assert (full = takeN k full ++ dropN k full) as Ef by (symmetry; apply takeN_dropN). rewrite E in Ef.
    assert (exists r', full = u64 (hdr_len h + lenN data) ++ r') as (r' & Er) by (unfold full, ser, layout_with; rewrite <- !app_assoc; eexists; reflexivity).
    assert (u64 (hdr_len h + lenN data) ++ r' = u64 k ++ ((u64 hsz ++ r) ++ dropN k full)) as X by (rewrite <- Er, Ef at 1; rewrite <- !app_assoc; reflexivity).
    apply u64_inj in X; [|unfold two64; lia|unfold two64; lia]. lia.
  Qed.
  Lemma torn_select w p l f h pw data c k : hand w p l -> enc_path p -> sealed H h pw data c -> lenN data < 2 ^ 31 -> f l = Some (takeN k c) ->
    (0 < k < lenN c -> step w (fresh 1) f (OSelect p) = (f, Ret (fresh 1, RErr FAIL ERR_FILEHANDLER_CREATION))) /\
    (k = 0 -> step w (fresh 1) f (OSelect p) = (f, Ret (empty_obj p, ROk))).
  Proof.
    intros (_ & (S2 & R2 & _) & E2) Ep Sc L Fl. assert (openable w f p (takeN k c)) as O by (unfold openable; rewrite E2; auto). split.
    - intros K. pose proof (torn _ _ _ _ _ Sc L K) as T. cbn [step a_state fresh]. unfold selectFile. pose proof Sc as (Hok & _ & Ec). pose proof (hdr_len_small h Hok) as Ls. change (2 ^ 31) with 2147483648 in L.
      assert (lenN c = hdr_len h + lenN data) as Lc by (rewrite Ec, lenN_app, ser_len, (cipher_len H HH) by exact Hok; reflexivity).
      assert (lenN (takeN k c) = k) as Lk by (rewrite lenN_takeN; lia).
      rewrite (handler_open _ _ _ _ O). destruct (update_spec p (takeN k c)) as [[X _]|[(h' & X & _)|(_ & _ & e & He & ->)]].
      + rewrite Lk. unfold two64. lia.
      + rewrite X in Lk. change (lenN (@nil byte)) with 0 in Lk. lia.
      + exfalso. exact (T _ X).
      + destruct He as [-> | ->]; reflexivity.
    - intros ->. rewrite takeN_0 in O. cbn [step a_state fresh]. unfold selectFile. rewrite (handler_empty _ _ _ O). reflexivity.
  Qed.

  (** ** C40 *)
  Lemma late_limit t e : t < e -> e < 2 ^ 64 -> (t + 2 ^ 64 - e) mod 2 ^ 64 = 2 ^ 64 - (e - t).
  Proof. intros L1 L2. replace (t + 2 ^ 64 - e) with (2 ^ 64 - (e - t)) by lia. apply N.mod_small. lia. Qed.
  Lemma late_verify mode tr a w f p c hsz l1 l2 h rest pw t : history bd H mode tr a -> world_ok bd H w -> a_state a = FILE_SELECTED ->
    selected tr = Some (p, c) -> written_as c hsz l1 l2 h rest -> opens H h pw ->
    t <> 0 -> t < w_elapsed w -> ~ reached (w_clk1 w) t (readings_string (iterations (h_ch1 h))) -> (forall i, w_clk2 w i < 2 ^ 64 - (w_elapsed w - t)) ->
    exists a', a_state a' = PASSWORD_VERIFIED /\ step w a f (OVerify pw t) = (f, Ret (a', ROk)).
  Proof.
    intros Hh W Es Q Wr O T0 T1 R1 R2. assert (w_elapsed w < 2 ^ 64) as Le by apply W.
    destruct (verify_outcome H HH bd mode tr a w f p c hsz l1 l2 h rest pw t Hh W ltac:(lia) Es Q Wr) as [A _].
    destruct A as [A _].
    - unfold verify_in_time. spl; [exact R1|lia|]. rewrite late_limit by assumption. intros (_ & k & _ & K). specialize (R2 k). lia.
    - destruct (A O) as (a' & E1 & _ & E2). exists a'. auto.
  Qed.
  (** a timeout of 0 means no timeout, but a limit is passed to the second chain hash once time has passed *)
  Lemma zero_limit mode tr a w f p c hsz l1 l2 h rest pw i : history bd H mode tr a -> world_ok bd H w -> a_state a = FILE_SELECTED ->
    selected tr = Some (p, c) -> written_as c hsz l1 l2 h rest -> 0 < w_elapsed w -> N.of_nat i < readings_bytes (iterations (h_ch2 h)) -> 2 ^ 64 - w_elapsed w <= w_clk2 w i ->
    step w a f (OVerify pw 0) = (f, Ret (a, RErr TIMEOUT ERR_TIMEOUT)).
  Proof.
    intros Hh W Es Q Wr T1 Li R2. assert (w_elapsed w < 2 ^ 64) as Le by apply W.
    destruct (verify_outcome H HH bd mode tr a w f p c hsz l1 l2 h rest pw 0 Hh W ltac:(lia) Es Q Wr) as [_ A]. apply A.
    unfold verify_in_time. rewrite late_limit by assumption. intros (_ & _ & X). apply X. split; [lia|]. exists i. split; [exact Li|lia].
  Qed.
  (** createDataHeader does keep its limit *)
  Lemma create_limit mode tr a w f pw ds t f' a' it1 it2 : history bd H mode tr a -> world_ok bd H w -> settings_made ds -> t < 2 ^ 64 -> s_n1 ds = Some it1 -> s_n2 ds = Some it2 ->
    step w a f (OHeader pw ds t) = (f', Ret (a', ROk)) -> create_in_time w t it1 it2.
  Proof.
    intros Hh (Wb & WH & WR & We) Sm Lt N1 N2 E. pose proof (history_inv _ HH _ _ _ _ Hh) as [Em I]. cbn [step] in E. destruct (set_isComplete ds) eqn:Sc; cbn [negb] in E; [|discriminate E].
    destruct (create_header H HH w pw ds t WH WR We Lt Sm Sc) as (i1 & i2 & M1 & M2 & A & _). assert (i1 = it1) by congruence. assert (i2 = it2) by congruence. subst i1 i2.
    assert (create_in_time w t it1 it2 \/ ~ create_in_time w t it1 it2) as [T|T]; [|exact T|].
    - unfold create_in_time. destruct (reached_dec (w_clk1 w) t (readings_string it1)); [right; tauto|]. destruct (N.eq_dec t 0); destruct (N.lt_decidable (w_elapsed w) t);
      destruct (reached_dec (w_clk2 w) (t - w_elapsed w) (readings_bytes it2)); tauto.
    - exfalso. rewrite Em in E. rewrite (A T) in E. destruct (a_state a); discriminate E.
  Qed.
End Api8.
