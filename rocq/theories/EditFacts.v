(** Facts about sittings. *)
From Coq Require Import Strings.Byte Lia.
From Verif Require Import Base BaseFacts BytesModel BytesFacts MiscModel MiscFacts CipherModel CipherSpec CipherFacts CipherFacts2 PwModel PwSpec PwFacts ChModel ChSpec ChFacts ChFacts2
  HeaderModel HeaderSpec HeaderFacts HeaderFacts2 HeaderFacts3 HeaderFacts4 HeaderFacts5 HeaderFacts8 HeaderFacts9 FileModel ApiModel ApiSpec FileFacts FileFacts2 ApiFacts ApiFacts2 ApiFacts3 ApiFacts4 ApiFacts5 ApiFacts6 ApiFacts7 ApiFacts8 EditSpec.

Section Edit.
  Variable H : hashes.
  Hypothesis HH : hashes_ok H.
  Variable bd : build.
  Variables (p : bytes) (l : N).
  Hypothesis Ep : enc_path p.

  Lemma one_sitting s h pw data c f : unhindered bd H p l h data s -> f l = Some c -> sealed H h pw data c -> no_empty_block h -> lenN data < 2 ^ 31 ->
    exists rs f' h' c', calls (sit p pw s) (fresh 1) f = Some (rs, fresh 1, f') /\ shows rs = [data] /\ Forall (fun r => succeeded r = true) rs /\
      renewed H s h h' /\ f' l = Some c' /\ sealed H h' (later s pw) (bdata (si_new s)) c' /\ no_empty_block h' /\ (forall l', l' <> l -> f' l' = f l').
  Proof using HH Ep.
    intros (A & Lt & T & P2 & L & P4 & R & K) Fl S0 Ne L0. set (ws := si_ws s) in *.
    destruct (reopen H HH bd ws p l f h pw data c (si_t s) A Ep Fl S0 Ne L0 Lt T P2) as (b & a1 & E1 & Bb & k & fh & Ea & Kd & Ef).
    assert (dec_obj H a1 p h pw) as D0.
    { do 4 eexists. split; [exact Ea|]. split; [|split; assumption]. destruct (sealed_written H HH _ _ _ _ S0 Ne L0) as (_ & _ & L63 & _ & Wr).
      split; [apply decoded_hinv|apply decoded_contents]; try apply S0; exact (lt63_two64 _ L63). }
    pose proof (A 3%nat) as (W3 & _).
    assert (exists mid a2 h', calls (match si_change s with Keep => [] | Resalt => [(ws 3%nat, OSalt)] | Rekey pw' ds t => [(ws 3%nat, OHeader pw' ds t)] end) a1 f = Some (mid, a2, f) /\
      shows mid = [] /\ Forall (fun r => succeeded r = true) mid /\ dec_obj H a2 p h' (later s pw) /\ renewed H s h h' /\ no_empty_block h') as (mid & a2 & h' & E2 & Sm & Fm & D & Rn & Ne').
    { unfold later, renewed. fold ws. destruct (si_change s) as [| |pw' ds t].
      - exists [], a1, h. split; [reflexivity|]. split; [reflexivity|]. split; [apply Forall_nil|]. split; [exact D0|]. split; [reflexivity|exact Ne].
      - destruct (salt_dec H bd (ws 3%nat) a1 p h pw f D0 W3) as (a' & E & D). eexists [ROk], a', _.
        split; [eapply calls_cons; [exact E|reflexivity]|]. split; [reflexivity|]. split; [repeat constructor|]. split; [exact D|]. split; [reflexivity|exact Ne].
      - destruct K as (Sr & Lt' & it1 & it2 & N1 & N2 & C).
        destruct (header_dec H HH bd (ws 3%nat) a1 p h pw ds pw' t it1 it2 f D0 W3 Sr Lt' N1 N2 C) as (a' & h' & E & D & Hc & Ne' & _).
        exists [ROk], a', h'. split; [eapply calls_cons; [exact E|reflexivity]|]. split; [reflexivity|]. split; [repeat constructor|]. split; [exact D|]. split; [exact Hc|exact Ne']. }
    destruct (encrypt_write H HH bd (fun i => ws (4 + i)%nat) a2 p l f h' (later s pw) (si_new s) c D (fun i => A _) Ep Fl L P4) as (a3 & f3 & E3 & _ & Em & Fo & c' & S' & F').
    cbn [Nat.add] in E3, F'. rewrite (room_all H HH _ _ _ _ _ S' (R h' Rn)) in F'.
    exists ([ROk; ROk; RData (mkFD (Some 1) (Some b))] ++ mid ++ [ROk; ROk; RVoid]), f3, h', c'.
    split. { unfold sit. fold ws. eapply calls_app; [exact E1|]. eapply calls_app; [exact E2|].
      change [(ws 4%nat, OEncrypt (text (si_new s))); (ws 5%nat, OWrite); (ws 6%nat, OLogout)] with ([(ws 4%nat, OEncrypt (text (si_new s))); (ws 5%nat, OWrite)] ++ [(ws 6%nat, OLogout)]).
      change [ROk; ROk; RVoid] with ([ROk; ROk] ++ [RVoid]). eapply calls_app; [exact E3|]. apply logout_calls; [exact Em|reflexivity]. }
    split. { unfold shows in *. rewrite !flat_map_app, Sm. cbn. rewrite Bb. reflexivity. }
    split. { apply Forall_app. split; [repeat constructor|]. apply Forall_app. split; [exact Fm|]. repeat constructor. }
    repeat (split; [assumption|]). exact Fo.
  Qed.
  Lemma renewed_unique s h h1 h2 : renewed H s h h1 -> renewed H s h h2 -> h1 = h2.
  Proof using. unfold renewed. destruct (si_change s); try congruence. apply created_unique. Qed.
  Lemma sittings ss : forall h pw data h' pw' data', edits bd H p l h pw data ss h' pw' data' -> forall c f, f l = Some c -> sealed H h pw data c -> no_empty_block h -> lenN data < 2 ^ 31 ->
    exists rs f' c', calls (sits p pw ss) (fresh 1) f = Some (rs, fresh 1, f') /\ shows rs = removelast (data :: map (fun s => bdata (si_new s)) ss) /\
      Forall (fun r => succeeded r = true) rs /\
      f' l = Some c' /\ sealed H h' pw' data' c' /\ (forall l', l' <> l -> f' l' = f l').
  Proof using HH Ep.
    induction ss as [|s ss IH]; intros h pw data h' pw' data' E c f Fl S0 Ne L; inversion E; subst.
    - exists [], f, c. split; [reflexivity|]. split; [reflexivity|]. split; [apply Forall_nil|]. split; [exact Fl|]. split; [exact S0|reflexivity].
    - match goal with X : unhindered _ _ _ _ _ _ _ |- _ => pose proof X as U; destruct (one_sitting s h pw data c f X Fl S0 Ne L) as (rs & f1 & h1' & c1 & E1 & S1 & F1 & R1 & Fl1 & Sc1 & Ne1 & Fo1) end.
      match goal with X : renewed H s h ?x |- _ => match x with h1' => fail 1 | _ => pose proof (renewed_unique s h _ _ X R1); subst x end end.
      destruct U as (_ & _ & _ & _ & L1 & _).
      match goal with X : edits _ _ _ _ h1' _ _ _ _ _ _ |- _ => destruct (IH _ _ _ _ _ _ X c1 f1 Fl1 Sc1 Ne1 L1) as (rs2 & f2 & c2 & E2 & S2 & F2 & Fl2 & Sc2 & Fo2) end.
      exists (rs ++ rs2), f2, c2. split; [cbn [sits]; eapply calls_app; eassumption|].
      split. { unfold shows in *. rewrite flat_map_app, S1, S2. reflexivity. }
      split; [apply Forall_app; split; assumption|]. split; [assumption|]. split; [assumption|]. intros l' Nl. rewrite Fo2, Fo1 by exact Nl. reflexivity.
  Qed.
  Lemma sealed_fun h pw data c1 c2 : sealed H h pw data c1 -> sealed H h pw data c2 -> c1 = c2.
  Proof using. intros (_ & _ & ->) (_ & _ & ->). reflexivity. Qed.
  Lemma only_last h1 pw1 d1 ss1 h2 pw2 d2 ss2 h pw d c1 c2 f1 f2 : edits bd H p l h1 pw1 d1 ss1 h pw d -> edits bd H p l h2 pw2 d2 ss2 h pw d ->
    f1 l = Some c1 -> sealed H h1 pw1 d1 c1 -> no_empty_block h1 -> lenN d1 < 2 ^ 31 ->
    f2 l = Some c2 -> sealed H h2 pw2 d2 c2 -> no_empty_block h2 -> lenN d2 < 2 ^ 31 ->
    exists rs1 rs2 g1 g2 c, calls (sits p pw1 ss1) (fresh 1) f1 = Some (rs1, fresh 1, g1) /\ calls (sits p pw2 ss2) (fresh 1) f2 = Some (rs2, fresh 1, g2) /\
      g1 l = Some c /\ g2 l = Some c.
  Proof using HH Ep.
    intros E1 E2 A1 A2 A3 A4 B1 B2 B3 B4.
    destruct (sittings _ _ _ _ _ _ _ E1 _ _ A1 A2 A3 A4) as (rs1 & g1 & c & X1 & _ & _ & X2 & X3 & _).
    destruct (sittings _ _ _ _ _ _ _ E2 _ _ B1 B2 B3 B4) as (rs2 & g2 & c' & Y1 & _ & _ & Y2 & Y3 & _).
    rewrite (sealed_fun _ _ _ _ _ X3 Y3) in *. exists rs1, rs2, g1, g2, c'. auto.
  Qed.
  Lemma keep_header ss : forall h pw d h' pw' d', edits bd H p l h pw d ss h' pw' d' -> Forall (fun s => si_change s = Keep) ss -> h' = h /\ pw' = pw.
  Proof using.
    induction ss as [|s ss IH]; intros h pw d h' pw' d' E F; inversion E; subst; [auto|]. inversion F; subst.
    match goal with X : renewed _ _ _ _ |- _ => unfold renewed in X; rewrite H3 in X; subst end. 
    match goal with X : edits _ _ _ _ _ (later s pw) _ _ _ _ _ |- _ => unfold later in X; rewrite H3 in X; exact (IH _ _ _ _ _ _ X H4) end.
  Qed.
  (** saving the old data again brings the old file back *)
  Lemma undone ss h pw d h' pw' c f : edits bd H p l h pw d ss h' pw' d -> Forall (fun s => si_change s = Keep) ss ->
    f l = Some c -> sealed H h pw d c -> no_empty_block h -> lenN d < 2 ^ 31 ->
    exists rs f', calls (sits p pw ss) (fresh 1) f = Some (rs, fresh 1, f') /\ forall l', f' l' = f l'.
  Proof using HH Ep.
    intros E F Fl S0 Ne L. destruct (keep_header _ _ _ _ _ _ _ E F) as [-> ->].
    destruct (sittings _ _ _ _ _ _ _ E _ _ Fl S0 Ne L) as (rs & f' & c' & X1 & _ & _ & X2 & X3 & X4).
    exists rs, f'. split; [exact X1|]. intros l'. destruct (N.eq_dec l' l) as [->|N]; [|exact (X4 _ N)].
    rewrite X2, Fl, (sealed_fun _ _ _ _ _ X3 S0). reflexivity.
  Qed.
End Edit.
(** two versions of a file *)
Lemma same_version H : hashes_ok H -> forall h pw d1 d2 c1 c2, sealed H h pw d1 c1 -> sealed H h pw d2 c2 -> (c1 = c2 <-> d1 = d2).
Proof.
  intros HH h pw d1 d2 c1 c2 (Hok & O & ->) (_ & _ & ->). split; [|intros ->; reflexivity]. intros E.
  assert (lenN d1 = lenN d2) as L.
  { apply (f_equal lenN) in E. rewrite !lenN_app, !ser_len, !(cipher_len H HH) in E by exact Hok. lia. }
  rewrite L in E. apply app_inv_head in E.
  rewrite <- (plain_of_cipher H HH h pw d1 Hok), <- (plain_of_cipher H HH h pw d2 Hok), E. reflexivity.
Qed.
Lemma other_salt H : hashes_ok H -> forall h s pw d1 d2 c1 c2, sealed H h pw d1 c1 -> sealed H (with_salt s h) pw d2 c2 -> no_empty_block h -> lenN d1 < 2 ^ 31 -> lenN d2 < 2 ^ 31 ->
  h_salt h <> s -> c1 <> c2.
Proof.
  intros HH h s pw d1 d2 c1 c2 S1 S2 Ne L1 L2 N ->.
  destruct (sealed_written H HH _ _ _ _ S1 Ne L1) as (_ & _ & L63 & _ & W1).
  destruct (sealed_written H HH _ _ _ _ S2 Ne L2) as (_ & _ & _ & _ & W2).
  destruct (written_unique _ _ _ _ _ _ _ _ _ _ _ (lt63_two64 _ L63) W1 W2) as [E _]. apply N. rewrite E. reflexivity.
Qed.
(** from any state, after logging out *)
Lemma sittings_any H : hashes_ok H -> forall bd p l ss h pw data h' pw' data' c f mode tr a w, enc_path p -> history bd H mode tr a ->
  edits bd H p l h pw data ss h' pw' data' -> f l = Some c -> sealed H h pw data c -> no_empty_block h -> lenN data < 2 ^ 31 ->
  exists rs a' f' c', newAPI mode = Ret a' /\ calls ((w, OLogout) :: sits p pw ss) a f = Some (RVoid :: rs, a', f') /\ shows rs = removelast (data :: map (fun s => bdata (si_new s)) ss) /\
    Forall (fun r => succeeded r = true) rs /\
    f' l = Some c' /\ sealed H h' pw' data' c' /\ (forall l', l' <> l -> f' l' = f l').
Proof.
  intros HH bd p l ss h pw data h' pw' data' c f mode tr a w Ep Hh E Fl S0 Ne L.
  pose proof (history_inv _ HH _ _ _ _ Hh) as [Em _].
  destruct (sittings H HH bd p l Ep ss _ _ _ _ _ _ E _ _ Fl S0 Ne L) as (rs & f' & c' & X1 & X2 & X3 & X4 & X5 & X6).
  assert (newAPI mode = Ret (fresh 1)) as EN.
  { assert (exists x, newAPI mode = Ret x) as [x Ex] by (clear - Hh; induction Hh; eauto). revert Ex. unfold newAPI. destruct mode as [|[q|q|]]; cbn; intros Ex; try discriminate; reflexivity. }
  exists rs, (fresh 1), f', c'. split; [exact EN|]. split; [|auto]. apply logout_calls; [exact Em|exact X1].
Qed.
