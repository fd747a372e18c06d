(** Lemmas for C124. *)
From Verif Require Import Base BaseFacts BytesModel BytesSpec BytesFacts BytesFacts2 HeaderModel HeaderSpec HeaderFacts HeaderFacts3 HeaderFacts4 HeaderFacts5 HeaderFacts6 FileFacts HeaderFacts11 RefSpec RefFacts CanonSpec.
Open Scope N_scope.
Open Scope list_scope.

Lemma u8_inj a b x y : a < 256 -> b < 256 -> u8 a ++ x = u8 b ++ y -> a = b /\ x = y.
Proof. unfold u8. intros A B E. injection E as E1 E2. split; [|exact E2]. rewrite <- (b2n_n2b_small a A), <- (b2n_n2b_small b B). congruence. Qed.
Lemma block_inj b b' r r' : block_ok b -> block_ok b' -> ser_block b ++ r = ser_block b' ++ r' -> b = b' /\ r = r'.
Proof.
  destruct b as [ty x], b' as [ty' x']. intros [A B] [A' B'] E. cbn [fst snd] in *. unfold ser_block in E. cbn [fst snd] in E. rewrite <- !app_assoc in E.
  apply u8_inj in E as [-> E]; [|exact A|exact A']. apply u8_inj in E as [L E]; [|lia|lia]. apply app_len_inj in E as [-> ->]; [|exact L]. auto.
Qed.
Lemma enc_inj b b' r r' : enc_ok b -> enc_ok b' -> ser_enc b ++ r = ser_enc b' ++ r' -> b = b' /\ r = r'.
Proof.
  destruct b as [[ty l] x], b' as [[ty' l'] x']. intros (A & B & C) (A' & B' & C') E. cbn [fst snd] in *. unfold ser_enc in E. cbn [fst snd] in E. rewrite <- !app_assoc in E.
  apply u8_inj in E as [-> E]; [|exact A|exact A']. apply u8_inj in E as [-> E]; [|exact B|exact B']. apply app_len_inj in E as [-> ->]; [|congruence]. auto.
Qed.
Lemma many_inj {A} (ser : A -> bytes) (P : A -> Prop) : (forall b b' r r', P b -> P b' -> ser b ++ r = ser b' ++ r' -> b = b' /\ r = r') ->
  forall bs bs' r r', Forall P bs -> Forall P bs' -> length bs = length bs' -> concat (map ser bs) ++ r = concat (map ser bs') ++ r' -> bs = bs' /\ r = r'.
Proof.
  intros J. induction bs as [|b bs IH]; intros [|b' bs'] r r' F F' L E; try discriminate L; [auto|]. cbn [map concat] in E. rewrite <- !app_assoc in E.
  inversion F; inversion F'; subst. apply J in E as [-> E]; [|assumption|assumption]. cbn [length] in L. destruct (IH bs' r r') as [-> ->]; auto.
Qed.
Lemma chain_inj c c' l l' r r' : chain_shape c l -> chain_shape c' l' -> ser_chain l c ++ r = ser_chain l' c' ++ r' -> c = c' /\ l = l' /\ r = r'.
Proof.
  destruct c as [[m it] x], c' as [[m' it'] x']. intros (A & B & C & D & F) (A' & B' & C' & D' & F') E. cbn [fst snd] in *. unfold ser_chain in E. cbn [fst snd] in E. rewrite <- !app_assoc in E.
  apply u8_inj in E as [-> E]; [|lia|lia]. apply u64_inj in E as [-> E]; [|exact B|exact B']. apply u8_inj in E as [-> E]; [|exact F|exact F'].
  destruct (fits_length m' x l' A C D) as [L _], (fits_length m' x' l' A' C' D') as [L' _]. apply app_len_inj in E as [-> ->]; [|congruence]. auto.
Qed.
Lemma layout_inj fs hs l1 l2 h r fs' hs' l1' l2' h' r' : header_ok h -> header_ok h' -> lengths_ok l1 l2 h -> lengths_ok l1' l2' h' -> fs < two64 -> hs < two64 -> fs' < two64 -> hs' < two64 ->
  layout_with fs hs l1 l2 h ++ r = layout_with fs' hs' l1' l2' h' ++ r' -> fs = fs' /\ hs = hs' /\ l1 = l1' /\ l2 = l2' /\ h = h' /\ r = r'.
Proof.
  destruct h as [fm hm bs c1 c2 v sa es], h' as [fm' hm' bs' c1' c2' v' sa' es'].
  intros (F1 & F2 & F3 & F4 & F5 & F6 & F7 & F8 & F9 & F10) (G1 & G2 & G3 & G4 & G5 & G6 & G7 & G8 & G9 & G10) (L1 & L2 & L3 & L4) (M1 & M2 & M3 & M4) A B A' B' E.
  cbn [h_fmode h_hmode h_blocks h_ch1 h_ch2 h_valid h_salt h_encs] in *. unfold layout_with in E. cbn [h_fmode h_hmode h_blocks h_ch1 h_ch2 h_valid h_salt h_encs] in E. rewrite <- !app_assoc in E.
  apply u64_inj in E as [-> E]; [|exact A|exact A']. apply u64_inj in E as [-> E]; [|exact B|exact B'].
  apply u8_inj in E as [-> E]; [|lia|lia]. apply u8_inj in E as [-> E]; [|lia|lia]. apply u8_inj in E as [Lb E]; [|lia|lia].
  apply (many_inj ser_block block_ok block_inj) in E as [-> E]; [|exact F4|exact G4|unfold lenN in Lb; lia].
  apply chain_inj in E as (-> & -> & E); [|apply shape_of; assumption|apply shape_of; assumption]. apply chain_inj in E as (-> & -> & E); [|apply shape_of; assumption|apply shape_of; assumption].
  apply app_len_inj in E as [-> E]; [|congruence]. apply app_len_inj in E as [-> E]; [|congruence]. apply u8_inj in E as [Le E]; [|lia|lia].
  apply (many_inj ser_enc enc_ok enc_inj) in E as [-> ->]; [|exact F10|exact G10|unfold lenN in Le; lia]. auto 8.
Qed.
Lemma written_once file hs l1 l2 h r hs' l1' l2' h' r' : lenN file < two64 -> written_as file hs l1 l2 h r -> written_as file hs' l1' l2' h' r' ->
  hs = hs' /\ l1 = l1' /\ l2 = l2' /\ h = h' /\ r = r'.
Proof.
  intros L (A1 & A2 & A3 & A4 & A5 & A6 & A7 & A8) (B1 & B2 & B3 & B4 & B5 & B6 & B7 & B8).
  assert (layout_with (lenN file) hs l1 l2 h ++ r = layout_with (lenN file) hs' l1' l2' h' ++ r') as E by congruence.
  apply layout_inj in E as (_ & E); try assumption; try lia; try (repeat split; assumption).
Qed.
Lemma own_prefix fs h r fs' h' r' : header_ok h -> header_ok h' -> fs < two64 -> fs' < two64 -> ser fs h ++ r = ser fs' h' ++ r' -> fs = fs' /\ h = h' /\ r = r'.
Proof.
  intros A B L L' E. assert (forall h0, header_ok h0 -> lengths_ok (lenN (snd (h_ch1 h0))) (lenN (snd (h_ch2 h0))) h0 /\ hdr_len h0 < two64) as K.
  { intros h0 H0. pose proof H0 as (_ & _ & _ & _ & C1 & C2 & _). destruct (shape_own _ C1) as (_ & _ & _ & X1 & X2), (shape_own _ C2) as (_ & _ & _ & Y1 & Y2).
    split; [repeat split; assumption|]. pose proof (hdr_len_small h0 H0). unfold two64. lia. }
  destruct (K h A) as [K1 K2], (K h' B) as [K3 K4]. unfold ser in E. apply layout_inj in E as (E1 & _ & _ & _ & E2 & E3); try assumption. auto.
Qed.

Lemma same_debug rnd rnd' file file' d d' rest : (forall k, lenN (rnd k) = k) -> (forall k, lenN (rnd' k) = k) -> lenN file < two64 -> lenN file' < two64 ->
  decode_stream Debug rnd file = Ret (inr (d, rest)) -> decode_stream Debug rnd' file' = Ret (inr (d', rest)) -> contents d = contents d' -> file = file'.
Proof.
  intros R R' L L' E E' C. destruct (accept_debug rnd file d rest R L E) as (h & Hh & _ & F & S0 & _), (accept_debug rnd' file' d' rest R' L' E') as (h' & Hh' & _ & F' & S' & _).
  assert (h = h') as <- by congruence.
  assert (lenN file = lenN file') as Le by (rewrite F, F', !lenN_app, !ser_len by assumption; reflexivity). rewrite F, F', Le. reflexivity.
Qed.
Lemma same_release rnd rnd' file file' d d' rest : (forall k, lenN (rnd k) = k) -> (forall k, lenN (rnd' k) = k) -> lenN file < two64 -> lenN file' < two64 ->
  decode_stream Release rnd file = Ret (inr (d, rest)) -> decode_stream Release rnd' file' = Ret (inr (d', rest)) -> contents d = contents d' ->
  lenN file = lenN file' /\ exists h hs l1 l2 hs' l1' l2', contents d = Some h /\ file = layout_with (lenN file) hs l1 l2 h ++ rest /\ file' = layout_with (lenN file) hs' l1' l2' h ++ rest /\
    (l1 = l1' \/ fixed_length (h_ch1 h)) /\ (l2 = l2' \/ fixed_length (h_ch2 h)) /\ (file = file' <-> hs = hs' /\ l1 = l1' /\ l2 = l2').
Proof.
  intros R R' L L' E E' C. destruct (accept_release rnd file d rest R L E) as (hs & l1 & l2 & h & W & S0 & _), (accept_release rnd' file' d' rest R' L' E') as (hs' & l1' & l2' & h' & W' & S' & _).
  assert (h = h') as <- by congruence. pose proof W as (A1 & A2 & A3 & A4 & A5 & A6 & A7 & A8). pose proof W' as (B1 & B2 & B3 & B4 & B5 & B6 & B7 & B8).
  assert (lenN file = lenN file') as Le by (rewrite A8, B8, !lenN_app, !layout_len by assumption; reflexivity). split; [exact Le|].
  exists h, hs, l1, l2, hs', l1', l2'. split; [exact S0|]. split; [exact A8|]. split; [rewrite Le; exact B8|].
  assert (forall c l l', lb_ok (fst (fst c)) (snd c) l -> lb_ok (fst (fst c)) (snd c) l' -> l = l' \/ fixed_length c) as K.
  { intros c l l' X Y. unfold lb_ok, fixed_length in *. destruct (N.eq_dec (fst (fst c)) 2) as [T|T]; [left; rewrite X, Y by auto; reflexivity|]. destruct (N.eq_dec (fst (fst c)) 4) as [T'|T']; [left; rewrite X, Y by auto; reflexivity|auto]. }
  split; [exact (K _ _ _ A4 B4)|]. split; [exact (K _ _ _ A6 B6)|]. split.
  - intros <-. destruct (written_once _ _ _ _ _ _ _ _ _ _ _ L W W') as (X1 & X2 & X3 & _). auto.
  - intros (-> & -> & ->). rewrite A8, B8, Le. reflexivity.
Qed.
