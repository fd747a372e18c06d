From Verif Require Import Base BaseFacts BytesModel BytesSpec BytesFacts CipherModel CipherSpec CipherFacts PwModel PwSpec ChModel ChSpec HeaderModel HeaderSpec FileModel ApiModel ApiSpec WorkModel WorkSpec.
From Verif Require Import CworkSpec CworkFacts4 SecSpec QuerySpec QueryFacts QueryFacts2 QueryFacts3.
Open Scope N_scope.
Open Scope list_scope.

Lemma start_asks h : header_ok h -> forall body known g p, decides_start h body known g p -> known <> [] -> lenN known <= digest_len (h_hmode h) -> lenN known <= lenN body ->
  forall H, hashes_ok H -> lenN (asked (hash_of H (h_hmode h)) p) < 2 ^ 200 ->
  forall t, In t (fst (probe_file H h body known g)) -> In t (asked (hash_of H (h_hmode h)) p).
Proof.
  intros Hh body known g p Dp Nk Ld Lb H HH LQ t It. set (Q := asked (hash_of H (h_hmode h)) p) in *.
  destruct (missing_or_not (known_text h g) (hash_of H (h_hmode h)) (N.to_nat (iterations (h_ch1 h)) + 3) Q) as [A|Ms].
  { rewrite (proj1 (known_texts h Hh g H body known)) in It. apply in_map_iff in It. destruct It as (j & <- & I). apply in_seq in I. apply A. lia. }
  exfalso. assert (N.of_nat (N.to_nat (digest_len (h_hmode h))) = digest_len (h_hmode h)) as Ed by apply N2Nat.id.
  pose (v := if snd (probe_file H h body known g) then bad_pad h body known else good_pad h body known).
  assert (lenN v = digest_len (h_hmode h)) as Lv.
  { unfold v. destruct (snd (probe_file H h body known g)); rewrite <- Ed; [apply bad_pad_len, Hh|apply good_pad_len; [rewrite Ed; exact Ld|exact Lb]]. }
  destruct (redirect_pad h Hh g H Q v HH LQ Lv Ms) as (H' & HH' & Ag & E).
  pose proof (asked_same (hash_of H (h_hmode h)) (hash_of H' (h_hmode h)) p Ag) as Same.
  pose proof (Dp H HH) as F. pose proof (Dp H' HH') as F'. rewrite Same in F'.
  rewrite <- (probe_says H HH h body known g Hh Ld Lb) in F. rewrite <- (probe_says H' HH' h body known g Hh Ld Lb) in F'.
  rewrite (proj2 (known_texts h Hh g H' body known)), E in F'. unfold v in F'.
  destruct (snd (probe_file H h body known g)).
  - pose proof (bad_pad_bad h body known Nk Lb) as B. destruct (list_eq_dec Byte.byte_eq_dec _ known) as [X|_]; [contradiction|].
    pose proof (proj1 F' (proj2 F eq_refl)) as Z. discriminate Z.
  - pose proof (good_pad_good h body known Lb) as B. destruct (list_eq_dec Byte.byte_eq_dec _ known) as [_|X]; [|contradiction].
    pose proof (proj1 F (proj2 F' eq_refl)) as Z. discriminate Z.
Qed.

Lemma start_cost h : header_ok h -> forall body known g p, decides_start h body known g p -> known <> [] -> lenN known <= digest_len (h_hmode h) -> lenN known <= lenN body ->
  forall H0, hashes_ok H0 -> exists H, hashes_ok H /\ iterations (h_ch1 h) + 3 <= lenN (asked (hash_of H (h_hmode h)) p).
Proof.
  intros Hh body known g p Dp Nk Ld Lb H0 HH0. pose proof (mode_ok h Hh) as M. pose proof (counts h Hh) as (C1 & _).
  assert (N.of_nat (N.to_nat (digest_len (h_hmode h))) = digest_len (h_hmode h)) as Ed by apply N2Nat.id.
  destruct (spread_trace (N.to_nat (digest_len (h_hmode h))) (known_text h g) (known_inj h Hh g) (N.to_nat (iterations (h_ch1 h)) + 2)) as (D & LD & ND).
  { apply N.lt_le_trans with (2 ^ 32); [apply (N.le_lt_trans _ 1000000002); [lia|vm_compute; reflexivity]|]. apply (room h Hh). vm_compute; discriminate. }
  exists (with_hash (h_hmode h) D H0).
  assert (hashes_ok (with_hash (h_hmode h) D H0)) as HH by (apply with_hash_ok; [exact M|exact HH0|intros x; rewrite LD; exact Ed]).
  split; [exact HH|]. destruct (N.lt_ge_cases (lenN (asked (hash_of (with_hash (h_hmode h) D H0) (h_hmode h)) p)) (2 ^ 200)) as [Sm|Bg].
  - pose proof (start_asks h Hh body known g p Dp Nk Ld Lb _ HH Sm) as A.
    rewrite (proj1 (known_texts h Hh g _ body known)), with_hash_of in A by exact M. rewrite with_hash_of by exact M. rewrite with_hash_of in Sm by exact M.
    replace (S (N.to_nat (iterations (h_ch1 h)) + 2)) with (N.to_nat (iterations (h_ch1 h)) + 3)%nat in ND by lia.
    pose proof (NoDup_incl_length ND A) as L. rewrite map_length, seq_length in L. unfold lenN. lia.
  - apply (N.le_trans _ (2 ^ 200)); [|exact Bg]. apply (N.le_trans _ 1000000003); [lia|vm_compute; discriminate].
Qed.

Fixpoint pmap {A B} (f : A -> B) (p : program A) : program B :=
  match p with Answer a => Answer (f a) | Ask t k => Ask t (fun y => pmap f (k y)) end.
Lemma pmap_is {A B} (f : A -> B) D p : answer D (pmap f p) = f (answer D p) /\ asked D (pmap f p) = asked D p.
Proof. induction p as [a|t k IH]; [split; reflexivity|]. cbn [pmap answer asked]. destruct (IH (D t)) as (-> & ->). split; reflexivity. Qed.

Lemma decrypt_asks h : header_ok h -> forall body g p, decrypts h body g p -> body <> [] ->
  forall H, hashes_ok H -> lenN (asked (hash_of H (h_hmode h)) p) < 2 ^ 200 ->
  forall t, In t (fst (probe_file H h body [] g)) -> In t (asked (hash_of H (h_hmode h)) p).
Proof.
  intros Hh body g p Dp Nb H HH LQ t It.
  pose (f := fun x : bytes => match x with b :: _ => if Byte.byte_eq_dec b x00 then true else false | [] => false end).
  destruct (pmap_is f (hash_of H (h_hmode h)) p) as (_ & Ea). rewrite <- Ea in *.
  apply (start_asks h Hh body [x00] g (pmap f p)).
  - intros H1 HH1. rewrite (proj1 (pmap_is f _ p)), (Dp H1 HH1). unfold f. destruct (plain_of H1 h g body) as [|b r].
    + split; [discriminate|]. intros (rest & E). discriminate E.
    + destruct (Byte.byte_eq_dec b x00) as [->|X].
      * split; [|reflexivity]. intros _. exists r. reflexivity.
      * split; [discriminate|]. intros (rest & E). injection E as E _. contradiction.
  - discriminate.
  - destruct Hh as (_ & M & _). assert (h_hmode h = 1 \/ h_hmode h = 2 \/ h_hmode h = 3) as [->|[->| ->]] by lia; vm_compute; discriminate.
  - destruct body; [contradiction Nb; reflexivity|]. rewrite !lenN_cons, lenN_nil. lia.
  - exact HH.
  - exact LQ.
  - rewrite (proj1 (known_texts h Hh g H body [x00])). rewrite (proj1 (known_texts h Hh g H body [])) in It. exact It.
Qed.

(** the attack of C101 as a program *)
Definition probe_program (h : header) (body known g : bytes) : program bool :=
  let zero := repeat x00 (N.to_nat (digest_len (h_hmode h))) in
  ask_chain (fun j => salt_at (salts (h_ch1 h)) (N.of_nat j)) 0 (N.to_nat (iterations (h_ch1 h))) g (fun key =>
    Ask (bsum (bsum key (h_salt h)) zero) (fun k =>
    Ask (bsum (bsum k (h_salt h)) zero) (fun s =>
    Ask (bsum k s) (fun pad => Answer (if list_eq_dec Byte.byte_eq_dec (takeN (lenN known) (bdiff body pad)) known then true else false))))).
Lemma rounds_val D m g k : rounds D m g k = (map (text (fun j => salt_at m (N.of_nat j)) D g) (seq 0 k), val (fun j => salt_at m (N.of_nat j)) D g k).
Proof.
  induction k as [|k IH]; [reflexivity|]. rewrite seq_S, map_app. cbn [rounds]. rewrite IH. reflexivity.
Qed.
Lemma probe_program_is h body known g H : (asked (hash_of H (h_hmode h)) (probe_program h body known g), answer (hash_of H (h_hmode h)) (probe_program h body known g)) = probe_file H h body known g.
Proof.
  unfold probe_program, probe_file, probe. set (D := hash_of H (h_hmode h)). set (s := fun j => salt_at (salts (h_ch1 h)) (N.of_nat j)).
  match goal with |- context [ask_chain s 0 ?n g ?k] => destruct (ask_chain_answer s D n 0 g k) as (E1 & E2) end.
  change (val s D g 0) with g in *. rewrite E1, E2. cbn [answer asked Nat.add]. rewrite rounds_val. fold s. cbn [fst snd]. reflexivity.
Qed.
Lemma best_start h : header_ok h -> forall body known g, lenN known <= digest_len (h_hmode h) -> lenN known <= lenN body ->
  exists p, decides_start h body known g p /\ forall H, lenN (asked (hash_of H (h_hmode h)) p) = iterations (h_ch1 h) + 3.
Proof.
  intros Hh body known g Ld Lb. exists (probe_program h body known g). split.
  - intros H HH. pose proof (f_equal snd (probe_program_is h body known g H)) as E. cbn [snd] in E. rewrite E. apply probe_says; assumption.
  - intros H. pose proof (f_equal fst (probe_program_is h body known g H)) as E. cbn [fst] in E. rewrite E. apply probe_cost.
Qed.
