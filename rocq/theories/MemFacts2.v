(** What follows from the reference reader of buffers. *)
From Coq Require Import Strings.Byte.
From Verif Require Import Base BaseFacts BytesModel BytesSpec BytesFacts BytesFacts2 HeaderModel HeaderSpec HeaderFacts HeaderFacts5 HeaderFacts10 RefSpec MemSpec MemFacts.

Definition codes : list errcode :=
  [ERR; ERR_NOT_ENOUGH_DATA; ERR_HASHMODE_INVALID; ERR_FILEMODE_INVALID; ERR_CHAINHASHMODE_FORMAT_INVALID; ERR_CHAINHASH_DATAPART_INVALID;
   ERR_CHAINHASH_DATABLOCK_OUTOFRANGE; ERR_CHAINHASH1_INVALID; ERR_CHAINHASH2_INVALID; ERR_FILESIZE_INVALID].
Definition within {A} (bd : build) (v : verdict A) : Prop :=
  match v with Gives _ => True | Rejects e => In e codes | Dies c => bd = Debug /\ c = AssertFail end.
Lemma within_also {A B} bd (v : verdict A) (k : A -> verdict B) : within bd v -> (forall x, within bd (k x)) -> within bd (also v k).
Proof. destruct v; cbn [also within]; auto. Qed.
Lemma within_here bd e f i n : In e codes -> within bd (here e f i n).
Proof. intros I. unfold here. destruct (_ <=? _); [exact Logic.I|exact I]. Qed.
Lemma within_num bd e f i n : In e codes -> within bd (num e f i n).
Proof. intros I. apply within_also; [apply within_here; exact I|intros x; exact Logic.I]. Qed.
Lemma within_check bd b e : In e codes -> within bd (check b e).
Proof. intros I. unfold check. destruct b; [exact Logic.I|exact I]. Qed.
Lemma within_insist bd b : within bd (insist bd b).
Proof. destruct bd; [destruct b|]; cbn [insist within]; auto. Qed.
Ltac code := unfold codes; cbn [In]; tauto.
Ltac withins := repeat match goal with
  | |- within _ (also _ _) => apply within_also
  | |- within _ (num _ _ _ _) => apply within_num; code
  | |- within _ (here _ _ _ _) => apply within_here; code
  | |- within _ (check _ _) => apply within_check; code
  | |- within _ (insist _ _) => apply within_insist
  | |- within _ (Gives _) => exact Logic.I
  | |- forall _, _ => let x := fresh "x" in intros x; try match type of x with (_ * _)%type => destruct x end
  | |- within _ (let i := _ in _) => cbv zeta
  end.
Lemma within_blocks bd n : forall f i, within bd (get_blocks n f i).
Proof. induction n as [|n IH]; intros f i; cbn [get_blocks]; [exact Logic.I|]. withins. apply IH. Qed.
Lemma within_encs bd n : forall f i, within bd (get_encs n f i).
Proof. induction n as [|n IH]; intros f i; cbn [get_encs]; [exact Logic.I|]. withins. apply IH. Qed.
Lemma within_eights bd n : forall f i, within bd (get_eights n f i).
Proof. induction n as [|n IH]; intros f i; cbn [get_eights]; [exact Logic.I|]. withins. apply IH. Qed.
Lemma within_data bd m lb f i : within bd (get_data m lb f i).
Proof.
  apply within_also; [apply within_eights|]. intros [x j]. destruct (_ || _); [|exact Logic.I]. destruct (lb <? lenN x); [|withins].
  cbn [within]. destruct (_ <? _); code.
Qed.
Lemma within_chain bd code f i : In code codes -> within bd (get_chain bd code f i).
Proof.
  intros I. unfold get_chain. apply within_also; [apply within_num; code|]. intros m. apply within_also; [apply within_check; code|]. intros _. cbv zeta.
  apply within_also; [apply within_num; code|]. intros it. apply within_also; [apply within_num; code|]. intros lb. apply within_also; [apply within_data|].
  intros [x j]. apply within_also; [apply within_insist|]. intros _. apply within_also; [apply within_check; exact I|]. intros _. exact Logic.I.
Qed.
Lemma within_buffer bd f : within bd (read_buffer bd f).
Proof.
  unfold read_buffer. do 8 (apply within_also; [first [apply within_num; code|apply within_check; code]|intros ?]).
  apply within_also; [apply within_blocks|intros [bs i]]. apply within_also; [apply within_chain; code|intros [c1 i1]].
  apply within_also; [apply within_chain; code|intros [c2 i2]]. cbv zeta.
  apply within_also; [apply within_here; code|intros v]. apply within_also; [apply within_here; code|intros sa]. apply within_also; [apply within_num; code|intros n].
  apply within_also; [apply within_encs|intros [es i3]]. withins.
Qed.

(** a Debug build that answers answers like a Release build *)
Definition like {A} (v v' : verdict A) : Prop := v = Dies AssertFail \/ v = v'.
Lemma like_also {A B} (v v' : verdict A) (k k' : A -> verdict B) : like v v' -> (forall x, like (k x) (k' x)) -> like (also v k) (also v' k').
Proof. intros [-> | ->] K; [left; reflexivity|]. destruct v' as [x|e|c]; cbn [also]; [apply K|right; reflexivity|right; reflexivity]. Qed.
Lemma like_refl {A} (v : verdict A) : like v v.
Proof. right. reflexivity. Qed.
Lemma like_insist b : like (insist Debug b) (insist Release b).
Proof. destruct b; [right|left]; reflexivity. Qed.
Lemma like_chain code f i : like (get_chain Debug code f i) (get_chain Release code f i).
Proof.
  unfold get_chain. apply like_also; [apply like_refl|intros m]. apply like_also; [apply like_refl|intros _]. cbv zeta.
  apply like_also; [apply like_refl|intros it]. apply like_also; [apply like_refl|intros lb]. apply like_also; [apply like_refl|intros [x j]].
  apply like_also; [apply like_insist|intros _]. apply like_refl.
Qed.
Lemma like_buffer f : like (read_buffer Debug f) (read_buffer Release f).
Proof.
  unfold read_buffer. do 8 (apply like_also; [apply like_refl|intros ?]).
  apply like_also; [apply like_refl|intros [bs i]]. apply like_also; [apply like_chain|intros [c1 i1]]. apply like_also; [apply like_chain|intros [c2 i2]]. cbv zeta.
  apply like_also; [apply like_refl|intros v]. apply like_also; [apply like_refl|intros sa]. apply like_also; [apply like_refl|intros n].
  apply like_also; [apply like_refl|intros [es i3]]. apply like_also; [apply like_refl|intros _].
  apply like_also; [apply like_insist|intros _]. apply like_also; [apply like_insist|intros _]. apply like_refl.
Qed.

Section Dec.
Variables (rnd : N -> bytes).
Hypothesis Hr : forall k, lenN (rnd k) = k.
Lemma mem_codes bd f e : decode_mem bd rnd f = Ret (inl e) -> In e codes.
Proof using Hr.
  rewrite (buffer_refines bd rnd f Hr). pose proof (within_buffer bd (bdata f)) as W. destruct (read_buffer bd (bdata f)) as [[fs h]|e'|c]; cbn; try discriminate.
  intros [= <-]. exact W.
Qed.
Lemma mem_answers bd f : (exists r, decode_mem bd rnd f = Ret r) \/ bd = Debug /\ decode_mem bd rnd f = Crash AssertFail.
Proof using Hr.
  rewrite (buffer_refines bd rnd f Hr). pose proof (within_buffer bd (bdata f)) as W. destruct (read_buffer bd (bdata f)) as [[fs h]|e'|c]; cbn.
  - left. eexists. reflexivity.
  - left. eexists. reflexivity.
  - destruct W as [-> ->]. right. auto.
Qed.
Lemma mem_builds f r : decode_mem Debug rnd f = Ret r -> decode_mem Release rnd f = Ret r.
Proof using Hr. rewrite !(buffer_refines _ rnd f Hr). destruct (like_buffer (bdata f)) as [-> | ->]; [discriminate|auto]. Qed.
Lemma mem_stream f d : getLen f < 2 ^ 64 -> decode_mem Debug rnd f = Ret (inr d) -> d_fsize d = Some (getLen f) ->
  exists h rest, bdata f = ser (getLen f) h ++ rest /\ contents d = Some h /\ forall bd, decode_stream bd rnd (bdata f) = Ret (inr (d, rest)).
Proof using Hr.
  intros L E Fs. change (2 ^ 64) with two64 in L. apply (mem_debug rnd f d Hr L) in E. destruct E as (fs & h & body & Hh & Hn & _ & _ & _ & _ & Hf & Ef & ->).
  cbn in Fs. injection Fs as ->. exists h, body. split; [exact Ef|]. split; [apply decoded_contents; exact Hh|]. intros bd.
  assert (getLen f = hdr_len h + lenN body) as Lf by (unfold getLen at 1; rewrite Ef, lenN_app, (ser_len _ _ Hh); reflexivity).
  rewrite Ef. apply decode_ser; auto.
Qed.
End Dec.
