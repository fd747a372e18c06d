(** Reading a header from a stream: how the result depends on the bytes that are delivered and on the size that was measured. *)
From Coq Require Import List Lia ZArith NArith Bool.
From Verif Require Import Base BaseFacts BytesModel CipherModel PwModel ChModel HeaderModel FileModel InterModel.
Import ListNotations.
Open Scope N_scope.
Open Scope list_scope.

(** a reader uses a prefix and does not look beyond it; other errors than ERR_NOT_ENOUGH_DATA stay if there is more *)
Definition good {A} (m : bytes -> dres (A * bytes)) : Prop := forall s,
  match m s with
  | Ret (inr (a, r)) => exists x, s = x ++ r /\ forall r', m (x ++ r') = Ret (inr (a, r'))
  | Ret (inl ERR_NOT_ENOUGH_DATA) => True
  | o => forall t, m (s ++ t) = o
  end.

Lemma good_ext {A} (m m' : bytes -> dres (A * bytes)) : (forall s, m s = m' s) -> good m -> good m'.
Proof.
  intros E G s. specialize (G s). rewrite <- (E s). destruct (m s) as [[e|[a r]]|e|c|] eqn:Em.
  - destruct e; try exact I; intros t; rewrite <- E; apply G.
  - destruct G as (x & -> & G). exists x. split; [reflexivity|]. intros. rewrite <- E. apply G.
  - intros t; rewrite <- E; apply G.
  - intros t; rewrite <- E; apply G.
  - intros t; rewrite <- E; apply G.
Qed.
Lemma good_ret {A} (a : A) : good (fun s => dret (a, s)).
Proof. intros s. exists []. split; reflexivity. Qed.
Lemma good_bind {A B} (m : bytes -> dres (A * bytes)) (k : A -> bytes -> dres (B * bytes)) :
  good m -> (forall a, good (k a)) -> good (fun s => dbind (m s) (fun p => k (fst p) (snd p))).
Proof.
  intros Gm Gk s. specialize (Gm s). destruct (m s) as [[e|[a r]]|e|c|] eqn:Em; cbn [dbind fst snd].
  - destruct e; try exact I; intros t; rewrite Gm; reflexivity.
  - destruct Gm as (x & -> & Gm). specialize (Gk a r). destruct (k a r) as [[e|[b r2]]|e|c|] eqn:Ek.
    + destruct e; try exact I; intros t; rewrite <- app_assoc, Gm; cbn [dbind fst snd]; apply Gk.
    + destruct Gk as (y & -> & Gk). exists (x ++ y). rewrite <- app_assoc. split; [reflexivity|]. intros r'. rewrite <- app_assoc, Gm. cbn [dbind fst snd]. apply Gk.
    + intros t; rewrite <- app_assoc, Gm; cbn [dbind fst snd]; apply Gk.
    + intros t; rewrite <- app_assoc, Gm; cbn [dbind fst snd]; apply Gk.
    + intros t; rewrite <- app_assoc, Gm; cbn [dbind fst snd]; apply Gk.
  - intros t; rewrite Gm; reflexivity.
  - intros t; rewrite Gm; reflexivity.
  - intros t; rewrite Gm; reflexivity.
Qed.
Lemma good_pure {A B} (m : dres A) (k : A -> bytes -> dres (B * bytes)) : (forall a, good (k a)) -> good (fun s => dbind m (fun a => k a s)).
Proof.
  intros Gk s. destruct m as [[e|a]|e|c|]; cbn [dbind]; try reflexivity; [destruct e; try exact I; reflexivity|]. apply Gk.
Qed.
Lemma good_fail {A} e : good (fun _ => @dfail (A * bytes) e).
Proof. intros s. unfold dfail. destruct e; try exact I; reflexivity. Qed.
Lemma good_if {A} (b : bool) (m n : bytes -> dres (A * bytes)) : good m -> good n -> good (fun s => if b then m s else n s).
Proof. destruct b; auto. Qed.
Lemma good_readBytes cap z : good (fun s => need ERR_NOT_ENOUGH_DATA (readBytes cap z s)).
Proof.
  intros s. unfold readBytes. set (n := Z.to_N (z mod 4294967296)). destruct (cap <? n); [exact I|]. destruct (lenN s <? n) eqn:L; [exact I|]. apply N.ltb_ge in L. cbn [need dret].
  exists (takeN n s). split; [symmetry; apply takeN_dropN|]. intros r'. assert (lenN (takeN n s) = n) as Lt by (rewrite lenN_takeN; lia).
  replace (lenN (takeN n s ++ r') <? n) with false by (symmetry; apply N.ltb_ge; rewrite lenN_app, Lt; lia).
  cbn [need dret]. unfold dret. do 3 f_equal; [|].
  - rewrite <- Lt at 1. apply takeN_app_exact.
  - rewrite <- Lt at 1. apply dropN_app_exact.
Qed.
Lemma good_read1 : good (fun s => need ERR_NOT_ENOUGH_DATA (read1 s)).
Proof. intros [|x s]; cbn [read1 need dret dfail]; [exact I|]. exists [x]. split; reflexivity. Qed.
Lemma dbind_pair {A B C} (m : dres (A * B)) (k : A -> B -> dres C) : dbind m (fun p => k (fst p) (snd p)) = dbind m (fun p => let '(a, b) := p in k a b).
Proof. destruct m as [[e|[a b]]|e|c|]; reflexivity. Qed.
Lemma good_bind' {A B} (m : bytes -> dres (A * bytes)) (k : A -> bytes -> dres (B * bytes)) :
  good m -> (forall a, good (k a)) -> good (fun s => dbind (m s) (fun p => let '(a, s) := p in k a s)).
Proof. intros Gm Gk. refine (good_ext _ _ _ (good_bind m k Gm Gk)). intros s. apply dbind_pair. Qed.

Lemma good_read8 : good read8.
Proof. unfold read8. apply good_bind'; [apply good_readBytes|]. intros b. apply (good_pure _ (fun n s => dret (n, s))). intros. apply good_ret. Qed.
Lemma good_blocks n : forall d, good (s_blocks n d).
Proof.
  induction n as [|n IH]; intros d; cbn [s_blocks]; [apply good_ret|].
  apply (good_bind' (fun s => need ERR_NOT_ENOUGH_DATA (read1 s))); [apply good_read1|]. intros ty.
  apply (good_bind' (fun s => need ERR_NOT_ENOUGH_DATA (read1 s))); [apply good_read1|]. intros len.
  apply (good_bind' (fun s => need ERR_NOT_ENOUGH_DATA (readBytes len (Z.of_N len) s))); [apply good_readBytes|]. intros data.
  apply (good_pure _ (fun d s => s_blocks n d s)). exact IH.
Qed.
Lemma good_parts bd nls : forall lb dl c, good (s_parts bd nls lb dl c).
Proof.
  induction nls as [|[nm len] r IH]; intros lb dl c; cbn [s_parts]; [apply good_ret|]. apply good_if.
  - apply (good_bind' (fun s => need ERR_NOT_ENOUGH_DATA (readBytes 255 (Z.of_N len) s))); [apply good_readBytes|]. intros b.
    apply (good_pure _ (fun c s => s_parts bd r lb (dl + len) c s)). intros a. apply IH.
  - apply (good_bind' (fun s => need ERR_NOT_ENOUGH_DATA (readBytes 255 (Z.of_N lb - Z.of_N dl) s))); [apply good_readBytes|]. intros b.
    apply (good_pure _ (fun c s => dret (lb, c, s))). intros a. apply good_ret.
Qed.
Lemma good_chain bd code set d : good (s_chain bd code set d).
Proof.
  unfold s_chain.
  apply (good_bind' (fun s => need ERR_NOT_ENOUGH_DATA (read1 s))); [apply good_read1|]. intros mode.
  apply (good_pure _ (fun f s => _)). intros f.
  apply good_bind'; [apply good_read8|]. intros iters.
  apply (good_bind' (fun s => need ERR_NOT_ENOUGH_DATA (read1 s))); [apply good_read1|]. intros lb.
  refine (good_ext _ _ _ (good_bind (s_parts bd (nameLens f) lb 0 (newChd f)) (fun q s => let '(data_len, c) := q in
      _ <~ dassert bd (cd_len c =? lb) ;; _ <~ dassert bd (data_len =? lb) ;;
      d0 <~ try_ (invalid_or code ERR) (ch <- newChainHash mode iters (Some c) ;; set ch d) ;; dret (d0, s)) (good_parts _ _ _ _ _) _)).
  - intros s. destruct (s_parts bd (nameLens f) lb 0 (newChd f) s) as [[e|[[dl c] s']]|e|c|]; reflexivity.
  - intros [dl c]. apply (good_pure _ (fun _ s => _)). intros _. apply (good_pure _ (fun _ s => _)). intros _. apply (good_pure _ (fun d s => dret (d, s))). intros. apply good_ret.
Qed.
Lemma good_encs n : forall d, good (s_encs n d).
Proof.
  induction n as [|n IH]; intros d; cbn [s_encs]; [apply good_ret|].
  apply (good_bind' (fun s => need ERR_NOT_ENOUGH_DATA (read1 s))); [apply good_read1|]. intros ty.
  apply (good_bind' (fun s => need ERR_NOT_ENOUGH_DATA (read1 s))); [apply good_read1|]. intros len.
  apply (good_bind' (fun s => need ERR_NOT_ENOUGH_DATA (readBytes 255 255 s))); [apply good_readBytes|]. intros data.
  apply (good_pure _ (fun d s => s_encs n d s)). exact IH.
Qed.

(** everything before the last assertions *)
Definition core (bd : build) (rnd : N -> bytes) (size : N) (file : bytes) : dres ((dheader * N * N) * bytes) :=
    '(file_size, s) <~ read8 file ;;
    '(header_size, s) <~ read8 s ;;
    if negb (size =? file_size) then dfail ERR_FILESIZE_INVALID
    else if file_size <? header_size then dfail ERR_HEADERSIZE_FILESIZE_MISMATCH
    else
      '(fmode, s) <~ need ERR_NOT_ENOUGH_DATA (read1 s) ;;
      '(hmode, s) <~ need ERR_NOT_ENOUGH_DATA (read1 s) ;;
      d <~ try_ (only_invalid ERR_HASHMODE_INVALID) (newDataHeader rnd hmode) ;;
      d <~ try_ (only_invalid ERR_FILEMODE_INVALID) (d_setFileDataMode fmode d) ;;
      '(count, s) <~ need ERR_NOT_ENOUGH_DATA (read1 s) ;;
      '(d, s) <~ s_blocks (N.to_nat count) d s ;;
      '(d, s) <~ s_chain bd ERR_CHAINHASH1_INVALID setChainHash1 d s ;;
      '(d, s) <~ s_chain bd ERR_CHAINHASH2_INVALID setChainHash2 d s ;;
      '(v, s) <~ need ERR_NOT_ENOUGH_DATA (readBytes (d_hsize d) (Z.of_N (d_hsize d)) s) ;;
      d <~ try_ (any_std ERR) (setValidPasswordHashBytes (mkBytes v (d_hsize d)) d) ;;
      '(sa, s) <~ need ERR_NOT_ENOUGH_DATA (readBytes (d_hsize d) (Z.of_N (d_hsize d)) s) ;;
      d <~ try_ (any_std ERR) (d_setEncSalt (mkBytes sa (d_hsize d)) d) ;;
      d <~ try_ (only_invalid ERR_FILESIZE_INVALID) (setFileSize file_size d) ;;
      '(count, s) <~ need ERR_NOT_ENOUGH_DATA (read1 s) ;;
      '(d, s) <~ s_encs (N.to_nat count) d s ;;
      d <~ try_ (any_std ERR) (calc_plain d) ;;
      l <~ lift (getHeaderLength d) ;;
      dret ((d, l, header_size), s).
Ltac g1 := apply (good_bind' (fun s => need ERR_NOT_ENOUGH_DATA (read1 s))); [apply good_read1|].
Ltac gp := apply (good_pure _ (fun d s => _)).
Lemma good_core bd rnd size : good (core bd rnd size).
Proof.
  unfold core. apply good_bind'; [apply good_read8|]. intros fsz. apply good_bind'; [apply good_read8|]. intros hsz.
  apply good_if; [apply good_fail|]. apply good_if; [apply good_fail|].
  g1. intros fm. g1. intros hm. gp. intros d. gp. intros d0. g1. intros n.
  apply (good_bind' (s_blocks (N.to_nat n) d0)); [apply good_blocks|]. intros d1.
  apply (good_bind' (s_chain bd ERR_CHAINHASH1_INVALID setChainHash1 d1)); [apply good_chain|]. intros d2.
  apply (good_bind' (s_chain bd ERR_CHAINHASH2_INVALID setChainHash2 d2)); [apply good_chain|]. intros d3.
  apply (good_bind' (fun s => need ERR_NOT_ENOUGH_DATA (readBytes (d_hsize d3) (Z.of_N (d_hsize d3)) s))); [apply good_readBytes|]. intros v. gp. intros d4.
  apply (good_bind' (fun s => need ERR_NOT_ENOUGH_DATA (readBytes (d_hsize d4) (Z.of_N (d_hsize d4)) s))); [apply good_readBytes|]. intros sa. gp. intros d5. gp. intros d6.
  g1. intros k. apply (good_bind' (s_encs (N.to_nat k) d6)); [apply good_encs|]. intros d7. gp. intros d8. gp. intros l. apply good_ret.
Qed.
Definition ending (bd : build) (used : N) (p : (dheader * N * N) * bytes) : dres (dheader * bytes) :=
  let '((d, l, hsz), s) := p in _ <~ dassert bd (used - lenN s =? l) ;; _ <~ dassert bd (l =? hsz) ;; dret (d, s).
Lemma dbind_assoc {A B C} (m : dres A) (f : A -> dres B) (g : B -> dres C) : dbind (dbind m f) g = dbind m (fun a => dbind (f a) g).
Proof. destruct m as [[e|a]|e|c|]; reflexivity. Qed.
Lemma sized_core bd rnd size file : decode_sized bd rnd size file = noexcept (dbind (core bd rnd size file) (ending bd (lenN file))).
Proof.
  unfold decode_sized, core. f_equal. rewrite dbind_assoc.
  repeat (match goal with
  | |- dbind ?m _ = dbind ?m _ => let E := fresh "E" in destruct m as [[?|?]|?|?|] eqn:E; cbn [dbind]; [reflexivity| |reflexivity|reflexivity|reflexivity]
  | |- context [let '(_, _) := ?p in _] => is_var p; destruct p
  | |- context [if ?b then dfail _ else _] => destruct b; [reflexivity|]
  | |- _ = dbind (dbind _ _) _ => rewrite dbind_assoc
  end).
  cbn [dret dbind ending]. reflexivity.
Qed.
Lemma sized_stream bd rnd file : decode_stream bd rnd file = decode_sized bd rnd (lenN file) file.
Proof. reflexivity. Qed.

Lemma sized_accept bd rnd size file d r : decode_sized bd rnd size file = Ret (inr (d, r)) ->
  exists x, file = x ++ r /\ (forall r', decode_sized bd rnd size (x ++ r') = Ret (inr (d, r'))) /\
            (forall r', lenN (x ++ r') = size -> decode_stream bd rnd (x ++ r') = Ret (inr (d, r'))).
Proof.
  rewrite sized_core. pose proof (good_core bd rnd size file) as G. destruct (core bd rnd size file) as [[e|[[[d0 l] hsz] s]]|e|c|] eqn:Ec; try discriminate.
  destruct G as (x & -> & G). cbn [dbind ending]. intros E. exists x.
  assert (forall r', decode_sized bd rnd size (x ++ r') = Ret (inr (d0, r')) /\ s = r /\ d0 = d) as K.
  { intros r'. rewrite sized_core, G. cbn [dbind ending]. replace (lenN (x ++ r') - lenN r') with (lenN (x ++ s) - lenN s) by (rewrite !lenN_app; lia).
    destruct (dassert bd (lenN (x ++ s) - lenN s =? l)) as [[e|[]]|e|c|]; try discriminate E. cbn [dbind] in *.
    destruct (dassert bd (l =? hsz)) as [[e|[]]|e|c|]; try discriminate E. cbn [dbind dret noexcept] in *. injection E as -> ->. auto. }
  destruct (K []) as (_ & -> & ->). split; [reflexivity|]. split; [intros r'; apply K|]. intros r' L. rewrite sized_stream, L. apply K.
Qed.
(** more bytes in the stream change nothing but ERR_NOT_ENOUGH_DATA *)
Lemma sized_more bd rnd size s t :
  decode_sized bd rnd size s = Ret (inl ERR_NOT_ENOUGH_DATA) \/
  decode_sized bd rnd size (s ++ t) = match decode_sized bd rnd size s with Ret (inr (d, r)) => Ret (inr (d, r ++ t)) | o => o end.
Proof.
  rewrite !sized_core. pose proof (good_core bd rnd size s) as G. destruct (core bd rnd size s) as [[e|[[[d0 l] hsz] r]]|e|c|] eqn:Ec.
  - destruct e; try (right; rewrite (G t); reflexivity). left. reflexivity.
  - right. destruct G as (x & -> & G). rewrite <- app_assoc, G. cbn [dbind ending]. rewrite !lenN_app.
    replace (lenN x + (lenN r + lenN t) - (lenN r + lenN t)) with (lenN x + lenN r - lenN r) by lia.
    destruct (dassert bd (lenN x + lenN r - lenN r =? l)) as [[e|[]]|e|c|]; cbn [dbind noexcept]; try reflexivity.
    destruct (dassert bd (l =? hsz)) as [[e|[]]|e|c|]; reflexivity.
  - right. rewrite (G t). reflexivity.
  - right. rewrite (G t). reflexivity.
  - right. rewrite (G t). reflexivity.
Qed.
