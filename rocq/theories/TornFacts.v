(** Proofs for C38: what a file holds at every moment of a save. *)
From Coq Require Import Strings.Byte.
From Verif Require Import Base BaseFacts BytesModel BytesFacts MiscModel MiscFacts CipherModel CipherSpec PwModel PwSpec ChModel ChSpec
  HeaderModel HeaderSpec FileModel ApiModel ApiSpec ApiSpec2 FileFacts ApiFacts ApiFacts2 ApiFacts5 ApiFacts7 ApiFacts8 ApiFacts9 SecSpec SecFacts
  InterModel InterSpec InterFacts InterFacts2 InterFacts3 InterFacts4 TornSpec.
Import ListNotations.
Open Scope N_scope.
Open Scope list_scope.

Section T.
Variable w : world. Variable p : bytes. Variable m : N. Variable k : nat.
Notation l := (w_loc w p).
Hypothesis Hm : m <> l.
Notation env := (copying k l m).

Lemma env_l n f : env n f l = f l.
Proof using Hm. unfold copying. destruct (Nat.eqb n k); [apply upd_other; congruence|reflexivity]. Qed.
Lemma change_l n x done g : g l = Some done -> snd (change env (write_at w p (lenN done) x) (n, g)) l = Some (done ++ x).
Proof using Hm. intros E. unfold change, write_at, at_. cbn [fst snd]. rewrite env_l, E, upd_same, overwrite_end. reflexivity. Qed.
Lemma change_m n x done g : g l = Some done -> snd (change env (write_at w p (lenN done) x) (n, g)) m = if Nat.eqb n k then Some done else g m.
Proof using Hm.
  intros E. unfold change, write_at, at_. cbn [fst snd]. rewrite env_l, E, upd_other by exact Hm. unfold copying. destruct (Nat.eqb n k); [rewrite upd_same; exact E|reflexivity].
Qed.
Lemma pieces_copied cuts : forall n rest done g, g l = Some done ->
  snd (write_pieces w env cuts p (lenN done) rest (n, g)) l = Some (done ++ rest) /\
  snd (write_pieces w env cuts p (lenN done) rest (n, g)) m =
    if (n <=? k)%nat && (k <=? n + length cuts)%nat then Some (done ++ takeN (pieces_of (k - n) cuts) rest) else g m.
Proof using Hm.
  induction cuts as [|c r IH]; intros n rest done g E; cbn [write_pieces].
  - split; [apply change_l; exact E|]. rewrite change_m by exact E. cbn [length]. rewrite Nat.add_0_r.
    destruct (Nat.eqb_spec n k) as [->|Q].
    + rewrite Nat.leb_refl, Nat.sub_diag. cbn. rewrite app_nil_r. reflexivity.
    + destruct (Nat.leb_spec n k), (Nat.leb_spec k n); cbn [andb]; try reflexivity. lia.
  - replace (lenN done + lenN (takeN c rest)) with (lenN (done ++ takeN c rest)) by apply lenN_app.
    pose proof (change_l n (takeN c rest) done g E) as El. pose proof (change_m n (takeN c rest) done g E) as Em.
    destruct (change env (write_at w p (lenN done) (takeN c rest)) (n, g)) as [n1 g1] eqn:Ec. assert (n1 = S n) as -> by (unfold change in Ec; injection Ec; auto). cbn [fst snd] in El, Em.
    destruct (IH (S n) (dropN c rest) _ g1 El) as [A B]. split; [refine (eq_trans A _); rewrite <- app_assoc, takeN_dropN; reflexivity|]. refine (eq_trans B _). rewrite Em. cbn [length].
    destruct (Nat.eqb_spec n k) as [->|Q].
    + rewrite Nat.leb_refl, Nat.sub_diag. destruct (Nat.leb_spec (S k) k); [lia|]. cbn [andb]. destruct (Nat.leb_spec k (k + S (length r))); [|lia]. cbn. rewrite app_nil_r. reflexivity.
    + destruct (Nat.leb_spec (S n) k), (Nat.leb_spec n k); try lia; cbn [andb]; try reflexivity.
      replace (n + S (length r))%nat with (S n + length r)%nat by lia. destruct (Nat.leb_spec k (S n + length r)); [|reflexivity]. f_equal. rewrite <- app_assoc. f_equal.
      unfold pieces_of. replace (k - n)%nat with (S (k - S n)) by lia. cbn [firstn fold_right]. set (u := fold_right N.add 0 _).
      destruct (N.le_gt_cases c (lenN rest)) as [Lc|Lc].
      * rewrite <- (takeN_dropN c rest) at 3. rewrite takeN_app_ge by (rewrite lenN_takeN; lia). rewrite lenN_takeN. replace (c + u - N.min c (lenN rest)) with u by lia. reflexivity.
      * rewrite (takeN_all c) by lia. rewrite (dropN_all c) by lia. rewrite (takeN_all (c + u)) by lia. rewrite takeN_all by (unfold lenN; cbn; lia). apply app_nil_r.
Qed.

(** before the file is opened for writing *)
Variable f : fs. Variable x : bytes. Hypothesis Fl : f l = Some x.
Definition G (n : nat) : fs := if (k <=? n)%nat then upd f m (Some x) else f.
Lemma G_l n : G n l = Some x.
Proof using Hm Fl. unfold G. destruct (k <=? n)%nat; [rewrite upd_other by congruence|]; exact Fl. Qed.
Lemma G_m n : G n m = if (k <=? n)%nat then Some x else f m.
Proof using. unfold G. destruct (k <=? n)%nat; [apply upd_same|reflexivity]. Qed.
Lemma G_0 : env 0%nat f = G 0.
Proof using Fl. unfold copying, G. destruct k; cbn; [rewrite Fl; reflexivity|reflexivity]. Qed.
Lemma G_S n : env (S n) (G n) = G (S n).
Proof using Fl Hm.
  unfold copying, G. destruct (Nat.eqb_spec (S n) k) as [<-|Q].
  - destruct (Nat.leb_spec (S n) n); [lia|]. rewrite Nat.leb_refl, Fl. reflexivity.
  - destruct (Nat.leb_spec k n), (Nat.leb_spec k (S n)); try lia; reflexivity.
Qed.

(** opening and the pieces *)
Lemma opened_pieces data n cuts : 
  let g := upd (G n) l (Some []) in
  snd (write_pieces w env cuts p 0 data (S n, g)) l = Some data /\
  snd (write_pieces w env cuts p 0 data (S n, g)) m =
    if (k <? S n)%nat then f l else if (k <=? S n + length cuts)%nat then Some (takeN (pieces_of (k - S n) cuts) data) else f m.
Proof using Hm Fl.
  intros g. destruct (pieces_copied cuts (S n) data [] g (upd_same _ _ _)) as [A B]. change (lenN []) with 0 in *. split; [exact A|]. refine (eq_trans B _). cbn [app].
  assert (g m = if (k <=? n)%nat then Some x else f m) as -> by (unfold g; rewrite upd_other by exact Hm; apply G_m).
  change ((k <? S n)%nat) with ((k <=? n)%nat). destruct (Nat.leb_spec (S n) k), (Nat.leb_spec k n); try lia; cbn [andb]; [|rewrite Fl; reflexivity].
  reflexivity.
Qed.
End T.

Section S.
Variable H : hashes. Hypothesis HH : hashes_ok H. Variable bd : build.
Lemma copied_during_save mode tr a : history bd H mode tr a -> a_state a = ENCRYPTED -> exists c, to_save H tr c /\
  forall w o q (f : fs) x m cuts k, saves_to tr o q -> usable_file w q -> enc_path q -> f (w_loc w q) = Some x -> (o <> OWrite -> x = []) -> m <> w_loc w q ->
  exists s' a', step_i w (copying k (w_loc w q) m) cuts a o (O, f) = (s', Ret (a', ROk)) /\
    snd s' (w_loc w q) = Some (takeN (w_room w) c) /\
    snd s' m = if (k <? first_piece o)%nat then f (w_loc w q)
               else if (k <=? first_piece o + length cuts)%nat then Some (takeN (N.min (w_room w) (pieces_of (k - first_piece o) cuts)) c) else f m.
Proof using HH.
  intros Hh Es. destruct (ready_to_save H HH bd _ _ _ Hh Es) as (p0 & x0 & fh & t & Q1 & Q2 & Q3 & F & T). exists (bdata t). split; [exact T|].
  intros w o q f x m cuts k So U Ep Fl Ho Hm. set (e := copying k (w_loc w q) m). pose proof (G_l w q m k Hm f x Fl) as Gl.
  pose proof (G_0 w q m k f x Fl) as G0. pose proof (fun n => G_S w q m k Hm f x Fl n) as GS. fold e in G0, GS. set (g := G m k f x) in *.
  destruct So as [->|[-> [x' Sel]]].
  - assert (x = []) as -> by (apply Ho; discriminate). unfold step_i. rewrite Es. unfold writeToPath_i, getFileHandler_i.
    rewrite (valid_there w e q 0 f (g 0%nat) (g 1%nat) [] [] U Ep G0 (GS _) (Gl _) (Gl _)). unfold dret, newFileHandler_i.
    rewrite (valid_there w e q 2 (g 1%nat) (g 2%nat) (g 3%nat) [] [] U Ep (GS _) (GS _) (Gl _) (Gl _)). unfold dret, update_i.
    rewrite (open_read_there w e q 4 (g 3%nat) (g 4%nat) [] U (GS _) (Gl _)), (later_there w e q [] 5 (g 4%nat) (g 5%nat) [] (GS _) (Gl _)), (later_there w e q [] 6 (g 5%nat) (g 6%nat) [] (GS _) (Gl _)).
    change (noexcept (try_ (any_std ERR_FILEHANDLER_CREATION) (update_sized q (lenN []) []))) with (dret (mkFH q 0 0 true)). unfold dret, getWriteStreamIfEmpty_i, getWriteStream_i. cbn [fh_empty fh_path].
    rewrite (valid_there w e q 7 (g 6%nat) (g 7%nat) (g 8%nat) [] [] U Ep (GS _) (GS _) (Gl _) (Gl _)). unfold dret, open_write, at_. cbn [fst snd]. rewrite (GS 8%nat), Gl.
    destruct U as (U1 & U2 & U3). rewrite U3. unfold finishWrite_i. rewrite F. cbn [noexcept]. eexists. eexists. split; [reflexivity|].
    destruct (opened_pieces w q m k Hm f [] Fl (takeN (w_room w) (bdata t)) 9 cuts) as [A B]. split; [exact A|]. refine (eq_trans B _). cbn [first_piece]. rewrite takeN_takeN, N.min_comm. reflexivity.
  - assert (q = p0) as -> by congruence. unfold step_i. rewrite Es. unfold writeToFile_i. rewrite Q2. unfold getWriteStream_i. rewrite Q3.
    rewrite (valid_there w e p0 0 f (g 0%nat) (g 1%nat) x x U Ep G0 (GS _) (Gl _) (Gl _)). unfold dret, open_write, at_. cbn [fst snd]. rewrite (GS 1%nat), Gl.
    destruct U as (U1 & U2 & U3). rewrite U3. unfold finishWrite_i. match goal with |- context [fullData ?y] => assert (fullData y = Ret t) as F' by exact F end. rewrite F'. cbn [noexcept].
    eexists. eexists. split; [reflexivity|].
    destruct (opened_pieces w p0 m k Hm f x Fl (takeN (w_room w) (bdata t)) 2 cuts) as [A B]. split; [exact A|]. refine (eq_trans B _). cbn [first_piece]. rewrite takeN_takeN, N.min_comm. reflexivity.
Qed.
End S.

Section S2.
Variable H : hashes. Hypothesis HH : hashes_ok H. Variable bd : build.
Lemma every_prefix mode tr a : history bd H mode tr a -> a_state a = ENCRYPTED -> exists c, to_save H tr c /\
  forall w o q (f : fs) x m j, saves_to tr o q -> usable_file w q -> enc_path q -> f (w_loc w q) = Some x -> (o <> OWrite -> x = []) -> m <> w_loc w q -> j <= lenN c -> j <= w_room w ->
  exists cuts k s' a', step_i w (copying k (w_loc w q) m) cuts a o (O, f) = (s', Ret (a', ROk)) /\ snd s' (w_loc w q) = Some (takeN (w_room w) c) /\ snd s' m = Some (takeN j c).
Proof using HH.
  intros Hh Es. destruct (copied_during_save H HH bd _ _ _ Hh Es) as (c & T & K). exists c. split; [exact T|]. intros w o q f x m j So U Ep Fl Ho Hm Lj Lr.
  destruct (K w o q f x m [j] (S (first_piece o)) So U Ep Fl Ho Hm) as (s' & a' & E & A & B). exists [j], (S (first_piece o)), s', a'. split; [exact E|]. split; [exact A|]. rewrite B.
  destruct (Nat.ltb_spec (S (first_piece o)) (first_piece o)); [lia|]. cbn [length]. destruct (Nat.leb_spec (S (first_piece o)) (first_piece o + 1)); [|lia].
  replace (S (first_piece o) - first_piece o)%nat with 1%nat by lia. unfold pieces_of. cbn [firstn fold_right]. rewrite N.add_0_r, N.min_r by exact Lr. reflexivity.
Qed.
Lemma left_behind mode tr a : history bd H mode tr a -> a_state a = ENCRYPTED -> exists c, to_save H tr c /\
  forall w o q (f : fs) x m cuts k w2 q2, saves_to tr o q -> usable_file w q -> enc_path q -> f (w_loc w q) = Some x -> (o <> OWrite -> x = []) -> m <> w_loc w q ->
  (first_piece o <= k <= first_piece o + length cuts)%nat -> at_hand bd H w2 q2 m -> enc_path q2 ->
  exists s' a', step_i w (copying k (w_loc w q) m) cuts a o (O, f) = (s', Ret (a', ROk)) /\
    (snd s' m = Some c \/
     step w2 (fresh 1) (snd s') (OSelect q2) = (snd s', Ret (fresh 1, RErr FAIL ERR_FILEHANDLER_CREATION)) \/
     (snd s' m = Some [] /\ step w2 (fresh 1) (snd s') (OSelect q2) = (snd s', Ret (empty_obj q2, ROk)))).
Proof using HH.
  intros Hh Es. destruct (copied_during_save H HH bd _ _ _ Hh Es) as (c & T & K). exists c. split; [exact T|]. intros w o q f x m cuts k w2 q2 So U Ep Fl Ho Hm Hk A2 E2.
  destruct (K w o q f x m cuts k So U Ep Fl Ho Hm) as (s' & a' & E & A & B). exists s', a'. split; [exact E|].
  destruct (Nat.ltb_spec k (first_piece o)); [lia|]. destruct (Nat.leb_spec k (first_piece o + length cuts)); [|lia]. set (j := N.min _ _) in B.
  destruct T as (h & pw & data & P1 & P2 & P3 & L & Sl). destruct (torn_select H HH bd w2 q2 m (snd s') h pw data c j A2 E2 Sl L B) as [R1 R2].
  destruct (N.eq_0_gt_0_cases j) as [Z|Z]; [right; right; split; [rewrite B, Z; reflexivity|apply R2; exact Z]|].
  destruct (N.lt_ge_cases j (lenN c)) as [Y|Y]; [right; left; apply R1; split; assumption|]. left. rewrite B, takeN_all by exact Y. reflexivity.
Qed.
End S2.
