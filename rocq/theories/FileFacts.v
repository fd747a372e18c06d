(** Facts about the file handler. *)
From Coq Require Import Strings.String.
From Verif Require Import Base BaseFacts BytesModel BytesSpec BytesFacts BytesFacts2 MiscModel CipherModel PwModel ChModel ChSpec HeaderModel HeaderSpec HeaderFacts HeaderFacts2 HeaderFacts3 FileModel ApiModel ApiSpec.

Lemma beq_true a b : Byte.eqb a b = true <-> a = b.
Proof. split; [apply Byte.byte_dec_bl|apply Byte.byte_dec_lb]. Qed.
Lemma after_last_spec c s : forall acc,
  (~ In c s /\ after_last c acc s = acc) \/ exists a r, s = a ++ c :: r /\ ~ In c r /\ after_last c acc s = Some r.
Proof.
  induction s as [|x s IH]; intros acc; cbn [after_last].
  - left. split; [intros []|reflexivity].
  - destruct (Byte.eqb x c) eqn:E.
    + apply beq_true in E as ->. destruct (IH (Some s)) as [[N E]|(a & r & -> & N & E)]; right.
      * exists [], s. split; [reflexivity|]. split; assumption.
      * exists (c :: a), r. split; [reflexivity|]. split; assumption.
    + assert (x <> c) by (intros ->; rewrite (proj2 (beq_true c c) eq_refl) in E; discriminate).
      destruct (IH acc) as [[N E']|(a & r & -> & N & E')].
      * left. split; [intros [->|I]; [congruence|contradiction]|assumption].
      * right. exists (x :: a), r. split; [reflexivity|]. split; assumption.
Qed.
Lemma last_unique c (a r a' r' : bytes) : a ++ c :: r = a' ++ c :: r' -> ~ In c r -> ~ In c r' -> a = a' /\ r = r'.
Proof.
  revert a'. induction a as [|x a IH]; intros [|y a'] E N N'; cbn in E.
  - injection E as ->. split; reflexivity.
  - exfalso. injection E as <- ->. apply N. apply in_or_app. right. left. reflexivity.
  - exfalso. injection E as -> <-. apply N'. apply in_or_app. right. left. reflexivity.
  - injection E as <- E. destruct (IH a' E N N') as [-> ->]. split; reflexivity.
Qed.
Lemma after_last_at c a r acc : ~ In c r -> after_last c acc (a ++ c :: r) = Some r.
Proof.
  intros N. destruct (after_last_spec c (a ++ c :: r) acc) as [[X _]|(a' & r' & E & N' & ->)].
  - exfalso. apply X. apply in_or_app. right. left. reflexivity.
  - destruct (last_unique _ _ _ _ _ E N N') as [_ ->]. reflexivity.
Qed.
Lemma after_last_none c s acc : ~ In c s -> after_last c acc s = acc.
Proof. intros N. destruct (after_last_spec c s acc) as [[_ E]|(a & r & -> & _ & _)]; [exact E|]. exfalso. apply N. apply in_or_app. right. left. reflexivity. Qed.
Lemma filename_cases p : exists d, p = d ++ filename p /\ ~ In slash (filename p) /\ (d = [] \/ exists d', d = d' ++ [slash]).
Proof.
  unfold filename. destruct (after_last_spec slash p None) as [[N ->]|(a & r & -> & N & ->)].
  - exists []. split; [reflexivity|]. split; [exact N|left; reflexivity].
  - exists (a ++ [slash]). split; [rewrite <- app_assoc; reflexivity|]. split; [exact N|]. right. exists a. reflexivity.
Qed.
Lemma filename_app d fn : ~ In slash fn -> (d = [] \/ exists d', d = d' ++ [slash]) -> filename (d ++ fn) = fn.
Proof.
  intros N [->|[d' ->]]; unfold filename.
  - cbn [app]. rewrite after_last_none by exact N. reflexivity.
  - rewrite <- app_assoc. cbn [app]. rewrite after_last_at by exact N. reflexivity.
Qed.
Definition enc_tail : bytes := [x65; x6e; x63].                (* enc *)
Lemma enc_ext : enc_extension = dot :: enc_tail.
Proof. reflexivity. Qed.
Lemma no_dot_tail : ~ In dot enc_tail.
Proof. intros [E|[E|[E|[]]]]; discriminate E. Qed.
Lemma extension_enc p : extension p = enc_extension <-> enc_path p.
Proof.
  unfold enc_path. change (str ".enc") with (dot :: enc_tail). split.
  - intros E. destruct (filename_cases p) as (d & Ep & N & Hd). unfold extension in E.
    destruct (eqb_bytes (filename p) [dot] || eqb_bytes (filename p) [dot; dot]); [discriminate|].
    destruct (after_last_spec dot (filename p) None) as [[_ E1]|(a & r & E1 & Nd & E2)]; rewrite ?E1 in E; [discriminate|].
    rewrite <- E1, E2 in E. destruct (lenN r + 1 =? lenN (filename p)) eqn:L; [discriminate|].
    rewrite enc_ext in E. injection E as ->. rewrite E1 in L.
    destruct a as [|x a'] using rev_ind.
    + exfalso. cbn [app] in L. rewrite lenN_cons in L. apply N.eqb_neq in L. lia.
    + clear IHa'. exists (d ++ a'), x. split.
      * rewrite Ep, E1. rewrite <- !app_assoc. reflexivity.
      * intros ->. apply N. rewrite E1. apply in_or_app. left. apply in_or_app. right. left. reflexivity.
  - intros (a & c & -> & Hc).
    destruct (filename_cases (a ++ [c] ++ dot :: enc_tail)) as (d & Ep & N & Hd).
    set (fn := filename (a ++ [c] ++ dot :: enc_tail)) in *.
    assert (exists a', fn = a' ++ [c] ++ dot :: enc_tail) as [a' Ef].
    { destruct (after_last_spec slash a None) as [[Na _]|(a1 & a2 & -> & Na & _)].
      - exists a. subst fn. unfold filename. rewrite after_last_none; [reflexivity|]. intros I.
        apply in_app_or in I as [I|I]; [contradiction|]. destruct I as [->|[I|[I|[I|[I|[]]]]]]; try discriminate I. apply Hc. reflexivity.
      - exists a2. subst fn. unfold filename. rewrite <- app_assoc. cbn [app]. rewrite after_last_at; [reflexivity|]. intros I.
        apply in_app_or in I as [I|I]; [contradiction|]. destruct I as [->|[I|[I|[I|[I|[]]]]]]; try discriminate I. apply Hc. reflexivity. }
    unfold extension. fold fn. rewrite Ef.
    assert (forall x, lenN x < 5 -> eqb_bytes (a' ++ [c] ++ dot :: enc_tail) x = false) as Q.
    { intros x Lx. destruct (eqb_bytes _ x) eqn:E; [|reflexivity]. apply eqb_bytes_spec in E. subst x.
      rewrite !lenN_app in Lx. change (lenN [c]) with 1 in Lx. change (lenN (dot :: enc_tail)) with 4 in Lx. lia. }
    rewrite !Q by (vm_compute; reflexivity). cbn [orb].
    replace (a' ++ [c] ++ dot :: enc_tail) with ((a' ++ [c]) ++ dot :: enc_tail) by (rewrite <- app_assoc; reflexivity).
    rewrite after_last_at by exact no_dot_tail.
    rewrite !lenN_app. change (lenN [c]) with 1. change (lenN (dot :: enc_tail)) with 4. change (lenN enc_tail) with 3.
    replace (3 + 1 =? lenN a' + 1 + 4) with false by (symmetry; apply N.eqb_neq; lia). reflexivity.
Qed.
Lemma enc_path_nonempty p : enc_path p -> (lenN p =? 0) = false.
Proof. intros (a & c & -> & _). apply N.eqb_neq. rewrite !lenN_app. change (lenN [c]) with 1. lia. Qed.
Lemma ext_true p : enc_path p -> eqb_bytes (extension p) enc_extension = true.
Proof. intros E. apply eqb_bytes_spec, extension_enc, E. Qed.
Lemma ext_false p : ~ enc_path p -> eqb_bytes (extension p) enc_extension = false.
Proof. intros N. destruct (eqb_bytes _ _) eqn:E; [|reflexivity]. exfalso. apply N, extension_enc, eqb_bytes_spec, E. Qed.
Lemma enc_path_dec p : enc_path p \/ ~ enc_path p.
Proof. destruct (eqb_bytes (extension p) enc_extension) eqn:E; [left|right; intros X; rewrite ext_true in E by exact X; discriminate]. apply extension_enc, eqb_bytes_spec, E. Qed.

(** ** isValidPath *)
Lemma valid_path_cases w f p b :
  (p = [] /\ isValidPath w f p b = dfail ERR_EMPTY_FILEPATH) \/
  (p <> [] /\ ~ enc_path p /\ isValidPath w f p b = dfail ERR_EXTENSION_INVALID) \/
  (enc_path p /\ w_stat w p = false /\ isValidPath w f p b = Crash Terminate) \/
  (enc_path p /\ w_stat w p = true /\ isValidPath w f p b =
     if b then match f (w_loc w p) with None => dfail ERR_FILE_NOT_FOUND | Some _ => if w_read w p then dret tt else dfail ERR_FILE_NOT_OPEN end
     else match f (w_loc w p) with None => dret tt | Some _ => dfail ERR_FILE_EXISTS end).
Proof.
  unfold isValidPath. destruct p as [|x p']; [left; split; reflexivity|right]. set (p := x :: p') in *.
  assert ((lenN p =? 0) = false) as -> by (apply N.eqb_neq; subst p; rewrite lenN_cons; lia).
  destruct (enc_path_dec p) as [E|E].
  - right. rewrite ext_true by exact E. cbn [negb]. unfold exists_. destruct (w_stat w p) eqn:S; [right|left]; spl; try exact E; try reflexivity.
    cbn [bind]. destruct (f (w_loc w p)), b; try reflexivity. cbn [negb]. destruct (w_read w p); reflexivity.
  - left. rewrite ext_false by exact E. spl; try exact E; try reflexivity. discriminate.
Qed.
Lemma valid_path_ok w f p c : enc_path p -> w_stat w p = true -> w_read w p = true -> f (w_loc w p) = Some c -> isValidPath w f p true = dret tt.
Proof.
  intros E S R F. destruct (valid_path_cases w f p true) as [[-> _]|[(_ & N & _)|[(_ & N & _)|(_ & _ & X)]]].
  - destruct E as (a & x & E & _). destruct a; discriminate E.
  - contradiction.
  - congruence.
  - rewrite F, R in X. exact X.
Qed.

(** ** Opening *)
Lemma u64_read v s : v < two64 -> readBytes 8 8 (u64 v ++ s) = Some (u64 v, s).
Proof. intros Hv. change 8%Z with (Z.of_N 8). rewrite readBytes_N by (vm_compute; reflexivity). apply read_n_eq; [apply u64_len|vm_compute; discriminate]. Qed.
Lemma toLong_u64 v cap : v < two64 -> toLong (mkBytes (u64 v) cap) = Ret v.
Proof. intros Hv. rewrite toLong_val; [|unfold getLen; cbn [bdata]; rewrite u64_len; lia]. cbn [bdata]. rewrite u64_val by exact Hv. reflexivity. Qed.
Lemma read_short s : lenN s < 8 -> readBytes 8 8 s = None.
Proof.
  intros L. change 8%Z with (Z.of_N 8). rewrite readBytes_N by (vm_compute; reflexivity). unfold read_n.
  destruct (N.leb_spec 8 (lenN s)); [lia|]. rewrite andb_false_r. reflexivity.
Qed.
Lemma split8 s : (lenN s < 8) \/ exists v r, v < two64 /\ s = u64 v ++ r.
Proof. destruct (read8_cases s) as [(v & r & Hv & E)|[_ L]]; [right; eauto|left; exact L]. Qed.
Lemma u64_inj a b x y : a < two64 -> b < two64 -> u64 a ++ x = u64 b ++ y -> a = b /\ x = y.
Proof.
  intros Ha Hb E. assert (takeN 8 (u64 a ++ x) = takeN 8 (u64 b ++ y)) as T by (rewrite E; reflexivity).
  rewrite <- (u64_len a) in T at 1. rewrite takeN_app_exact in T. rewrite <- (u64_len b) in T. rewrite takeN_app_exact in T.
  assert (be_val (u64 a) = be_val (u64 b)) as V by (rewrite T; reflexivity). rewrite !u64_val in V by assumption. subst b.
  split; [reflexivity|]. apply app_inv_head in E. exact E.
Qed.
(** update: what it takes for the constructor to return *)
Lemma update_spec p c : lenN c < two64 ->
  (c = [] /\ fh_update p c = Ret (mkFH p 0 0 true)) \/
  (exists hsz, sizes_fit c hsz /\ hsz < two64 /\ fh_update p c = Ret (mkFH p hsz (lenN c) false)) \/
  (c <> [] /\ (forall hsz, hsz < two64 -> ~ sizes_fit c hsz) /\ exists e, (e = LengthError \/ e = LogicError) /\ fh_update p c = Throw e).
Proof.
  intros Hc. destruct c as [|x c']; [left; split; reflexivity|right]. set (c := x :: c') in *.
  assert (0 < lenN c) as Pos by (subst c; rewrite lenN_cons; lia).
  assert ((lenN c =? 0) = false) as Z by (apply N.eqb_neq; lia).
  assert (c <> []) as NE by (subst c; discriminate).
  assert (forall n r, n < two64 -> c = u64 n ++ r -> n <> lenN c -> forall hsz, hsz < two64 -> ~ sizes_fit c hsz) as No1.
  { intros n r Hn E D hsz _ (r' & E' & _). rewrite E in E' at 1. apply u64_inj in E' as [-> _]; [|assumption..]. apply D. reflexivity. }
  unfold fh_update. cbv zeta. rewrite Z. destruct (split8 c) as [L|(n & r & Hn & E)].
  { right. rewrite read_short by exact L. cbn [bind]. spl; [exact NE| |exists LengthError; spl; [left|]; reflexivity].
    intros hsz _ (r & _ & X). lia. }
  assert (readBytes 8 8 c = Some (u64 n, r)) as R by (rewrite E; apply u64_read; exact Hn). rewrite R. rewrite toLong_u64 by exact Hn. cbn [bind].
  destruct (N.eqb_spec n (lenN c)) as [->|D]; cbn [negb bind].
  2:{ right. spl; [exact NE|eapply No1; eassumption|exists LogicError; spl; [right|]; reflexivity]. }
  destruct (split8 r) as [L|(m & r2 & Hm & ->)].
  { right. rewrite read_short by exact L. cbn [bind]. spl; [exact NE| |exists LengthError; spl; [left|]; reflexivity].
    intros hsz _ (r' & E' & X). rewrite E in E' at 1. apply app_inv_head in E'. subst r. rewrite lenN_app, u64_len in L. lia. }
  rewrite u64_read by exact Hm. rewrite toLong_u64 by exact Hm. cbn [bind]. rewrite andb_false_r. cbn [negb]. rewrite andb_true_r.
  assert (forall hsz, hsz < two64 -> sizes_fit c hsz -> hsz = m /\ 104 <= m <= lenN c) as Only.
  { intros hsz Hh (r' & E' & X). rewrite E in E' at 1. apply app_inv_head in E'. apply u64_inj in E' as [-> _]; [|assumption..]. split; [reflexivity|exact X]. }
  destruct (N.ltb_spec (lenN c) m).
  { right. spl; [exact NE| |exists LogicError; spl; [right|]; reflexivity]. intros hsz Hh F. apply Only in F; [lia|exact Hh]. }
  change MIN_DATAHEADER_LEN with 104. destruct (N.ltb_spec m 104).
  { right. spl; [exact NE| |exists LengthError; spl; [left|]; reflexivity]. intros hsz Hh F. apply Only in F; [lia|exact Hh]. }
  left. exists m. spl; [|exact Hm|reflexivity]. exists r2. split; [exact E|lia].
Qed.

Lemma lt63_64 n : n < 2 ^ 63 -> n < two64.
Proof. unfold two64. change (2 ^ 63) with 9223372036854775808. lia. Qed.
Lemma update_empty p : fh_update p [] = Ret (mkFH p 0 0 true).
Proof. reflexivity. Qed.
Lemma fit_unique c a b : lenN c < two64 -> a < two64 -> b < two64 -> sizes_fit c a -> sizes_fit c b -> a = b.
Proof.
  intros Lc La Lb (r1 & E1 & _) (r2 & E2 & _). rewrite E1 in E2 at 1. rewrite E1 in E2 at 1.
  assert (u64 (lenN c) ++ u64 a ++ r1 = u64 (lenN c) ++ u64 b ++ r2) as E3 by congruence.
  apply app_inv_head in E3. apply u64_inj in E3 as [-> _]; [reflexivity|assumption..].
Qed.
Lemma fit_nonempty c a : sizes_fit c a -> c <> [].
Proof. intros (r & _ & L) ->. change (lenN (@nil byte)) with 0 in L. lia. Qed.
Lemma update_fit p c hsz : lenN c < two64 -> hsz < two64 -> sizes_fit c hsz -> fh_update p c = Ret (mkFH p hsz (lenN c) false).
Proof.
  intros Lc Lh F. destruct (update_spec p c Lc) as [[-> _]|[(h' & F' & L' & ->)|(_ & N & _)]].
  - apply fit_nonempty in F. contradiction.
  - rewrite (fit_unique c h' hsz); trivial.
  - exfalso. exact (N hsz Lh F).
Qed.
(** ** _getFileHandler *)
(** whether a path can be opened, and as what *)
Definition openable (w : world) (f : fs) (p : bytes) (c : bytes) : Prop :=
  enc_path p /\ w_stat w p = true /\ f (w_loc w p) = Some c /\ w_read w p = true.
Lemma openable_valid w f p c : openable w f p c -> isValidPath w f p true = dret tt.
Proof. intros (A & B & C & D). eapply valid_path_ok; eassumption. Qed.
Lemma openable_stream w f p c : openable w f p c -> stream_of w f p = c.
Proof. intros (A & B & C & D). unfold stream_of. rewrite C, D. reflexivity. Qed.
Lemma handler_open w f p c : openable w f p c -> getFileHandler w f p = noexcept (try_ (any_std ERR_FILEHANDLER_CREATION) (fh_update p c)).
Proof.
  intros O. unfold getFileHandler, newFileHandler. rewrite (openable_valid _ _ _ _ O). cbn [dbind dret bind].
  rewrite (openable_stream _ _ _ _ O). reflexivity.
Qed.
Lemma new_open w f p c : openable w f p c -> newFileHandler w f p = fh_update p c.
Proof. intros O. unfold newFileHandler. rewrite (openable_valid _ _ _ _ O). cbn [dbind dret bind]. rewrite (openable_stream _ _ _ _ O). reflexivity. Qed.
Lemma handler_empty w f p : openable w f p [] -> getFileHandler w f p = dret (mkFH p 0 0 true).
Proof. intros O. rewrite (handler_open _ _ _ _ O). reflexivity. Qed.
Lemma handler_fit w f p c hsz : openable w f p c -> lenN c < two64 -> hsz < two64 -> sizes_fit c hsz ->
  getFileHandler w f p = dret (mkFH p hsz (lenN c) false).
Proof. intros O L Lh F. rewrite (handler_open _ _ _ _ O), (update_fit _ _ hsz) by assumption. reflexivity. Qed.
Lemma handler_unfit w f p c : openable w f p c -> lenN c < two64 -> c <> [] -> (forall hsz, hsz < two64 -> ~ sizes_fit c hsz) ->
  getFileHandler w f p = dfail ERR_FILEHANDLER_CREATION.
Proof.
  intros O L NE NF. rewrite (handler_open _ _ _ _ O). destruct (update_spec p c L) as [[-> _]|[(h' & F' & L' & _)|(_ & _ & e & [-> | ->] & ->)]]; try reflexivity; try contradiction.
  exfalso. exact (NF h' L' F').
Qed.
(** all outcomes *)
Lemma handler_cases w f p : fs_ok f ->
  (exists c, openable w f p c /\ c = [] /\ getFileHandler w f p = dret (mkFH p 0 0 true) /\ newFileHandler w f p = Ret (mkFH p 0 0 true)) \/
  (exists c hsz, openable w f p c /\ lenN c < two64 /\ hsz < two64 /\ sizes_fit c hsz /\ getFileHandler w f p = dret (mkFH p hsz (lenN c) false) /\ newFileHandler w f p = Ret (mkFH p hsz (lenN c) false)) \/
  (exists c e, openable w f p c /\ c <> [] /\ (forall hsz, hsz < two64 -> ~ sizes_fit c hsz) /\ (e = LengthError \/ e = LogicError) /\
     getFileHandler w f p = dfail ERR_FILEHANDLER_CREATION /\ newFileHandler w f p = Throw e) \/
  ((forall c, ~ openable w f p c) /\ enc_path p /\ w_stat w p = false /\ getFileHandler w f p = Crash Terminate /\ newFileHandler w f p = Crash Terminate) \/
  ((forall c, ~ openable w f p c) /\ exists c, getFileHandler w f p = dfail c /\ newFileHandler w f p = Throw RuntimeError /\
     ((p = [] /\ c = ERR_EMPTY_FILEPATH) \/ (p <> [] /\ ~ enc_path p /\ c = ERR_EXTENSION_INVALID) \/
      (enc_path p /\ w_stat w p = true /\ f (w_loc w p) = None /\ c = ERR_FILE_NOT_FOUND) \/
      (enc_path p /\ w_stat w p = true /\ f (w_loc w p) <> None /\ w_read w p = false /\ c = ERR_FILE_NOT_OPEN))).
Proof.
  intros Hf. destruct (valid_path_cases w f p true) as [[Ep V]|[(NEp & Np & V)|[(Ep & S & V)|(Ep & S & V)]]].
  - do 4 right. split; [intros c (E & _); apply enc_path_nonempty in E; subst p; discriminate|]. exists ERR_EMPTY_FILEPATH.
    unfold getFileHandler, newFileHandler. rewrite V. spl; try reflexivity. left. split; [exact Ep|reflexivity].
  - do 4 right. split; [intros c (E & _); contradiction|]. exists ERR_EXTENSION_INVALID.
    unfold getFileHandler, newFileHandler. rewrite V. spl; try reflexivity. right; left. spl; [exact NEp|exact Np|reflexivity].
  - do 3 right. left. spl; [intros c (_ & E & _); congruence|exact Ep|exact S| |]; unfold getFileHandler, newFileHandler; rewrite V; reflexivity.
  - destruct (f (w_loc w p)) as [c|] eqn:F.
    + destruct (w_read w p) eqn:R.
      * assert (openable w f p c) as O by (unfold openable; auto).
        pose proof (lt63_64 _ (Hf _ _ F)) as L. destruct (update_spec p c L) as [[-> E]|[(h' & F' & L' & E)|(NE & NF & e & He & E)]].
        -- left. exists []. spl; [exact O|reflexivity|apply handler_empty, O|rewrite (new_open _ _ _ _ O); reflexivity].
        -- right; left. exists c, h'. spl; [exact O|exact L|exact L'|exact F'|apply handler_fit; assumption|rewrite (new_open _ _ _ _ O); exact E].
        -- right; right; left. exists c, e. spl; [exact O|exact NE|exact NF|exact He|eapply handler_unfit; eassumption|rewrite (new_open _ _ _ _ O); exact E].
      * do 4 right. split; [intros c' (_ & _ & _ & E); congruence|]. exists ERR_FILE_NOT_OPEN.
        unfold getFileHandler, newFileHandler. rewrite V. spl; try reflexivity. do 3 right. spl; trivial; try reflexivity. discriminate.
    + do 4 right. split; [intros c' (_ & _ & E & _); congruence|]. exists ERR_FILE_NOT_FOUND.
      unfold getFileHandler, newFileHandler. rewrite V. spl; try reflexivity. right; right; left. spl; trivial; reflexivity.
Qed.

(** the path of a directory entry *)
Lemma entry_path : (forall n, join [] n = n) /\ (forall d n, join (d ++ [x2f]) n = d ++ [x2f] ++ n) /\
  (forall d c n, c <> x2f -> join (d ++ [c]) n = d ++ [c] ++ [x2f] ++ n).
Proof.
  split; [reflexivity|]. unfold join. split.
  - intros d n. assert (filename (d ++ [x2f]) = []) as ->.
    { rewrite <- (app_nil_r (d ++ [x2f])). apply filename_app; [auto|right; exists d; reflexivity]. }
    cbn. rewrite <- app_assoc. reflexivity.
  - intros d c n Hc. destruct (filename_cases (d ++ [c])) as (e & E & _ & D). destruct (N.eqb_spec (lenN (filename (d ++ [c]))) 0) as [L|_]; [|rewrite <- app_assoc; reflexivity].
    apply lenN_0 in L. rewrite L, app_nil_r in E. exfalso. destruct D as [-> |(d' & ->)]; [destruct d; discriminate E|]. apply app_inj_tail in E. destruct E as (_ & E). exact (Hc E).
Qed.
