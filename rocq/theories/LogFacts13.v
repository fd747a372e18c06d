(** Lemmas for C98: the log of selecting a file with a mode that does not exist. *)
From Coq Require Import Strings.String.
From Verif Require Import Base BaseFacts BytesModel BytesSpec BytesFacts BytesFacts2 MiscModel CipherModel PwModel ChModel HeaderModel HeaderSpec HeaderFacts HeaderFacts2 HeaderFacts3 FileModel FileFacts ApiModel ApiSpec ApiFacts4
  LogModel LogFacts1 LogSpec LogSpec3 LogFacts7.
Open Scope N_scope.
Open Scope list_scope.

Lemma read8_log n v s : v < two64 -> read8_l n (u64 v ++ s) = ok (v, s).
Proof. intros L. unfold read8_l, readBytes_l. rewrite u64_read by exact L. unfold bindr, bindl. cbn [snd fst ok]. unfold lift_l, trouble. rewrite toLong_u64 by exact L. reflexivity. Qed.
Lemma read1_log n v s : v < 256 -> read1_l n (u8 v ++ s) = ok (v, s).
Proof. intros L. unfold read1_l. rewrite read1_u8 by exact L. reflexivity. Qed.
Lemma next {A B} (x : A) (k : A -> lres B) : bindr (ok x) k = k x.
Proof. unfold bindr, bindl, ok. cbn [snd fst app]. destruct (k x). reflexivity. Qed.

Lemma stops {A B} ls e (k : A -> lres B) : bindr (err ls e) k = err ls e.
Proof. unfold bindr, bindl, err. cbn [snd fst]. rewrite app_nil_r. reflexivity. Qed.
Lemma after {A B} ls (x : A) (k : A -> lres B) : bindr (ls, Ret (inr x)) k = (ls ++ fst (k x), snd (k x)).
Proof. reflexivity. Qed.
(** ** Reading the header *)
Definition in_reader (fm hm : N) : list line * lerr :=
  if hash_mode_valid hm
  then ([dh 11 [Num hm]; lookup hm; lookup hm; dh 67 [Num fm]; mkLine SError Dataheader_h 201 [Num fm]; mode_error 710 fm], E ERR_FILEMODE_INVALID [Txt [n2b fm]] (Some InvalidArgument))
  else ([dh 11 [Num hm]; mkLine SError Dataheader_h 211 [Num hm]; mode_error 698 hm], E ERR_HASHMODE_INVALID [Txt [n2b hm]] (Some InvalidArgument)).
Lemma decode_bad_mode bd rnd c hsz fm hm r : (forall k, lenN (rnd k) = k) -> lenN c < two64 -> c = u64 (lenN c) ++ u64 hsz ++ u8 fm ++ u8 hm ++ r -> hsz <= lenN c -> fm < 256 -> hm < 256 ->
  hash_mode_valid hm && file_mode_valid fm = false -> decode_stream_l bd rnd c = err (fst (in_reader fm hm)) (snd (in_reader fm hm)).
Proof.
  intros R L E Hs Lf Lh V. unfold decode_stream_l. rewrite E at 1. rewrite read8_log by exact L. rewrite next. rewrite read8_log by lia. rewrite next. rewrite N.eqb_refl. cbn [negb].
  destruct (N.ltb_spec (lenN c) hsz); [lia|]. rewrite read1_log by exact Lf. rewrite next. rewrite read1_log by exact Lh. rewrite next. unfold in_reader.
  destruct (hash_mode_valid hm) eqn:Vh.
  - cbn [andb] in V. assert (1 <= hm <= 3) as B by (unfold hash_mode_valid in Vh; apply andb_true_iff in Vh as [B1 B2]; apply N.leb_le in B1, B2; lia).
    destruct (new_ret rnd hm R B) as [d Nd]. unfold newDataHeader_l. rewrite Vh, Nd. unfold try_l at 1. cbn [snd fst low_lines]. rewrite after.
    unfold try_l at 1. unfold d_setFileDataMode_l, d_setFileDataMode, p_setFileDataMode. rewrite V. cbn [bind snd fst handle_invalid app]. reflexivity.
  - unfold newDataHeader_l, newDataHeader, p_setHashMode. rewrite Vh. reflexivity.
Qed.
(** ** Opening the file *)
Lemma handler_sized w f p c hsz : openable w f p c -> lenN c < two64 -> sizes_fit c hsz -> getFileHandler_l w f p = ok (mkFH p hsz (lenN c) false).
Proof.
  intros O L (r & E & B). unfold getFileHandler_l, newFileHandler_l, isValidPath_l. rewrite (openable_valid _ _ _ _ O), (new_open _ _ _ _ O), (openable_stream _ _ _ _ O).
  assert (fh_update p c = Ret (mkFH p hsz (lenN c) false)) as U.
  { destruct (update_spec p c L) as [[-> _]|[(h2 & (r2 & E2 & B2) & L2 & U)|(_ & No & _)]].
    - change (lenN []) with 0 in B. lia.
    - rewrite E in E2 at 1. apply app_inv_head in E2. apply u64_inj in E2 as [-> _]; [exact U|lia|exact L2].
    - exfalso. apply (No hsz); [lia|]. exists r. split; assumption. }
  destruct (update_log _ _ _ U) as (_ & Em & Ul). cbn [fh_empty] in Em. rewrite <- Em in Ul. rewrite U, Ul. reflexivity.
Qed.
Lemma select_failed w a f p h ls e : getFileHandler_l w f p = ok h -> fh_empty h = false -> fh_getDataHeader_l w f 0 h = err ls e ->
  selectFile_l w a f p = (api_cpp SVerbose 372 [Txt p] :: ls ++ [api_cpp SError 238 (shown e)], Ret (a, failed (e_code e))).
Proof. intros E1 E2 E3. unfold selectFile_l. rewrite E1. unfold bindl, onerr, say, ok. cbn [fst snd]. rewrite E2, E3. cbn. rewrite app_nil_r. reflexivity. Qed.
Lemma select_bad_mode w a f p c hsz fm hm r : (forall i k, lenN (w_rnd w i k) = k) -> fs_ok f -> a_state a = INIT -> enc_path p -> w_stat w p = true -> w_read w p = true -> f (w_loc w p) = Some c ->
  c = u64 (lenN c) ++ u64 hsz ++ u8 fm ++ u8 hm ++ r -> 104 <= hsz <= lenN c -> fm < 256 -> hm < 256 -> ~ (fm = 1 /\ 1 <= hm <= 3) ->
  lines_of w a f (OSelect p) = fst (bad_mode p fm hm) /\ step w a f (OSelect p) = (f, Ret (a, RErr FAIL (snd (bad_mode p fm hm)))).
Proof.
  intros R Hf S0 Ep St Rd Fc E B Lf Lh V. assert (openable w f p c) as O by (split; [exact Ep|]; split; [exact St|]; split; [exact Fc|exact Rd]).
  assert (lenN c < two64) as L by (apply lt63_two64; exact (Hf _ _ Fc)). assert (hash_mode_valid hm && file_mode_valid fm = false) as V2.
  { apply not_true_is_false. intros T. apply V. unfold hash_mode_valid, file_mode_valid in T. rewrite !andb_true_iff, !N.leb_le in T. lia. }
  assert (selectFile_l w a f p = (tl (fst (bad_mode p fm hm)), Ret (a, RErr FAIL (snd (bad_mode p fm hm))))) as K.
  { assert (fh_getDataHeader_l w f 0 (mkFH p hsz (lenN c) false) = err (fst (in_reader fm hm)) (snd (in_reader fm hm))) as G.
    { unfold fh_getDataHeader_l. cbn [fh_path]. rewrite (openable_stream _ _ _ _ O), (decode_bad_mode (w_build w) (w_rnd w 0%nat) c hsz fm hm r (R 0%nat) L E (proj2 B) Lf Lh V2), stops. reflexivity. }
    rewrite (select_failed w a f p _ _ _ (handler_sized w f p c hsz O L ltac:(eexists; split; [exact E|exact B])) eq_refl G). clear G.
    unfold in_reader, bad_mode. change ((1 <=? hm) && (hm <=? 3)) with (hash_mode_valid hm). destruct (hash_mode_valid hm); reflexivity. }
  split.
  - unfold lines_of. rewrite S0, K. cbn [fst]. unfold bad_mode. destruct ((1 <=? hm) && (hm <=? 3)); reflexivity.
  - unfold step. rewrite S0. rewrite <- select_erase, K. reflexivity.
Qed.
