(** Lemmas for C98: the log of a file with a chain hash mode that does not exist. *)
From Coq Require Import Strings.String.
From Verif Require Import Base BaseFacts BytesModel BytesSpec BytesFacts BytesFacts2 MiscModel CipherModel PwModel ChModel HeaderModel HeaderSpec HeaderFacts HeaderFacts2 HeaderFacts3 HeaderFacts5 FileModel FileFacts ApiModel ApiSpec ApiFacts4
  LogModel LogFacts1 LogSpec LogSpec3 LogFacts6 LogFacts7 LogFacts13.
Open Scope N_scope.
Open Scope list_scope.

Lemma blocks_quiet n d s d' s' : s_blocks n d s = dret (d', s') -> s_blocks_l n d s = ok (d', s').
Proof.
  intros E. pose proof (blocks_erase n d s) as R. rewrite E in R. destruct (s_blocks_l n d s) as [ls [[e|[x y]]|e|c|]] eqn:Q; unfold erase in R; cbn in R; try discriminate R.
  injection R as -> ->. destruct (blocks_inv _ _ _ _ _ _ Q) as [-> _]. reflexivity.
Qed.
Lemma after_err {A B} ls (x : A) (k : A -> lres B) l2 e : k x = err l2 e -> bindr (ls, Ret (inr x)) k = err (ls ++ l2) e.
Proof. intros E. rewrite after, E. reflexivity. Qed.
Definition chain_reader (hm m : N) : list line * lerr :=
  ([dh 11 [Num hm]; lookup hm; lookup hm; dh 67 [Num 1]; mkLine SFatal Format_cpp 24 [Num m]; mkLine SFatal Format_cpp 43 [Num m]; mkLine SFatal Format_cpp 52 [Num m]; mode_error 776 m],
   E ERR_CHAINHASHMODE_FORMAT_INVALID [Txt [n2b m]] (Some InvalidArgument)).
Lemma chain_bad bd d m r : m < 256 -> ch_mode_valid m = false -> s_chain_l bd sites1 ERR_CHAINHASH1_INVALID setChainHash1_l d (u8 m ++ r) =
  err [mkLine SFatal Format_cpp 24 [Num m]; mkLine SFatal Format_cpp 43 [Num m]; mkLine SFatal Format_cpp 52 [Num m]; mode_error 776 m] (snd (chain_reader 0 m)).
Proof. intros L V. unfold s_chain_l. rewrite read1_log by exact L. rewrite next. unfold newFormat_l, newFormat. rewrite V. reflexivity. Qed.
Lemma decode_bad_chain bd rnd c hsz hm bs m r : (forall k, lenN (rnd k) = k) -> pre_ok c hsz hm bs -> c = pre (lenN c) hsz hm (lenN bs) bs ++ u8 m ++ r -> m < 256 -> ch_mode_valid m = false ->
  decode_stream_l bd rnd c = err (fst (chain_reader hm m)) (snd (chain_reader hm m)).
Proof.
  intros R (L & Hs & B & G & Lb) E Lm V. unfold decode_stream_l. rewrite E at 1. unfold pre. rewrite <- !app_assoc. rewrite read8_log by exact L. rewrite next. rewrite read8_log by lia. rewrite next. rewrite N.eqb_refl. cbn [negb].
  destruct (N.ltb_spec (lenN c) hsz); [lia|]. rewrite read1_log by lia. rewrite next. rewrite read1_log by lia. rewrite next.
  assert (hash_mode_valid hm = true) as Vh by (unfold hash_mode_valid; apply andb_true_iff; split; apply N.leb_le; lia).
  unfold newDataHeader_l. rewrite Vh, (new_start rnd hm R B). unfold try_l at 1. cbn [snd fst low_lines].
  match goal with |- noexcept_l ?t = _ => assert (t = err (fst (chain_reader hm m)) (snd (chain_reader hm m))) as X; [|rewrite X; reflexivity] end.
  refine (after_err _ _ _ (skipn 3 (fst (chain_reader hm m))) _ _).
  unfold d_setFileDataMode_l. change (d_setFileDataMode 1 (start rnd hm)) with (Ret (D hm None (salt0 rnd hm) [] [] ch_default ch_default None)). change (file_mode_valid 1) with true.
  unfold try_l at 1. cbn [snd fst]. refine (after_err _ _ _ (skipn 4 (fst (chain_reader hm m))) _ _). rewrite read1_log by lia. rewrite next.
  replace (N.to_nat (lenN bs)) with (length bs) by (unfold lenN; lia). rewrite (blocks_quiet _ _ _ _ _ (blocks_fwd hm None (salt0 rnd hm) ch_default ch_default None bs [] (u8 m ++ r) G Lb)). rewrite next.
  rewrite (chain_bad bd _ m r Lm V). rewrite stops. reflexivity.
Qed.
Lemma select_bad_chain w a f p c hsz hm bs m r : (forall i k, lenN (w_rnd w i k) = k) -> fs_ok f -> a_state a = INIT -> enc_path p -> w_stat w p = true -> w_read w p = true -> f (w_loc w p) = Some c ->
  c = pre (lenN c) hsz hm (lenN bs) bs ++ u8 m ++ r -> 104 <= hsz <= lenN c -> 1 <= hm <= 3 -> Forall good bs -> lenN bs <= 255 -> m < 256 -> ~ (1 <= m <= 5) ->
  lines_of w a f (OSelect p) = bad_chain_mode p hm m /\ step w a f (OSelect p) = (f, Ret (a, RErr FAIL ERR_CHAINHASHMODE_FORMAT_INVALID)).
Proof.
  intros R Hf S0 Ep St Rd Fc E B Bh G Lb Lm V. assert (openable w f p c) as O by (split; [exact Ep|]; split; [exact St|]; split; [exact Fc|exact Rd]).
  assert (lenN c < two64) as L by (apply lt63_two64; exact (Hf _ _ Fc)). assert (ch_mode_valid m = false) as V2.
  { apply not_true_is_false. intros T. apply V. unfold ch_mode_valid in T. rewrite andb_true_iff, !N.leb_le in T. exact T. }
  assert (fh_getDataHeader_l w f 0 (mkFH p hsz (lenN c) false) = err (fst (chain_reader hm m)) (snd (chain_reader hm m))) as K.
  { unfold fh_getDataHeader_l. cbn [fh_path]. rewrite (openable_stream _ _ _ _ O), (decode_bad_chain (w_build w) (w_rnd w 0%nat) c hsz hm bs m r (R 0%nat)); try assumption; [rewrite stops; reflexivity|].
    split; [exact L|]. split; [exact (proj2 B)|]. auto. }
  assert (sizes_fit c hsz) as Sf by (eexists; split; [rewrite E at 1; unfold pre; rewrite <- !app_assoc; reflexivity|exact B]).
  pose proof (select_failed w a f p _ _ _ (handler_sized w f p c hsz O L Sf) eq_refl K) as Q.
  split; [unfold lines_of; rewrite S0, Q; reflexivity|]. unfold step. rewrite S0, <- select_erase, Q. reflexivity.
Qed.
