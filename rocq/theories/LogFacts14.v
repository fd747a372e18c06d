(** Lemmas for C98: the log of a path that is refused. *)
From Coq Require Import Strings.String.
From Verif Require Import Base BaseFacts BytesModel BytesSpec BytesFacts MiscModel CipherModel PwModel ChModel HeaderModel HeaderSpec FileModel FileFacts ApiModel ApiSpec HandlerFacts LogModel LogFacts1 LogSpec LogSpec4.
Open Scope N_scope.
Open Scope list_scope.

Lemma extension_is p : ext_of p (extension p).
Proof.
  destruct (filename_cases p) as (d & Ep & Ns & Hd). unfold extension. destruct (eqb_bytes (filename p) [dot] || eqb_bytes (filename p) [dot; dot]) eqn:Q.
  - exists d, (filename p). rewrite app_nil_r. split; [exact Ep|]. split; [exact Hd|]. split; [exact Ns|]. left. split; [reflexivity|].
    apply orb_true_iff in Q as [Q|Q]; apply eqb_bytes_spec in Q; rewrite Q; [left|right; left]; reflexivity.
  - apply orb_false_iff in Q as [_ Q]. assert (filename p <> [dot; dot]) as Nd by (intros X; rewrite X in Q; discriminate Q).
    destruct (after_last_spec dot (filename p) None) as [[N1 E1]|(a & r & E1 & N1 & E2)].
    + rewrite E1. exists d, (filename p). rewrite app_nil_r. split; [exact Ep|]. split; [exact Hd|]. split; [exact Ns|]. left. auto.
    + rewrite E2. destruct (N.eqb_spec (lenN r + 1) (lenN (filename p))) as [L|L].
      * exists d, (filename p). rewrite app_nil_r. split; [exact Ep|]. split; [exact Hd|]. split; [exact Ns|]. left. split; [reflexivity|]. right. right. right. exists r.
        split; [|exact N1]. rewrite E1 in L |- *. destruct a as [|x a]; [reflexivity|]. rewrite lenN_app, !lenN_cons in L. lia.
      * exists d, a. change (dot :: r) with ([] ++ dot :: r) in *. cbn [app] in *. rewrite <- E1. split; [exact Ep|]. split; [exact Hd|]. split; [exact Ns|]. right. exists r.
        split; [reflexivity|]. split; [exact N1|]. split; [|exact Nd]. intros ->. apply L. rewrite E1. cbn [app]. rewrite lenN_cons. lia.
Qed.
Lemma valid_refused w f p (old : bool) : w_stat w p = true -> (if old then ~ (enc_path p /\ f (w_loc w p) <> None /\ w_read w p = true) else ~ (enc_path p /\ f (w_loc w p) = None)) ->
  exists c l, refused w f p old c l /\ isValidPath w f p old = Ret (inl c) /\ isValidPath_l w f p old = ([l], Ret (inl (path_error p c))).
Proof.
  intros St No. unfold isValidPath_l. destruct p as [|b p0].
  { eexists ERR_EMPTY_FILEPATH, _. split; [split; reflexivity|]. split; reflexivity. }
  set (p := b :: p0) in *. assert ((lenN p =? 0) = false) as Z by (apply N.eqb_neq; subst p; rewrite lenN_cons; lia). unfold isValidPath. rewrite Z.
  destruct (enc_path_dec p) as [Ep|Ep].
  2:{ rewrite (ext_false p Ep). eexists ERR_EXTENSION_INVALID, _. split; [|split; reflexivity]. split; [discriminate|]. split; [exact Ep|]. exists (extension p). split; [apply extension_is|reflexivity]. }
  rewrite (ext_true p Ep). unfold exists_. rewrite St. cbn [negb bind]. destruct old.
  - destruct (f (w_loc w p)) as [c|] eqn:Fc; cbn [negb].
    + destruct (w_read w p) eqn:Rd; [exfalso; apply No; split; [exact Ep|]; split; [discriminate|reflexivity]|].
      eexists ERR_FILE_NOT_OPEN, _. split; [|split; reflexivity]. split; [reflexivity|]. split; [exact Ep|]. split; [rewrite Fc; discriminate|]. split; [exact Rd|reflexivity].
    + eexists ERR_FILE_NOT_FOUND, _. split; [|split; reflexivity]. split; [reflexivity|]. split; [exact Ep|]. split; [exact Fc|reflexivity].
  - destruct (f (w_loc w p)) as [c|] eqn:Fc; [|exfalso; apply No; split; [exact Ep|reflexivity]].
    eexists ERR_FILE_EXISTS, _. split; [|split; reflexivity]. split; [reflexivity|]. split; [exact Ep|]. split; [rewrite Fc; discriminate|reflexivity].
Qed.
Lemma select_path w a f p : a_state a = INIT -> w_stat w p = true -> ~ (enc_path p /\ f (w_loc w p) <> None /\ w_read w p = true) ->
  exists c l, refused w f p true c l /\ lines_of w a f (OSelect p) = select_refused p c l /\ step w a f (OSelect p) = (f, Ret (a, RErr FAIL c)).
Proof.
  intros S0 St No. destruct (valid_refused w f p true St No) as (c & l & R & _ & V). exists c, l. split; [exact R|].
  assert (c <> ERR_TIMEOUT) as Nt by (intros ->; exact R).
  assert (selectFile_l w a f p = (tl (select_refused p c l), Ret (a, RErr FAIL c))) as K.
  { assert (getFileHandler_l w f p = err [l; api_cpp SError 17 [Txt p; Code c; Txt p]] (path_error p c)) as G by (unfold getFileHandler_l; rewrite V; reflexivity).
    unfold selectFile_l. rewrite G. unfold select_refused. cbn. destruct c; try reflexivity. congruence. }
  split; [unfold lines_of; rewrite S0, K; reflexivity|]. unfold step. rewrite S0, <- select_erase, K. reflexivity.
Qed.
Lemma create_path w a f p : a_state a = INIT -> w_stat w p = true -> ~ (enc_path p /\ f (w_loc w p) = None) ->
  exists c l, refused w f p false c l /\ lines_of w a f (OCreate p) = create_refused p c l /\ step w a f (OCreate p) = (f, Ret (a, RErr FAIL c)).
Proof.
  intros S0 St No. destruct (valid_refused w f p false St No) as (c & l & R & V0 & V). exists c, l. split; [exact R|].
  assert (c <> ERR_TIMEOUT) as Nt by (intros ->; exact R).
  split; [unfold lines_of, createFile_lines; rewrite S0, V; reflexivity|]. unfold step, fh_createFile. rewrite S0, V0. cbn. destruct c; try reflexivity. congruence.
Qed.
(** ** Sizes *)
Lemma update_trouble p c ls e : size_trouble c = Some (ls, e) -> update_lines c = ls /\ fh_update p c = Throw e /\ (e = LengthError \/ e = LogicError).
Proof.
  unfold size_trouble, update_lines, fh_update. cbv zeta. rewrite !read_eight. destruct (N.eqb_spec (lenN c) 0) as [Z|Z]; [discriminate|].
  destruct (N.ltb_spec (lenN c) 8) as [L|L]; [intro Q; injection Q as <- <-; auto|]. rewrite long_eight by exact L. cbn [bind].
  destruct (N.eqb_spec (be_val (takeN 8 c)) (lenN c)) as [V|V]; cbn [negb]; [|intro Q; injection Q as <- <-; auto].
  rewrite read_eight, lenN_dropN. destruct (N.ltb_spec (lenN c) 16) as [L2|L2].
  { destruct (N.ltb_spec (lenN c - 8) 8); [|lia]. intro Q. injection Q as <- <-. auto. }
  destruct (N.ltb_spec (lenN c - 8) 8); [lia|]. rewrite long_eight by (rewrite lenN_dropN; lia). cbn [bind]. change MIN_DATAHEADER_LEN with 104.
  destruct (lenN c <? be_val (takeN 8 (dropN 8 c))); [intro Q; injection Q as <- <-; auto|]. destruct (be_val (takeN 8 (dropN 8 c)) <? 104); [|discriminate].
  rewrite andb_false_r. cbn [negb andb]. intro Q. injection Q as <- <-. auto.
Qed.
Lemma select_wrong_size w a f p c ls e : a_state a = INIT -> enc_path p -> w_stat w p = true -> w_read w p = true -> f (w_loc w p) = Some c -> size_trouble c = Some (ls, e) ->
  lines_of w a f (OSelect p) = select_sizes p ls e /\ step w a f (OSelect p) = (f, Ret (a, RErr FAIL ERR_FILEHANDLER_CREATION)).
Proof.
  intros S0 Ep St Rd Fc T. assert (openable w f p c) as O by (split; [exact Ep|]; split; [exact St|]; split; [exact Fc|exact Rd]). destruct (update_trouble p c ls e T) as (U1 & U2 & D).
  assert (getFileHandler_l w f p = err (ls ++ [api_cpp SError 24 [What e]]) (E ERR_FILEHANDLER_CREATION [] (Some e))) as G.
  { unfold getFileHandler_l, newFileHandler_l, isValidPath_l. rewrite (openable_valid _ _ _ _ O), (new_open _ _ _ _ O), (openable_stream _ _ _ _ O), U1, U2. destruct D as [-> | ->]; reflexivity. }
  assert (selectFile_l w a f p = (tl (select_sizes p ls e), Ret (a, RErr FAIL ERR_FILEHANDLER_CREATION))) as K.
  { unfold selectFile_l. rewrite G. unfold select_sizes. cbn. rewrite <- !app_assoc, ?app_nil_r. reflexivity. }
  split; [unfold lines_of; rewrite S0, K; reflexivity|]. unfold step. rewrite S0, <- select_erase, K. reflexivity.
Qed.
