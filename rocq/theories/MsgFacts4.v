(** Lemmas for C100: the messages as the user sees them. *)
From Coq Require Import Strings.String.
From Verif Require Import Base BytesModel MiscModel CipherModel PwModel ChModel HeaderModel FileModel ApiModel ApiSpec TextModel MsgModel MsgSpec MsgFacts1 MsgFacts2 MsgFacts3.
Open Scope N_scope.
Open Scope list_scope.

Lemma misnamed_wrong o t : misnamed o = Some t -> t <> proper o.
Proof. rewrite proper_text. destruct o; cbn [misnamed]; intros E; try discriminate E; injection E as <-; vm_compute; discriminate. Qed.
Lemma shown_path w a f o x : told w a f o = Some x -> about_path (x_code x) = true ->
  x_info x = cstr (path_of a o) /\ x_what x <> Quote (str "setHeaderBytes") /\
  (no_zero (path_of a o) -> path_of a o <> [] \/ x_code x = ERR_EMPTY_FILEPATH -> forall text, message text x false = wording (x_code x) (path_of a o)).
Proof.
  intros T A. destruct (told_fine w a f o x T) as (P & _ & W & E). split; [exact (P A)|]. split.
  - intros Q. destruct (W _ Q) as [K | [_ K]]; [discriminate K|]. destruct o; try discriminate K. cbn in K. destruct (x_code x); discriminate.
  - intros Z N text. apply path_wording; auto.
    + rewrite (P A). now apply cstr_id.
    + intros K. destruct N as [N|N]; [contradiction | auto].
Qed.
Lemma cstr_stop p q : no_zero p -> cstr (p ++ x00 :: q) = p.
Proof.
  induction p as [|b p IH]; intros Z; [reflexivity|]. cbn [app cstr]. destruct (Byte.eqb b x00) eqn:E.
  - apply Byte.byte_dec_bl in E. exfalso. apply Z. left. exact E.
  - f_equal. apply IH. intros I. apply Z. right. exact I.
Qed.
Lemma shown_path_cut w a f o x p q : told w a f o = Some x -> about_path (x_code x) = true -> path_of a o = p ++ x00 :: q -> no_zero p -> p <> [] ->
  forall text, message text x false = wording (x_code x) p.
Proof.
  intros T A E Z N text. destruct (told_fine w a f o x T) as (P & _ & W & X). apply path_wording; auto.
  - rewrite (P A), E. now apply cstr_stop.
  - intros K. contradiction.
  - intros K. exfalso. pose proof (X K) as Y. rewrite E in Y. destruct p; discriminate Y.
Qed.
Lemma shown_fixed w a f o x : told w a f o = Some x -> about_path (x_code x) = false -> from_content o (x_code x) = false ->
  forall text, In (x_code x, message text x false) (fixed_messages o).
Proof. intros T A F. exact (proj1 (proj2 (told_fine w a f o x T)) A F). Qed.
Lemma shown_what w a f o x t : told w a f o = Some x -> x_what x = Quote t ->
  t = [] \/ (t = str "setHeaderBytes" /\ exists p, o = OSelect p).
Proof.
  intros T Q. destruct (told_fine w a f o x T) as (_ & _ & W & _). destruct (W t Q) as [-> | [-> K]]; [auto|]. right. split; [reflexivity|].
  destruct o; try discriminate K. eauto.
Qed.
Lemma raw_byte b : [b] <> decimal (b2n b).
Proof. destruct b; vm_compute; discriminate. Qed.
