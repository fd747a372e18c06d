(** Lemmas for C97: writing the log changes nothing else. *)
From Coq Require Import Strings.String.
From Verif Require Import Base BytesModel MiscModel CipherModel PwModel ChModel HeaderModel FileModel ApiModel LogModel.
Open Scope N_scope.
Open Scope list_scope.

(** the ErrorStruct without what only the log shows *)
Definition erase {A} (m : lres A) : dres A :=
  x <- snd m ;; Ret (match x with inl e => inl (e_code e) | inr x => inr x end).

Lemma snd_bindl {A B} (m : logm A) (k : A -> logm B) : snd (bindl m k) = bind (snd m) (fun x => snd (k x)).
Proof. destruct m as [l [x|e|c|]]; reflexivity. Qed.
Lemma fst_bindl {A B} (m : logm A) (k : A -> logm B) x : snd m = Ret x -> fst (bindl m k) = fst m ++ fst (k x).
Proof. destruct m as [l o]; cbn; intros ->; reflexivity. Qed.
Lemma bindl_ext {A B} (m : logm A) (k : A -> logm B) m0 k0 : snd m = m0 -> (forall x, snd (k x) = k0 x) -> snd (bindl m k) = bind m0 k0.
Proof. intros <- K. rewrite snd_bindl. destruct (snd m); cbn; auto. Qed.
Lemma erase_bind {A B} (m : lres A) (k : A -> lres B) m0 k0 : erase m = m0 -> (forall x, erase (k x) = k0 x) -> erase (bindr m k) = dbind m0 k0.
Proof.
  intros <- K. unfold erase, bindr. rewrite snd_bindl. destruct (snd m) as [[e|x]|e|c|]; cbn; try reflexivity.
  unfold dbind; cbn. rewrite <- K. reflexivity.
Qed.
Lemma erase_lift {A} (m : logm A) m0 : snd m = m0 -> erase (lift_l m) = lift m0.
Proof. intros <-. unfold erase, lift_l, lift; cbn. destruct (snd m); reflexivity. Qed.
Lemma erase_try {A} (m : logm A) m0 hl h : snd m = m0 -> (forall e, match hl e with Some (_, r) => Some (e_code r) | None => None end = h e) ->
  erase (try_l hl m) = try_ h m0.
Proof.
  intros <- K. unfold erase, try_l, try_. destruct (snd m) as [x|e|c|]; cbn; try reflexivity.
  rewrite <- K. destruct (hl e) as [[ls r]|]; reflexivity.
Qed.
Lemma erase_catch {A} (m : lres A) m0 hl c : erase m = m0 -> (forall e, match hl e with Some (_, r) => Some (e_code r) | None => None end = any_std c e) ->
  erase (catch_l hl m) = catch_std c m0.
Proof.
  intros <- K. unfold erase, catch_l, catch_std. destruct (snd m) as [[x|x]|e|cc|] eqn:S; cbn; rewrite ?S; cbn; try reflexivity.
  rewrite <- K. destruct (hl e) as [[ls r]|]; cbn; rewrite ?S; reflexivity.
Qed.
Lemma erase_onerr {A} g (m : lres A) : erase (onerr g m) = erase m.
Proof. unfold erase, onerr. destruct (snd m) as [[x|x]|e|c|] eqn:S; cbn; rewrite ?S; reflexivity. Qed.
Lemma erase_noexcept {A} (m : lres A) m0 : erase m = m0 -> erase (noexcept_l m) = noexcept m0.
Proof. intros <-. unfold erase, noexcept_l; cbn. destruct (snd m) as [[x|x]|e|c|]; reflexivity. Qed.
Lemma erase_ok {A} (x : A) : erase (ok x) = dret x.
Proof. reflexivity. Qed.
Lemma erase_err {A} ls e : erase (err ls e : lres A) = dfail (e_code e).
Proof. reflexivity. Qed.
Lemma erase_done {A} ls (x : A) : erase (ls, Ret (inr x)) = dret x.
Proof. reflexivity. Qed.
Lemma std_code ls c info e : match handle_std ls c info e with Some (_, r) => Some (e_code r) | None => None end = any_std c e.
Proof. destruct e; reflexivity. Qed.
Lemma invalid_code ls c info e : match handle_invalid ls c info e with Some (_, r) => Some (e_code r) | None => None end = only_invalid c e.
Proof. destruct e; reflexivity. Qed.
Lemma invalid_or_code ls c info ls' c' e : match handle_invalid_or ls c info ls' c' e with Some (_, r) => Some (e_code r) | None => None end = invalid_or c c' e.
Proof. destruct e; reflexivity. Qed.
Lemma part_code cs tmp e : match part_handler_l cs tmp e with Some (_, r) => Some (e_code r) | None => None end = s_part_handler e.
Proof. destruct e; reflexivity. Qed.
Lemma noexcept_bind_l {A} (m : logm A) : snd (noexcept_l m) = noexcept (snd m).
Proof. reflexivity. Qed.

(** one step of an erasure proof *)
Ltac er :=
  match goal with
  | |- erase (noexcept_l _) = noexcept _ => apply erase_noexcept
  | |- erase (bindr _ _) = dbind _ _ => apply erase_bind; [ | intro ]
  | |- erase (bindr _ _) = _ => eapply eq_trans; [apply erase_bind; [ | intro ] | ]
  | |- erase (lift_l _) = lift _ => apply erase_lift
  | |- erase (onerr _ _) = _ => rewrite erase_onerr
  | |- erase (try_l _ _) = try_ _ _ => apply erase_try; [ | intro; first [apply std_code | apply invalid_code | apply invalid_or_code | apply part_code] ]
  | |- erase (catch_l _ _) = catch_std _ _ => apply erase_catch; [ | intro; apply std_code ]
  | |- snd (bindl _ _) = bind _ _ => apply bindl_ext; [ | intro ]
  | |- snd (noexcept_l _) = noexcept _ => rewrite noexcept_bind_l; f_equal
  | |- context [match ?x with pair _ _ => _ end] => destruct x as [? ?]
  | |- context [if ?b then _ else _] => destruct b
  | |- context [match ?x with Done _ => _ | TimedOut => _ end] => destruct x
  | |- context [match ?x with inl _ => _ | inr _ => _ end] => destruct x
  | _ => first [reflexivity | assumption]
  end.
Ltac ers := repeat (cbv beta iota; er).

Lemma read1_erase n s : erase (read1_l n s) = need ERR_NOT_ENOUGH_DATA (read1 s).
Proof. unfold read1_l, need. destruct (read1 s); reflexivity. Qed.
Lemma readBytes_erase n cap size s : erase (readBytes_l n cap size s) = need ERR_NOT_ENOUGH_DATA (readBytes cap size s).
Proof. unfold readBytes_l, need. destruct (readBytes cap size s); reflexivity. Qed.
Lemma read8_erase n s : erase (read8_l n s) = read8 s.
Proof. unfold read8_l, read8. er; [apply readBytes_erase | ers]. Qed.
Lemma readPart_erase cs size s : erase (readPart_l cs size s) = need ERR_NOT_ENOUGH_DATA (readBytes 255 size s).
Proof. unfold readPart_l, need. destruct (readBytes 255 size s); reflexivity. Qed.
Lemma assert_erase bd b : erase (assert_l bd b) = dassert bd b.
Proof. unfold erase, assert_l, dassert, assertC. destruct bd, b; reflexivity. Qed.
Ltac rd := first [apply read1_erase | apply readBytes_erase | apply read8_erase | apply readPart_erase | apply assert_erase].
Lemma blocks_erase n : forall d s, erase (s_blocks_l n d s) = s_blocks n d s.
Proof. induction n as [|n IH]; intros; cbn [s_blocks_l s_blocks]; repeat (cbv beta iota; first [rd | apply IH | er]). Qed.
Lemma encs_erase n : forall d s, erase (s_encs_l n d s) = s_encs n d s.
Proof. induction n as [|n IH]; intros; cbn [s_encs_l s_encs]; repeat (cbv beta iota; first [rd | apply IH | er]). Qed.
Lemma parts_erase bd cs nls lb : forall dl c s, erase (s_parts_l bd cs nls lb dl c s) = s_parts bd nls lb dl c s.
Proof. induction nls as [|[x n] r IH]; intros; cbn [s_parts_l s_parts]; repeat (cbv beta iota; first [rd | apply IH | er]). Qed.
Lemma chain_erase bd cs code setl set d s : (forall c d, snd (setl c d) = set c d) -> erase (s_chain_l bd cs code setl d s) = s_chain bd code set d s.
Proof. intro E. unfold s_chain_l, s_chain. repeat (cbv beta iota; first [rd | apply parts_erase | apply E | er]). Qed.
Lemma decode_erase bd rnd file : erase (decode_stream_l bd rnd file) = decode_stream bd rnd file.
Proof.
  unfold decode_stream_l, decode_stream.
  repeat (cbv beta iota; first [rd | apply blocks_erase | apply encs_erase | apply chain_erase; reflexivity | er]).
Qed.
Lemma setParts_erase rnd p : erase (setHeaderParts_l rnd p) = setHeaderParts rnd p.
Proof. unfold setHeaderParts_l, setHeaderParts. ers. Qed.
Lemma validPath_erase w f p e : erase (isValidPath_l w f p e) = isValidPath w f p e.
Proof. unfold erase, isValidPath_l; cbn. destruct (isValidPath w f p e) as [[c|[]]|x|x|]; reflexivity. Qed.
Lemma getDataHeader_erase w f i h : erase (fh_getDataHeader_l w f i h) = fh_getDataHeader w f i h.
Proof. unfold fh_getDataHeader_l, fh_getDataHeader. repeat (cbv beta iota; first [apply decode_erase | er]). Qed.
Lemma isDataHeader_erase w f i m h : erase (fh_isDataHeader_l w f i m h) = fh_isDataHeader w f i m h.
Proof. unfold fh_isDataHeader_l, fh_isDataHeader. repeat (cbv beta iota; first [apply getDataHeader_erase | er]). Qed.
Lemma getFileHandler_erase w f p : erase (getFileHandler_l w f p) = getFileHandler w f p.
Proof. unfold getFileHandler_l, getFileHandler. repeat (cbv beta iota; first [apply validPath_erase | er]). Qed.
Lemma newChains_erase w ds : snd (newChains_l w ds) = newChains w ds.
Proof. unfold newChains_l, newChains. ers. Qed.
Lemma erase_say {B} l (k : unit -> lres B) : erase (bindr (lift_l (say l)) k) = erase (k tt).
Proof. unfold bindr. destruct (k tt) as [ll [x|e|c|]] eqn:K; unfold erase, bindl; cbn; rewrite K; reflexivity. Qed.
Lemma snd_say {B} l (k : unit -> logm B) : snd (bindl (say l) k) = snd (k tt).
Proof. unfold bindl; cbn. reflexivity. Qed.
Lemma createIters_erase w m pw ds t : erase (createHeaderIters_l w m pw ds t) = createHeaderIters w m pw ds t.
Proof. unfold createHeaderIters_l, createHeaderIters. repeat (cbv beta iota; first [rewrite erase_say | apply setParts_erase | apply newChains_erase | er]). Qed.
Lemma check_erase w d pw t : erase (checkPassword_l w d pw t) = checkPassword w d pw t.
Proof. unfold checkPassword_l, checkPassword. ers. Qed.

(** a function that goes on with the result of a call *)
Lemma bind_erase {A B} (m : lres A) m0 (k : lerr + A -> logm B) k0 : erase m = m0 -> (forall e, snd (k (inl e)) = k0 (inl (e_code e))) -> (forall x, snd (k (inr x)) = k0 (inr x)) ->
  snd (bindl m k) = bind m0 k0.
Proof. intros <- KE KO. rewrite snd_bindl. unfold erase. destruct (snd m) as [[e|x]|e|c|]; cbn; auto. Qed.
Ltac be := match goal with |- snd (bindl _ _) = bind _ _ => apply bind_erase; [ | intro | intro ] end.
Ltac bee := repeat (cbv beta iota; first [rewrite snd_say | er]).

Lemma verify_erase w a pw t : snd (verifyPassword_l w a pw t) = verifyPassword w a pw t.
Proof.
  unfold verifyPassword_l, verifyPassword. er. rewrite snd_say. er; [reflexivity | ].
  be; [er; apply check_erase | reflexivity | reflexivity].
Qed.
Lemma select_erase w a f p : snd (selectFile_l w a f p) = selectFile w a f p.
Proof.
  unfold selectFile_l, selectFile. er. rewrite snd_say. be; [er; apply getFileHandler_erase | reflexivity | ].
  cbv beta iota. destruct (fh_empty x); [reflexivity | ]. be; [er; apply getDataHeader_erase | reflexivity | reflexivity].
Qed.
Lemma relevant_erase w f mode dir names : forall i ret, snd (relevant_loop_l w f i mode dir names ret) = relevant_loop w f i mode dir names ret.
Proof.
  induction names as [|n rest IH]; intros; cbn [relevant_loop_l relevant_loop]; [reflexivity | ].
  assert (forall i r, snd (count_up_l i (relevant_loop_l w f (S i) mode dir rest r)) = count_up i (relevant_loop w f (S i) mode dir rest r)) as IH' by (intros i0 r0; unfold count_up_l, count_up; destruct (N.of_nat i0 =? INT_MAX); [reflexivity | apply IH]).
  be; [apply getFileHandler_erase | apply IH' | ]. cbv beta iota. er.
  - destruct (fh_empty x); [reflexivity | ]. be; [apply isDataHeader_erase | reflexivity | reflexivity].
  - cbv beta. destruct x0; apply IH'.
Qed.
Lemma allNames_erase w dir : erase (getAllEncFileNames_l w dir) = getAllEncFileNames w dir.
Proof. unfold erase, getAllEncFileNames_l; cbn. destruct (getAllEncFileNames w dir) as [[c|l]|e|c|]; cbn; try reflexivity. destruct c; reflexivity. Qed.
Lemma names_erase w f mode dir : erase (getRelevantFileNames_l w f mode dir) = getRelevantFileNames w f mode dir.
Proof.
  unfold getRelevantFileNames_l, getRelevantFileNames. er. rewrite erase_say. er; [er; apply allNames_erase | ].
  cbv beta. er. apply relevant_erase.
Qed.
Lemma headerEmpty_erase a r r0 : erase r = r0 -> snd (headerEmpty_l a r) = headerEmpty a r0.
Proof. intro E. unfold headerEmpty_l, headerEmpty. be; [er; exact E | reflexivity | destruct x; reflexivity]. Qed.
Lemma headerDecrypted_erase a r r0 : erase r = r0 -> snd (headerDecrypted_l a r) = headerDecrypted a r0.
Proof. intro E. unfold headerDecrypted_l, headerDecrypted. be; [er; exact E | reflexivity | destruct x; reflexivity]. Qed.
Lemma decrypt_erase w a f : snd (decryptBody_l w a f) = decryptBody w a f.
Proof. unfold decryptBody_l, decryptBody. ers. Qed.
Lemma getDecrypted_erase w a f : snd (getDecryptedData_l w a f) = getDecryptedData w a f.
Proof.
  unfold getDecryptedData_l, getDecryptedData. er. rewrite snd_say.
  be; [er; apply decrypt_erase | reflexivity | reflexivity].
Qed.
Lemma encryptBody_erase w key data d : snd (encryptBody_l w key data d) = encryptBody w key data d.
Proof. unfold encryptBody_l, encryptBody. ers. Qed.
Lemma encrypt_erase w a x : snd (encryptData_l w a x) = encryptData w a x.
Proof.
  unfold encryptData_l, encryptData. er. rewrite snd_say. er; [reflexivity | ]. cbv beta.
  destruct (fd_mode x0) as [m|]; [ | reflexivity]. destruct (negb (m =? a_mode a)); [reflexivity | ].
  er; [reflexivity | ]. er; [reflexivity | ]. cbv beta.
  be; [er; reflexivity | reflexivity | ]. cbv beta iota.
  destruct (calcHeaderBytes (w_hashes w) (w_clk1 w) (mkBytes [] 0) x3) as [d2 r].
  be; [er | reflexivity | reflexivity]. er; [reflexivity | apply encryptBody_erase].
Qed.
Lemma salt_erase w a : snd (changeSalt_l w a) = changeSalt w a.
Proof.
  unfold changeSalt_l, changeSalt. er. rewrite snd_say. repeat (er; [reflexivity | ]; cbv beta).
  be; [er; apply setParts_erase | reflexivity | reflexivity].
Qed.
Lemma content_erase w a f : snd (getFileContent_l w a f) = getFileContent w a f.
Proof.
  unfold getFileContent_l, getFileContent. er. er; [reflexivity | ]. cbv beta.
  be; [er; reflexivity | reflexivity | reflexivity].
Qed.
Lemma write_stream_erase w f h : erase (write_stream_l w f h) = snd (fh_getWriteStream w f h).
Proof.
  unfold write_stream_l, fh_getWriteStream. pose proof (validPath_erase w f (fh_path h) true) as V. unfold erase in *. cbn [snd] in *.
  destruct (snd (isValidPath_l w f (fh_path h) true)) as [[e|u]|e|c|]; cbn [bind] in V; rewrite <- V; try reflexivity.
  destruct (w_write w (fh_path h)); reflexivity.
Qed.
Lemma write_stream_empty_erase w f h : erase (write_stream_empty_l w f h) = snd (fh_getWriteStreamIfEmpty w f h).
Proof. unfold write_stream_empty_l, fh_getWriteStreamIfEmpty. destruct (fh_empty h); [apply write_stream_erase | reflexivity]. Qed.
