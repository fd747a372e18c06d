From Verif Require Import Base BytesModel MiscModel HeaderModel FileModel ApiModel ApiSpec LifeModel LifeSpec.

(** * What [step] does to the members *)
Definition file_ok (a : api) : Prop :=
  match a_state a with FILE_SELECTED | EMPTY_FILE_SELECTED => a_file a <> None | _ => True end.

Lemma set_at_eq {A} (g : N -> option A) x v : set_at g x v x = v.
Proof. unfold set_at. rewrite N.eqb_refl. reflexivity. Qed.
Lemma set_at_ne {A} (g : N -> option A) x v y : y <> x -> set_at g x v y = g y.
Proof. intros D. unfold set_at. destruct (N.eqb_spec y x); [contradiction|reflexivity]. Qed.

Lemma same_state_spec x y : same_state x y = true <-> x = y.
Proof. destruct x, y; cbn; split; congruence. Qed.

Lemma step_incomplete w a f o : incomplete o = true -> step w a f o = (f, Ret (a, failed ERR_DATAHEADERSETTINGS_INCOMPLETE)).
Proof. destruct o; cbn [incomplete]; try discriminate; intros E; cbn [step]; rewrite E; reflexivity. Qed.
Lemma step_invalid w a f o : incomplete o = false -> implemented (a_state a) o = false -> step w a f o = (f, Ret (a, failed ERR_API_STATE_INVALID)).
Proof.
  destruct o; cbn [incomplete implemented]; try discriminate; intros I E; cbn [step]; rewrite ?I; destruct (a_state a); try discriminate E; reflexivity.
Qed.
Lemma step_bare w a f o : incomplete o = false -> implemented (a_state a) o = true -> uses_object w (a_state a) o = false ->
  step w a f o = (let '(f', r) := step w (bare (a_state a)) f o in (f', '(_, rep) <- r ;; Ret (a, rep))).
Proof.
  intros I E U. destruct o; cbn [uses_object] in U; try discriminate U; cbn [step bare a_state]; cbn [implemented] in E.
  - destruct (a_state a); try discriminate E. cbn. unfold getRelevantFileNames.
    destruct (getAllEncFileNames w dir) as [[c|[|n l]]| | |]; try discriminate U; cbn; reflexivity.
  - destruct (a_state a); try discriminate E. cbn. destruct (fh_createFile w f p) as [f' r]. destruct r; reflexivity.
  - destruct (a_state a); try discriminate E; reflexivity.
  - destruct (a_state a); try discriminate E; try discriminate U; reflexivity.
  - destruct (a_state a); try discriminate E. destruct x as [d|]; [|reflexivity].
    unfold fd_isComplete in U. unfold encryptData. cbn. destruct (fd_mode d); [discriminate U|]. reflexivity.
Qed.

Ltac brk E := repeat match type of E with
  | context[match ?t with _ => _ end] => first [is_var t; fail 1 | destruct t eqn:?; try discriminate E]
  end.

Lemma finish_shape w a f p f' a' r : finishWrite w a f p = (f', Ret (a', r)) ->
  a' = mkApi FINISHED (a_mode a) (a_fdata a) (a_key a) None (a_dh a) (a_file a) /\ r = ROk.
Proof. unfold finishWrite. destruct (noexcept (fullData a)); intros E; inversion E; auto. Qed.

Lemma noexcept_ret {A} (m : outcome A) x : noexcept m = Ret x -> m = Ret x.
Proof. destruct m; cbn; congruence. Qed.

Ltac fin := try (intros; exact Logic.I); try (cbn; discriminate); try (unfold file_ok in *; cbn in *; congruence); try (unfold file_ok; cbn; match goal with H : a_state _ = _ |- _ => rewrite H end; exact Logic.I); auto.

Lemma step_effect w a f o f' a' r : file_ok a -> step w a f o = (f', Ret (a', r)) ->
  (assigns_key o r = false -> a_key a' = a_key a) /\ a_mode a' = a_mode a /\ file_ok a'.
Proof.
  intros K E. destruct (incomplete o) eqn:I; [rewrite step_incomplete in E by exact I; inversion E; subst; auto|].
  destruct (implemented (a_state a) o) eqn:M; [|rewrite step_invalid in E by assumption; inversion E; subst; auto].
  destruct (match o with OLogout | OLogoutMode _ => true | _ => false end) eqn:L.
  { destruct o; try discriminate L; cbn in E; inversion E; subst; repeat split; discriminate. }
  destruct o; try discriminate L; clear L; cbn [step] in E; cbn [incomplete] in I; rewrite ?I in E; cbn [implemented] in M;
    destruct (a_state a) eqn:Es; try discriminate M.
  - destruct (getRelevantFileNames w f (a_mode a) dir); inversion E; subst; auto.
  - destruct (fh_createFile w f p) as [f1 x]. destruct x; inversion E; subst; auto.
  - injection E as _ E. unfold selectFile in E. apply noexcept_ret in E.
    destruct (getFileHandler w f p) as [[c|h]| | |]; cbn in E; try discriminate E; [inversion E; subst; auto|].
    destruct (fh_empty h); [inversion E; subst; repeat split; discriminate|].
    destruct (fh_getDataHeader w f 0 h) as [[c|d]| | |]; cbn in E; inversion E; subst; repeat split; auto; discriminate.
  - inversion E; subst; auto.
  - inversion E; subst; auto.
  - inversion E; subst. repeat split; auto.
  - inversion E; subst. repeat split; auto.
  - unfold deleteFile in E. destruct (a_file a); [|discriminate E]. destruct (negb _); [discriminate E|].
    destruct (f _); inversion E; subst; repeat split; auto; fin.
  - unfold deleteFile in E. destruct (a_file a); [|discriminate E]. destruct (negb _); [discriminate E|].
    destruct (f _); inversion E; subst; repeat split; auto; fin.
  - injection E as _ E. unfold getFileContent in E. apply noexcept_ret in E.
    destruct (ptr (a_file a)); cbn in E; try discriminate E.
    destruct (try_ _ _); inversion E; subst; auto.
  - inversion E; subst; auto.
  - injection E as _ E. unfold verifyPassword in E. apply noexcept_ret in E.
    destruct (ptr (a_dh a)); cbn in E; try discriminate E.
    destruct (catch_std _ _) as [[c|k]| | |]; cbn in E; inversion E; subst; repeat split; auto; fin.
  - injection E as _ E. apply noexcept_ret in E. unfold headerEmpty in E.
    destruct (createHeaderIters _ _ _ _ _) as [[c|[d k]]| | |]; cbn in E; inversion E; subst; repeat split; auto; fin.
  - injection E as _ E. apply noexcept_ret in E. unfold headerDecrypted in E.
    destruct (createHeaderIters _ _ _ _ _) as [[c|[d k]]| | |]; cbn in E; inversion E; subst; repeat split; auto; fin.
  - injection E as _ E. discriminate E.
  - injection E as _ E. discriminate E.
  - injection E as _ E. unfold changeSalt in E. apply noexcept_ret in E.
    repeat (match type of E with context[bind ?t _] => destruct t; cbn [bind] in E; try discriminate E end).
    match type of E with match ?t with _ => _ end = _ => destruct t end; inversion E; subst; repeat split; auto; fin.
  - injection E as _ E. unfold getDecryptedData in E. apply noexcept_ret in E.
    destruct (try_ _ _) as [[c|k]| | |]; cbn in E; inversion E; subst; repeat split; auto; fin.
  - injection E as _ E. unfold getFileData in E. destruct (a_fdata a); inversion E; subst; repeat split; auto; fin.
  - injection E as _ E. unfold encryptData in E. apply noexcept_ret in E.
    destruct (ptr x); cbn in E; try discriminate E. destruct (fd_mode a0); [|inversion E; subst; auto].
    destruct (negb _); [inversion E; subst; auto|].
    destruct (ptr (fd_data a0)); cbn in E; try discriminate E. destruct (ptr (a_dh a)); cbn in E; try discriminate E.
    destruct (try_ _ (setDataSize _ _)) as [[c|d1]| | |]; cbn in E; try discriminate E; [inversion E; subst; auto|].
    destruct (calcHeaderBytes _ _ _ _) as [d2 r2]. destruct (try_ _ _) as [[c|k]| | |]; cbn in E; inversion E; subst; repeat split; auto; fin.
  - unfold writeToFile in E. destruct (a_file a) as [h|]; [|discriminate E].
    destruct (fh_getWriteStream w f h) as [[h' f1] x]. destruct x as [[c|u]| | |]; try discriminate E.
    + inversion E; subst. repeat split; auto; fin.
    + apply finish_shape in E as [-> ->]. repeat split; auto.
  - unfold writeToPath in E. destruct (getFileHandler w f p) as [[c|h]| | |]; try discriminate E; [inversion E; subst; auto|].
    destruct (fh_getWriteStreamIfEmpty w f h) as [[h' f1] x]. destruct x as [[c|u]| | |]; try discriminate E.
    + inversion E; subst; auto.
    + apply finish_shape in E as [-> ->]. repeat split; auto.
Qed.
