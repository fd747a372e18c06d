(** Properties C76, C80 and C81. *)
From Coq Require Import Strings.String.
From Verif Require Import Base BaseFacts BytesModel MiscModel MiscFacts PwModel ChModel HeaderModel FileModel ApiModel TextModel TextSpec TextFacts Properties_Header Properties_File Properties_Api.
Open Scope N_scope.
Open Scope list_scope.

(** C76 *)
Theorem C76_endsWith : forall full ending, endsWith full ending = true <-> exists p, full = p ++ ending.
Proof. exact endsWith_spec. Qed.
Print Assumptions C76_endsWith.
Example C76_endsWith_ex : endsWith (str "vault.enc") (str ".enc") = true /\ endsWith (str "vault.enc.bak") (str ".enc") = false /\ endsWith (str "enc") (str ".enc") = false /\
  endsWith (str "abab") (str "ab") = true.
Proof. vm_compute. auto. Qed.
Theorem C76_texts_for_valid_modes :
  (forall m o, (exists t, hash_getInfo m o = Ret t) <-> 1 <= m <= 3) /\ (forall m o, ~ 1 <= m <= 3 -> hash_getInfo m o = Throw InvalidArgument) /\
  (forall m, (exists t, ch_getInfo m = Ret t) <-> 1 <= m <= 5) /\ (forall m, (exists t, ch_getShortInfo m = Ret t) <-> 1 <= m <= 5) /\
  (forall m, ~ 1 <= m <= 5 -> ch_getInfo m = Throw InvalidArgument /\ ch_getShortInfo m = Throw InvalidArgument) /\
  (exists t, file_getInfo 1 = ([], Ret t)) /\ (forall m, m <> 1 -> exists printed, file_getInfo m = (printed, Throw LogicError) /\ printed <> []).
Proof. exact mode_texts. Qed.
Print Assumptions C76_texts_for_valid_modes.
Theorem C76_texts_tell_modes_apart :
  (forall m m' o t, hash_getInfo m o = Ret t -> hash_getInfo m' o = Ret t -> m = m') /\
  (forall m m' t, ch_getInfo m = Ret t -> ch_getInfo m' = Ret t -> m = m') /\ (forall m m' t, ch_getShortInfo m = Ret t -> ch_getShortInfo m' = Ret t -> m = m').
Proof. exact mode_texts_differ. Qed.
Print Assumptions C76_texts_tell_modes_apart.
Theorem C76_texts_name_the_mode :
  (forall m t, ch_getInfo m = Ret t -> exists x y, t = x ++ decimal m ++ y) /\ (forall m t, hash_getInfo m false = Ret t -> exists x y, t = x ++ decimal m ++ y) /\
  (forall m t t', hash_getInfo m false = Ret t -> hash_getInfo m true = Ret t' -> endsWith t t' = true).
Proof. exact mode_numbers. Qed.
Print Assumptions C76_texts_name_the_mode.
Theorem C76_decimal : forall n, value (decimal n) = n /\ Forall is_digit (decimal n) /\ decimal n <> [].
Proof. exact decimal_spec. Qed.
Print Assumptions C76_decimal.
Example C76_ex : hash_getInfo 2 false = Ret (str "The hash mode 2 corresponds to hash function: SHA384") /\ ch_getShortInfo 4 = Ret (str "constant+count") /\
  file_getInfo 300 = (str "The file mode 300 stores ", Throw LogicError) /\ decimal 18446744073709551615 = str "18446744073709551615" /\ decimal 0 = str "0".
Proof. vm_compute. repeat split; reflexivity. Qed.

(** C80 *)
Theorem C80_messages_tell_errors_apart : forall s s' c c' info info' what what' v v', s <> SUCCESS -> s' <> SUCCESS -> known c -> known c' ->
  ~ free_text c -> ~ free_text c' -> ~ details_first c -> ~ details_first c' ->
  getErrorMessage s c info what v = getErrorMessage s' c' info' what' v' -> c = c'.
Proof. exact told_apart. Qed.
Print Assumptions C80_messages_tell_errors_apart.
Theorem C80_same_details : forall s s' c c' info what v, s <> SUCCESS -> s' <> SUCCESS -> known c -> known c' -> info = [] \/ (~ free_text c /\ ~ free_text c') ->
  getErrorMessage s c info what v = getErrorMessage s' c' info what v -> c = c'.
Proof. exact same_details. Qed.
Print Assumptions C80_same_details.
Theorem C80_details_shown : forall s c info info' what v, s <> SUCCESS -> known c -> ~ details_hidden c -> ~ free_text c ->
  (exists x y, getErrorMessage s c info what v = x ++ info ++ y) /\ (getErrorMessage s c info what v = getErrorMessage s c info' what v -> info = info').
Proof. exact shows. Qed.
Print Assumptions C80_details_shown.
Theorem C80_details_hidden : forall s c info info' what v, details_hidden c -> getErrorMessage s c info what v = getErrorMessage s c info' what v.
Proof. exact hides. Qed.
Print Assumptions C80_details_hidden.
Theorem C80_exception_appended : forall s c info what v, s <> SUCCESS ->
  getErrorMessage s c info what v = getErrorMessage s c info what false ++ (if v then [x0a] ++ str "Exception message: " ++ what else []).
Proof. exact ending_all. Qed.
Print Assumptions C80_exception_appended.
Theorem C80_api_codes : (forall c, known (code_number c) /\ 2 <= code_number c) /\ (forall c d, code_number c = code_number d -> c = d).
Proof. exact code_numbers. Qed.
Print Assumptions C80_api_codes.
Theorem C80_says_what_it_is_about : forall s c info what v, s <> SUCCESS -> exists x y, getErrorMessage s (code_number c) info what v = x ++ about c ++ y.
Proof. exact says. Qed.
Print Assumptions C80_says_what_it_is_about.
Example C80_ex : ~ free_text 21 /\ ~ details_first 21 /\ ~ details_hidden 34 /\ details_hidden 4 /\ known 44 /\
  getErrorMessage FAIL (code_number ERR_PASSWORD_INVALID) (str "x") [] false = str "Password is invalid" /\
  getErrorMessage TIMEOUT (code_number ERR_TIMEOUT) (str "the details") [] false = str "A timeout occurred: " /\
  getErrorMessage FAIL (code_number ERR_NOT_ENOUGH_DATA) (str "salt") (str "eof") true = str "Not enough data to read information: salt" ++ [x0a] ++ str "Exception message: eof".
Proof. unfold free_text, details_first, details_hidden, known. repeat split; try lia; vm_compute; reflexivity. Qed.
(** ERR shows any text, also that of another error; and a message that begins with the details can look like another one *)
Theorem C80_all_codes_refuted : (exists c c' info info', known c /\ known c' /\ c <> c' /\ getErrorMessage FAIL c info [] false = getErrorMessage FAIL c' info' [] false) /\
  exists c c' info info', known c /\ known c' /\ c <> c' /\ ~ free_text c /\ ~ free_text c' /\ getErrorMessage FAIL c info [] false = getErrorMessage FAIL c' info' [] false.
Proof.
  split.
  - exists 2, 21, (str "Password is invalid"), []. repeat split; discriminate.
  - exists 33, 32, (str "a.enc file is not empty"), (str "File could not be read: a.enc"). repeat split; discriminate.
Qed.
Print Assumptions C80_all_codes_refuted.

(** C81 *)
Theorem C81_default_directory : forall w,
  (w_stat w (str "data/enc") = false -> getEncDirPath w = Crash Terminate) /\
  (w_stat w (str "data/enc") = true -> exists e c, getEncDirPath w = Ret (e, c) /\
     (w_dir w (str "data/enc") = Missing -> c = Some ERR_FILEPATH_INVALID /\ err_step e OpValue = Throw LogicError /\ err_step e OpRef = Throw LogicError /\ err_step e OpMove = Throw LogicError /\
        getAllEncFileNames w (str "data/enc") = Ret (inl ERR_FILEPATH_INVALID)) /\
     (w_dir w (str "data/enc") <> Missing -> c = None /\ err_step e OpValue = Ret (e, Some (str "data/enc")) /\ getAllEncFileNames w (str "data/enc") <> Ret (inl ERR_FILEPATH_INVALID))).
Proof. exact enc_dir. Qed.
Print Assumptions C81_default_directory.
(** worlds of both kinds *)
Definition dir_world (l : listing) : world :=
  mkWorld (w_loc ex_world) (fun _ => true) (w_read ex_world) (w_write ex_world) (w_create ex_world) (w_remove ex_world) (fun _ => l) (w_room ex_world)
    (w_rnd ex_world) (w_elapsed ex_world) (w_clk1 ex_world) (w_clk2 ex_world) (w_hashes ex_world) (w_build ex_world) (w_fuel ex_world).
Example C81_ex : (exists e, getEncDirPath (dir_world (Entries [(str "a.enc", true)])) = Ret (e, None) /\ isSuccess e = true) /\
  (exists e, getEncDirPath (dir_world Missing) = Ret (e, Some ERR_FILEPATH_INVALID) /\ isSuccess e = false).
Proof. split; eexists; split; reflexivity. Qed.
