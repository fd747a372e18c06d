(** Properties C82 - C84. *)
From Coq Require Import Permutation Sorted Strings.String.
From Verif Require Import Base MiscModel HeaderModel PwModel PwDataModel PwDataSpec PwDataFacts.
Open Scope N_scope.
Open Scope list_scope.

(** C82 *)
Theorem C82_search : forall ops m order sort sub sorted, pw_run [] ops = Ret m -> Permutation m order -> sorts sort ->
  exists rest, Permutation (getSets sort order sub sorted ++ rest) (held ops) /\
    Forall (fun p => mentions sub (p_site p)) (getSets sort order sub sorted) /\ Forall (fun p => ~ mentions sub (p_site p)) rest /\
    (sorted = true -> StronglySorted in_order (getSets sort order sub sorted)) /\
    (sorted = false -> forall s, mentions sub s -> at_site s (getSets sort order sub sorted) = at_site s (held ops)).
Proof. exact getSets_spec. Qed.
Print Assumptions C82_search.
Theorem C82_add : forall p m, (fits_all p = true -> exists m', addPw p m = Ret m') /\ (fits_all p = false -> addPw p m = Throw InvalidArgument).
Proof. exact addPw_outcome. Qed.
Print Assumptions C82_add.
Theorem C82_setters : forall v s, ((length v <= 255)%nat -> setUsername v s = Ret (mkSset v (s_mail s) (s_pass s)) /\ setEmail v s = Ret (mkSset (s_user s) v (s_pass s)) /\ setPassword v s = Ret (mkSset (s_user s) (s_mail s) v)) /\
  ((255 < length v)%nat -> setUsername v s = Throw InvalidArgument /\ setEmail v s = Throw InvalidArgument /\ setPassword v s = Throw InvalidArgument).
Proof. exact setters. Qed.
Print Assumptions C82_setters.
Theorem C82_calls_return : forall ops m,
  Forall (fun o => match o with Construct f => fd_mode f <> None /\ (fd_mode f = Some 1 -> fd_data f = []) | _ => True end) ops -> exists m', pw_run m ops = Ret m'.
Proof. exact run_returns. Qed.
Print Assumptions C82_calls_return.
Definition ex_sets : list pset :=
  [mkPset (str "github.com") (str "u1") (str "a@b") (str "p1"); mkPset (str "Example") (str "u2") [] (str "p2"); mkPset (str "github.com") (str "u3") [] (str "p3");
   mkPset (str "GitLab") (str "u4") [] (str "p4"); mkPset (repeat x61 256) [] [] []].
Definition ex_ops : list pw_op := map AddPw ex_sets ++ [RemPw (mkPset (str "GitLab") (str "u4") [] (str "p4"))].
Example C82_sort_ex : sorts isort.
Proof. exact isort_sorts. Qed.
Example C82_ex : exists m, pw_run [] ex_ops = Ret m /\
  map p_user (getSets isort m (str "GIT") false) = [str "u1"; str "u3"; str "u4"] /\ map p_user (getSets isort (rev m) (str "GIT") true) = [str "u4"; str "u1"; str "u3"] /\
  map p_user (getSets isort m [] false) = [str "u1"; str "u3"; str "u2"; str "u4"].
Proof. eexists. split; [vm_compute; reflexivity|]. vm_compute. auto. Qed.

(** C83 *)
Theorem C83_saving_loses_everything : forall ops m order, pw_run [] ops = Ret m -> Permutation m order ->
  (forall f, getFileData order = Ret f -> held ops = [] /\ f = mkFds (Some 1) []) /\
  (held ops <> [] -> getFileData order = Throw RuntimeError \/ getFileData order = Crash Undefined).
Proof. exact getFileData_spec. Qed.
Print Assumptions C83_saving_loses_everything.
Theorem C83_one_site : forall s ps m order, ps <> [] -> Forall (fun p => p_site p = s /\ fits_all p = true) ps -> pw_run [] (map AddPw ps) = Ret m -> Permutation m order ->
  getFileData order = if (length ps mod 3 =? 0)%nat then Crash Undefined else Throw RuntimeError.
Proof. exact one_site. Qed.
Print Assumptions C83_one_site.
Example C83_ex : (exists m, pw_run [] (map AddPw (firstn 1 ex_sets)) = Ret m /\ getFileData m = Throw RuntimeError) /\
  (exists m, pw_run [] (map AddPw (repeat (mkPset (str "s") (str "u") (str "m") (str "p")) 3)) = Ret m /\ getFileData m = Crash Undefined) /\
  (exists m, pw_run [] [AddPw (mkPset (str "s") [] [] []); Construct (mkFds (Some 1) [])] = Ret m /\ getFileData m = Ret (mkFds (Some 1) [])).
Proof. split; [|split]; eexists; (split; [vm_compute; reflexivity|vm_compute; reflexivity]). Qed.

(** C84 *)
Theorem C84_documented_data_is_undefined : forall l m, l <> [] -> Forall (fun p => fits_all p = true) l ->
  constructFileData (mkFds (Some 1) (flat_map set_bytes l)) m = Crash Undefined.
Proof. exact construct_documented. Qed.
Print Assumptions C84_documented_data_is_undefined.
Theorem C84_success_only_empty : forall f m, (exists m' f', constructFileData f m = Ret (m', f', None)) <-> f = mkFds (Some 1) [].
Proof. exact construct_success. Qed.
Print Assumptions C84_success_only_empty.
Theorem C84_outcomes : forall f m,
  (fd_mode f = None -> constructFileData f m = Crash Terminate) /\
  (forall x, fd_mode f = Some x -> x <> 1 -> constructFileData f m = Ret (m, f, Some ERR_FILEMODE_INVALID)) /\
  (fd_mode f = Some 1 -> fd_data f <> [] ->
     ((exists s u r, (length s <= 255)%nat /\ (length u <= 255)%nat /\ fd_data f = part s ++ part u ++ r) /\ constructFileData f m = Crash Undefined) \/
     ((forall s r, (length s <= 255)%nat -> fd_data f <> part s ++ r) /\
      constructFileData f m = Ret ([], mkFds (Some 1) (tl (fd_data f)), Some ERR_FILEDATA_INVALID)) \/
     (exists s r, (length s <= 255)%nat /\ fd_data f = part s ++ r /\ (forall u q, (length u <= 255)%nat -> r <> part u ++ q) /\
      constructFileData f m = Ret ([(s, [])], mkFds (Some 1) (tl r), Some ERR_FILEDATA_INVALID))).
Proof. exact construct_outcomes. Qed.
Print Assumptions C84_outcomes.
Example C84_ex : constructFileData (mkFds (Some 1) (set_bytes (mkPset (str "site") (str "me") [] (str "secret")))) [] = Crash Undefined /\
  constructFileData (mkFds (Some 1) (part (str "site"))) [(str "x", [])] = Ret ([(str "site", [])], mkFds (Some 1) [], Some ERR_FILEDATA_INVALID) /\
  constructFileData (mkFds (Some 1) (x05 :: str "abc")) [] = Ret ([], mkFds (Some 1) (str "abc"), Some ERR_FILEDATA_INVALID) /\
  constructFileData (mkFds (Some 2) (str "abc")) [(str "x", [])] = Ret ([(str "x", [])], mkFds (Some 2) (str "abc"), Some ERR_FILEMODE_INVALID).
Proof. vm_compute. repeat split; reflexivity. Qed.
