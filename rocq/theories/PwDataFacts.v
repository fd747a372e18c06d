(** Lemmas for C82 - C84. *)
From Coq Require Import Permutation Sorted.
From Verif Require Import Base BaseFacts HeaderModel PwDataModel PwDataSpec.
Open Scope N_scope.

(** ** The map *)
Lemma m_get_put k v m k' : m_get k' (m_put k v m) = if eqb_bytes k' k then Some v else m_get k' m.
Proof.
  induction m as [|[a b] m IH]; cbn [m_put m_get].
  - destruct (eqb_bytes k' k); reflexivity.
  - destruct (eqb_bytes k a) eqn:E; cbn [m_get].
    + apply eqb_bytes_spec in E. subst a. destruct (eqb_bytes k' k); reflexivity.
    + destruct (eqb_bytes k' a) eqn:E'.
      * destruct (eqb_bytes k' k) eqn:E2; [|reflexivity].
        apply eqb_bytes_spec in E', E2. subst. rewrite eqb_bytes_refl in E. discriminate.
      * exact IH.
Qed.
Lemma m_at_put k v m k' : m_at k' (m_put k v m) = if eqb_bytes k' k then v else m_at k' m.
Proof. unfold m_at. rewrite m_get_put. destruct (eqb_bytes k' k); reflexivity. Qed.
Lemma m_get_none k m : m_get k m = None <-> ~ In k (map fst m).
Proof.
  induction m as [|[a b] m IH]; cbn [m_get map fst In]; [split; [intros _ []|reflexivity]|].
  destruct (eqb_bytes k a) eqn:E.
  - apply eqb_bytes_spec in E. subst. split; [discriminate|intros H; destruct H; left; reflexivity].
  - apply eqb_bytes_false in E. rewrite IH. split; intros H; [intros [A|A]; [congruence|tauto]|tauto].
Qed.
Lemma m_put_keys k v m : NoDup (map fst m) -> NoDup (map fst (m_put k v m)).
Proof.
  assert (K : forall x, In x (map fst (m_put k v m)) -> In x (k :: map fst m)).
  { induction m as [|[a b] m IH]; cbn [m_put map fst In]; [tauto|]. intros x. destruct (eqb_bytes k a) eqn:E; cbn [map fst In]; [tauto|].
    intros [H|H]; [tauto|]. specialize (IH x H). cbn [In] in IH. tauto. }
  revert K. induction m as [|[a b] m IH]; intros K H; cbn [m_put map fst].
  - constructor; [intros []|constructor].
  - destruct (eqb_bytes k a) eqn:E; cbn [map fst]; [exact H|]. inversion H; subst. constructor.
    + intros I. assert (J : In a (k :: map fst m)).
      { clear - I. induction m as [|[c d] m IH]; cbn [m_put map fst In] in *; [tauto|]. destruct (eqb_bytes k c); cbn [map fst In] in *; [tauto|].
        destruct I as [I|I]; [tauto|]. destruct (IH I); tauto. }
      destruct J as [J|J]; [subst; rewrite eqb_bytes_refl in E; discriminate|tauto].
    + apply IH; [|assumption]. clear. induction m as [|[c d] m IH]; intros x; cbn [m_put map fst In]; [tauto|]. destruct (eqb_bytes k c); cbn [map fst In]; [tauto|].
      intros [H|H]; [tauto|]. specialize (IH x H). cbn [In] in IH. tauto.
Qed.
Lemma m_put_nonnil k v m : m_put k v m <> [].
Proof. destruct m as [|[a b] m]; cbn; [discriminate|]. destruct (eqb_bytes k a); discriminate. Qed.

Lemma m_at_perm m m' k : NoDup (map fst m) -> Permutation m m' -> m_at k m = m_at k m'.
Proof.
  intros H P. unfold m_at. f_equal. clear -H P. enough (E : m_get k m = m_get k m') by (rewrite E; reflexivity).
  induction P as [|[a b] l l' P IH|[a b] [c d] l|l l' l'' P IH P' IH'].
  - reflexivity.
  - cbn [m_get]. inversion H; subst. rewrite IH by assumption. reflexivity.
  - cbn [m_get]. cbn [map fst] in H. inversion H as [|x y H1 H2]; subst. destruct (eqb_bytes k c) eqn:E; destruct (eqb_bytes k a) eqn:E'; try reflexivity.
    apply eqb_bytes_spec in E, E'. subst. destruct H1. left. reflexivity.
  - rewrite IH by assumption. apply IH'. eapply Permutation_NoDup; [apply Permutation_map, P|assumption].
Qed.

(** ** Lists of passwords *)
Definition psets (s : bytes) (l : list sset) : list pset := map (fun x => mkPset s (s_user x) (s_mail x) (s_pass x)) l.
Lemma at_site_app s a b : at_site s (a ++ b) = at_site s a ++ at_site s b.
Proof. apply filter_app. Qed.
Lemma at_site_psets s k l : at_site s (psets k l) = if eqb_bytes s k then psets k l else [].
Proof.
  induction l as [|x l IH]; cbn [psets map at_site filter p_site]; [destruct (eqb_bytes s k); reflexivity|].
  change (filter (fun p => eqb_bytes s (p_site p))) with (at_site s). change (map (fun x0 => mkPset k (s_user x0) (s_mail x0) (s_pass x0)) l) with (psets k l).
  rewrite IH. destruct (eqb_bytes s k); reflexivity.
Qed.
Lemma at_site_map m s : NoDup (map fst m) -> at_site s (flat_map sets_of m) = psets s (m_at s m).
Proof.
  induction m as [|[a b] m IH]; intros H; [reflexivity|]. cbn [flat_map]. rewrite at_site_app. change (sets_of (a, b)) with (psets a b). rewrite at_site_psets.
  inversion H as [|x y H1 H2]; subst. rewrite (IH H2). unfold m_at. cbn [m_get]. destruct (eqb_bytes s a) eqn:E; [|reflexivity].
  apply eqb_bytes_spec in E. subst a. replace (m_get s m) with (@None (list sset)); [cbn; apply app_nil_r|]. symmetry. apply m_get_none. exact H1.
Qed.
Lemma pset_dec (p q : pset) : {p = q} + {p <> q}.
Proof.
  destruct p as [a b c d], q as [a' b' c' d'].
  destruct (list_eq_dec Byte.byte_eq_dec a a'), (list_eq_dec Byte.byte_eq_dec b b'), (list_eq_dec Byte.byte_eq_dec c c'), (list_eq_dec Byte.byte_eq_dec d d');
    [left; congruence|right; congruence..].
Defined.
Lemma count_at_site p l : count_occ pset_dec (at_site (p_site p) l) p = count_occ pset_dec l p.
Proof.
  induction l as [|q l IH]; [reflexivity|]. cbn [at_site filter count_occ]. destruct (pset_dec q p) as [->|D].
  - rewrite eqb_bytes_refl. cbn [count_occ]. destruct (pset_dec p p); [|congruence]. f_equal. exact IH.
  - destruct (eqb_bytes (p_site p) (p_site q)); [cbn [count_occ]; destruct (pset_dec q p); [congruence|]|]; exact IH.
Qed.
Lemma same_sites_perm l l' : (forall s, at_site s l = at_site s l') -> Permutation l l'.
Proof. intros H. apply (Permutation_count_occ pset_dec). intros p. rewrite <- (count_at_site p l), <- (count_at_site p l'), H. reflexivity. Qed.

(** ** The object holds what it should *)
Definition Rel (m : sites) (l : list pset) : Prop := NoDup (map fst m) /\ forall s, at_site s l = psets s (m_at s m).

Lemma fits_len s : fits s = negb (255 <? lenN s).
Proof. unfold fits, lenN. destruct (Nat.leb_spec (length s) 255); destruct (N.ltb_spec 255 (N.of_nat (length s))); cbn; try reflexivity; lia. Qed.
Lemma isValid_fits p : pset_isValid p = fits_all p.
Proof.
  unfold pset_isValid, fits_all. rewrite !fits_len. destruct (255 <? lenN (p_site p)), (255 <? lenN (p_user p)), (255 <? lenN (p_mail p)), (255 <? lenN (p_pass p)); reflexivity.
Qed.
Lemma newSset_fits p : fits_all p = true -> newSset (p_user p) (p_mail p) (p_pass p) = Ret (mkSset (p_user p) (p_mail p) (p_pass p)).
Proof.
  unfold fits_all. rewrite !fits_len, !andb_true_iff, !negb_true_iff. intros [[[A B] C] D].
  unfold newSset, setUsername, setEmail, setPassword. rewrite B. cbn [bind]. rewrite C. cbn [bind]. rewrite D. reflexivity.
Qed.
Lemma addPw_cases p m : addPw p m = if fits_all p then Ret (m_put (p_site p) (m_at (p_site p) m ++ [mkSset (p_user p) (p_mail p) (p_pass p)])
    (if m_count (p_site p) m =? 0 then m_put (p_site p) [] m else m)) else Throw InvalidArgument.
Proof.
  unfold addPw. rewrite isValid_fits. destruct (fits_all p) eqn:F; [|reflexivity]. cbn [negb]. rewrite (newSset_fits p F). cbn [bind]. f_equal. f_equal. f_equal.
  unfold m_count, m_at. destruct (m_get (p_site p) m) eqn:G; cbn [N.eqb]; [rewrite G; reflexivity|]. rewrite m_get_put, eqb_bytes_refl. reflexivity.
Qed.
Lemma addPw_at p m m' s : addPw p m = Ret m' -> m_at s m' = if eqb_bytes s (p_site p) then m_at s m ++ [mkSset (p_user p) (p_mail p) (p_pass p)] else m_at s m.
Proof.
  rewrite addPw_cases. destruct (fits_all p); [|discriminate]. intros E. injection E as <-. rewrite m_at_put. destruct (eqb_bytes s (p_site p)) eqn:E.
  - apply eqb_bytes_spec in E. subst. reflexivity.
  - destruct (m_count (p_site p) m =? 0); [|reflexivity]. rewrite m_at_put, E. reflexivity.
Qed.
Lemma addPw_rel p m l : Rel m l -> fits_all p = true -> exists m', addPw p m = Ret m' /\ Rel m' (l ++ [p]) /\ m' <> [].
Proof.
  intros [N R] F. destruct (addPw p m) as [m'|e|c|] eqn:E; rewrite addPw_cases, F in E; try discriminate. exists m'. split; [reflexivity|].
  split; [split|].
  - injection E as <-. apply m_put_keys. destruct (m_count _ _ =? 0); [apply m_put_keys|]; exact N.
  - intros s. rewrite at_site_app, R. rewrite (addPw_at p m m' s) by (rewrite addPw_cases, F; exact E).
    cbn [at_site filter]. destruct (eqb_bytes s (p_site p)) eqn:Es; [|apply app_nil_r]. unfold psets. rewrite map_app. cbn [map s_user s_mail s_pass].
    apply eqb_bytes_spec in Es. subst s. destruct p; reflexivity.
  - injection E as <-. apply m_put_nonnil.
Qed.

(** ** Reading *)
Lemma pop_part_cases d : match pop_part d with
  | Some (v, r) => exists b, d = b :: v ++ r /\ b2n b = lenN v
  | None => d = [] \/ exists b r, d = b :: r /\ lenN r < b2n b
  end.
Proof.
  unfold pop_part, popFirstBytes. destruct d as [|b r]; [left; reflexivity|].
  replace (lenN (b :: r) <? 1) with false by (symmetry; apply N.ltb_ge; unfold lenN; cbn [length]; lia).
  change (takeN 1 (b :: r)) with [b]. change (dropN 1 (b :: r)) with r.
  cbv beta iota. destruct (N.ltb_spec (lenN r) (b2n b)) as [L|L]; cbv beta iota; [right; exists b, r; split; [reflexivity|exact L]|].
  exists b. rewrite takeN_dropN. split; [reflexivity|]. rewrite lenN_takeN. lia.
Qed.
Lemma pop_part_part s r : (length s <= 255)%nat -> pop_part (part s ++ r) = Some (s, r).
Proof.
  intros L. unfold part. cbn [app]. unfold pop_part, popFirstBytes.
  set (b := n2b (N.of_nat (length s))).
  replace (lenN (b :: s ++ r) <? 1) with false by (symmetry; apply N.ltb_ge; unfold lenN; cbn [length]; lia).
  change (takeN 1 (b :: s ++ r)) with [b]. change (dropN 1 (b :: s ++ r)) with (s ++ r).
  assert (B : b2n b = lenN s) by (unfold b; rewrite b2n_n2b_small; unfold lenN; [reflexivity|lia]). cbv beta iota. rewrite B.
  replace (lenN (s ++ r) <? lenN s) with false by (symmetry; apply N.ltb_ge; unfold lenN; rewrite app_length; lia).
  rewrite takeN_app_exact, dropN_app_exact. reflexivity.
Qed.

(** a set of a new site is never read beyond its user name *)
Lemma pop_left_tl d : pop_left d = tl d.
Proof. destruct d as [|b d]; [reflexivity|]. unfold pop_left, popFirstBytes. destruct (N.ltb_spec (lenN (b :: d)) 1) as [L|_]; [rewrite lenN_cons in L; lia|]. reflexivity. Qed.
Lemma read_sets_cases d : 
  match d with
  | [] => read_sets (S (length d)) d [] = Ret ([], d, None)
  | _ => match pop_part d with
         | None => read_sets (S (length d)) d [] = Ret ([], tl d, Some ERR_FILEDATA_INVALID)
         | Some (s, r) => match pop_part r with
                          | None => read_sets (S (length d)) d [] = Ret ([(s, [])], tl r, Some ERR_FILEDATA_INVALID)
                          | Some _ => read_sets (S (length d)) d [] = Crash Undefined
                          end
         end
  end.
Proof.
  destruct d as [|b d]; [reflexivity|]. set (l := b :: d).
  assert (L : (lenN l =? 0) = false) by (apply N.eqb_neq; unfold l, lenN; cbn [length]; lia).
  cbn [read_sets]. rewrite L. cbn [read_parts]. destruct (pop_part l) as [[s r]|] eqn:E; [|cbn [bind]; rewrite pop_left_tl; reflexivity].
  cbn [store_part m_count m_get N.eqb m_put bind]. destruct (pop_part r) as [[u r']|] eqn:E'; [|cbn [bind]; rewrite pop_left_tl; reflexivity].
  change (0 + 1) with 1. cbn [store_part]. unfold m_at. cbn [m_get]. rewrite eqb_bytes_refl. reflexivity.
Qed.

Lemma construct_cases f m :
  match fd_mode f with
  | None => constructFileData f m = Crash Terminate
  | Some x => if x =? 1 then
      match fd_data f with
      | [] => constructFileData f m = Ret ([], f, None)
      | d => match pop_part d with
             | None => constructFileData f m = Ret ([], mkFds (Some x) (tl d), Some ERR_FILEDATA_INVALID)
             | Some (s, r) => match pop_part r with
                              | None => constructFileData f m = Ret ([(s, [])], mkFds (Some x) (tl r), Some ERR_FILEDATA_INVALID)
                              | Some _ => constructFileData f m = Crash Undefined
                              end
             end
      end
    else constructFileData f m = Ret (m, f, Some ERR_FILEMODE_INVALID)
  end.
Proof.
  unfold constructFileData. destruct f as [[x|] d]; cbn [fd_mode fd_data bind]; [|reflexivity].
  destruct (x =? 1); cbn [negb]; [|reflexivity]. pose proof (read_sets_cases d) as H. destruct d as [|b d]; [rewrite H; reflexivity|].
  destruct (pop_part (b :: d)) as [[s r]|]; [destruct (pop_part r) as [q|]|].
  - rewrite H. reflexivity.
  - rewrite H. reflexivity.
  - rewrite H. reflexivity.
Qed.
Lemma Rel_nil : Rel [] [].
Proof. split; [constructor|reflexivity]. Qed.
Lemma Rel_empty_site s : Rel [(s, [])] [].
Proof. split; [repeat constructor; intros []|]. intros k. unfold m_at. cbn [m_get]. destruct (eqb_bytes k s); reflexivity. Qed.

Lemma construct_rel f m l m' f' e : Rel m l -> constructFileData f m = Ret (m', f', e) -> Rel m' (held_step l (Construct f)).
Proof.
  intros R E. pose proof (construct_cases f m) as H. destruct f as [[x|] d]; cbn [fd_mode fd_data] in H; [|congruence].
  destruct (N.eqb_spec x 1) as [->|D].
  - change (held_step l (Construct (mkFds (Some 1) d))) with (@nil pset).
    destruct d as [|b d]; [rewrite H in E; injection E as <- _ _; exact Rel_nil|].
    destruct (pop_part (b :: d)) as [[s r]|]; [destruct (pop_part r)|].
    + congruence.
    + rewrite H in E. injection E as <- _ _. apply Rel_empty_site.
    + rewrite H in E. injection E as <- _ _. apply Rel_nil.
  - rewrite H in E. injection E as <- _ _. replace (held_step l (Construct (mkFds (Some x) d))) with l; [exact R|].
    cbn [held_step]. destruct x as [|[q|q|]]; try reflexivity. congruence.
Qed.
Lemma run_rel ops m l m' : Rel m l -> pw_run m ops = Ret m' -> Rel m' (fold_left held_step ops l).
Proof.
  revert m l. induction ops as [|o ops IH]; intros m l R E; cbn [pw_run fold_left] in *; [injection E as <-; exact R|].
  destruct (pw_step m o) as [m1| | |] eqn:S; try discriminate. cbn [bind] in E. apply (IH m1); [|exact E].
  destruct o as [p|p|p|f]; cbn [pw_step] in S.
  - cbn [held_step]. destruct (fits_all p) eqn:F.
    + destruct (addPw_rel p m l R F) as (m2 & A & B & _). rewrite A in S. injection S as <-. exact B.
    + rewrite addPw_cases, F in S. injection S as <-. exact R.
  - injection S as <-. exact R.
  - injection S as <-. exact R.
  - destruct (constructFileData f m) as [[[m2 f2] e2]| | |] eqn:C; try discriminate. injection S as <-. exact (construct_rel _ _ _ _ _ _ R C).
Qed.
Lemma run_held ops m : pw_run [] ops = Ret m -> Rel m (held ops).
Proof. apply run_rel, Rel_nil. Qed.
Lemma Rel_order m l order : Rel m l -> Permutation m order -> NoDup (map fst order) /\ (forall s, at_site s l = at_site s (flat_map sets_of order)).
Proof.
  intros [N R] P. assert (N' : NoDup (map fst order)) by (eapply Permutation_NoDup; [apply Permutation_map, P|exact N]).
  split; [exact N'|]. intros s. rewrite R, (at_site_map order s N'), (m_at_perm m order s N P). reflexivity.
Qed.

(** ** Search *)
Lemma tolower_same a b : tolower a = tolower b <-> same_letter a b.
Proof.
  unfold tolower, same_letter. pose proof (b2n_lt a) as A. pose proof (b2n_lt b) as B.
  assert (K : forall x y, x < 256 -> n2b x = y -> b2n y = x) by (intros x y H <-; apply b2n_n2b_small, H).
  destruct (N.leb_spec 65 (b2n a)), (N.leb_spec (b2n a) 90), (N.leb_spec 65 (b2n b)), (N.leb_spec (b2n b) 90); cbn [andb]; split; intros E;
    try (left; exact E); try (destruct E as [E|[[E1 E2]|[E1 E2]]]; [exact E|lia|lia]);
    try lia;
    try (apply K in E; [|lia]; right; left; lia);
    try (symmetry in E; apply K in E; [|lia]; right; right; lia);
    try (destruct E as [E|[[E1 E2]|[E1 E2]]]; [subst; try reflexivity; lia|rewrite <- E2; apply n2b_b2n|lia]);
    try (destruct E as [E|[[E1 E2]|[E1 E2]]]; [subst; try reflexivity; lia|lia|rewrite <- E2; symmetry; apply n2b_b2n]).
  - left. apply b2n_inj. apply K in E; [|lia]. rewrite b2n_n2b_small in E by lia. lia.
  - destruct E as [E|[[E1 E2]|[E1 E2]]]; [subst; reflexivity|lia|lia].
Qed.
Lemma prefixb_spec p s : prefixb p s = true <-> exists z, s = p ++ z.
Proof.
  revert s. induction p as [|a p IH]; intros s; cbn [prefixb].
  - split; [intros _; exists s; reflexivity|reflexivity].
  - destruct s as [|b s]; [split; [discriminate|intros [z E]; discriminate]|]. rewrite andb_true_iff, IH. split.
    + intros [E [z ->]]. exists z. cbn. f_equal. symmetry. apply Byte.byte_dec_bl, E.
    + intros [z E]. injection E as -> ->. split; [apply Byte.byte_dec_lb; reflexivity|exists z; reflexivity].
Qed.
Lemma findb_spec p s : findb p s = true <-> exists x z, s = x ++ p ++ z.
Proof.
  induction s as [|b s IH].
  - cbn [findb]. rewrite orb_false_r, prefixb_spec. split; [intros [z E]; exists [], z; exact E|]. intros (x & z & E). destruct x; [exists z; exact E|discriminate].
  - cbn [findb]. rewrite orb_true_iff, IH, prefixb_spec. split.
    + intros [[z E]|(x & z & E)]; [exists [], z; exact E|exists (b :: x), z; cbn; f_equal; exact E].
    + intros (x & z & E). destruct x as [|c x]; [left; exists z; exact E|]. injection E as -> E. right. exists x, z. exact E.
Qed.
Lemma lower_Forall2 y sub : map tolower y = map tolower sub <-> Forall2 same_letter y sub.
Proof.
  split.
  - revert sub. induction y as [|a y IH]; intros [|b sub] E; try discriminate; constructor; cbn [map] in E; injection E as E1 E2; [apply tolower_same, E1|apply IH, E2].
  - induction 1 as [|a b y sub H _ IH]; [reflexivity|]. cbn [map]. rewrite IH. f_equal. apply tolower_same, H.
Qed.
Lemma map_app_inv {A B} (f : A -> B) l x z : map f l = x ++ z -> exists a b, l = a ++ b /\ map f a = x /\ map f b = z.
Proof.
  revert l. induction x as [|c x IH]; intros l E; [exists [], l; split; [reflexivity|split; [reflexivity|exact E]]|].
  destruct l as [|a l]; [discriminate|]. cbn [map app] in E. injection E as E1 E2. destruct (IH _ E2) as (u & v & -> & <- & <-).
  exists (a :: u), v. cbn. rewrite E1. auto.
Qed.
Lemma findb_mentions sub s : findb (map tolower sub) (map tolower s) = true <-> mentions sub s.
Proof.
  rewrite findb_spec. split.
  - intros (x & z & E). apply map_app_inv in E as (a & r & -> & _ & E). apply map_app_inv in E as (y & c & -> & E & _).
    exists a, y, c. split; [reflexivity|]. apply lower_Forall2, E.
  - intros (x & y & z & -> & F). apply lower_Forall2 in F. exists (map tolower x), (map tolower z). rewrite !map_app, F. reflexivity.
Qed.
Lemma mentions_nil s : mentions [] s.
Proof. exists [], [], s. split; [reflexivity|constructor]. Qed.

Definition hit (sub : bytes) (p : pset) : bool := findb (map tolower sub) (map tolower (p_site p)).
Lemma filter_psets f k l : (forall x y, p_site x = p_site y -> f x = f y) -> filter f (psets k l) = if f (mkPset k [] [] []) then psets k l else [].
Proof.
  intros H. induction l as [|s l IH]; [destruct (f _); reflexivity|]. cbn [psets map filter]. rewrite (H _ (mkPset k [] [] [])) by reflexivity.
  change (map (fun x0 => mkPset k (s_user x0) (s_mail x0) (s_pass x0)) l) with (psets k l). rewrite IH. destruct (f _); reflexivity.
Qed.
Lemma getSets_all order sub : (match sub with [] => flat_map sets_of order
    | _ => flat_map (fun e => if findb (map tolower sub) (map tolower (fst e)) then sets_of e else []) order end) = filter (hit sub) (flat_map sets_of order).
Proof.
  assert (G : flat_map (fun e => if findb (map tolower sub) (map tolower (fst e)) then sets_of e else []) order = filter (hit sub) (flat_map sets_of order)).
  { induction order as [|[k l] r IH]; [reflexivity|]. cbn [flat_map fst]. rewrite filter_app, IH. change (sets_of (k, l)) with (psets k l).
    rewrite filter_psets; [reflexivity|]. intros x y E. unfold hit. rewrite E. reflexivity. }
  destruct sub; [|exact G]. rewrite <- G. clear. induction order as [|[k l] r IH]; [reflexivity|]. cbn [flat_map fst map]. rewrite IH.
  replace (findb [] (map tolower k)) with true; [reflexivity|]. symmetry. apply findb_spec. exists [], (map tolower k). reflexivity.
Qed.
Lemma filter_split_perm {A} (f : A -> bool) l : Permutation (filter f l ++ filter (fun x => negb (f x)) l) l.
Proof.
  induction l as [|a l IH]; [constructor|]. cbn [filter]. destruct (f a); cbn [negb].
  - cbn. constructor. exact IH.
  - etransitivity; [symmetry; apply Permutation_middle|]. constructor. exact IH.
Qed.
Lemma at_site_hit s sub l : mentions sub s -> at_site s (filter (hit sub) l) = at_site s l.
Proof.
  intros H. induction l as [|p l IH]; [reflexivity|]. cbn [filter at_site]. destruct (eqb_bytes s (p_site p)) eqn:E.
  - apply eqb_bytes_spec in E. subst s. assert (K : hit sub p = true) by (apply findb_mentions, H). rewrite K. cbn [at_site filter]. rewrite eqb_bytes_refl. f_equal. exact IH.
  - destruct (hit sub p); [cbn [at_site filter]; rewrite E|]; exact IH.
Qed.

Lemma getSets_spec ops m order sort sub sorted : pw_run [] ops = Ret m -> Permutation m order -> sorts sort ->
  exists rest, Permutation (getSets sort order sub sorted ++ rest) (held ops) /\
    Forall (fun p => mentions sub (p_site p)) (getSets sort order sub sorted) /\ Forall (fun p => ~ mentions sub (p_site p)) rest /\
    (sorted = true -> StronglySorted in_order (getSets sort order sub sorted)) /\
    (sorted = false -> forall s, mentions sub s -> at_site s (getSets sort order sub sorted) = at_site s (held ops)).
Proof.
  intros E P S. destruct (Rel_order _ _ _ (run_held _ _ E) P) as [N R]. set (all := flat_map sets_of order) in *.
  assert (PA : Permutation all (held ops)) by (symmetry; apply same_sites_perm, R).
  exists (filter (fun p => negb (hit sub p)) all). unfold getSets. rewrite getSets_all. fold all.
  assert (PO : Permutation (filter (hit sub) all) (if sorted then sort (filter (hit sub) all) else filter (hit sub) all)) by (destruct sorted; [apply S|reflexivity]).
  split; [|split; [|split; [|split]]].
  - rewrite <- PA. rewrite <- PO. apply filter_split_perm.
  - apply Forall_forall. intros p I. apply findb_mentions. apply (Permutation_in p (Permutation_sym PO)) in I. apply filter_In in I. apply I.
  - apply Forall_forall. intros p I C. apply filter_In in I as [_ I]. apply findb_mentions in C. unfold hit in I. rewrite C in I. discriminate.
  - intros ->. apply S.
  - intros -> s M. rewrite at_site_hit by exact M. symmetry. apply R.
Qed.

(** ** Saving *)
Lemma getFileData_cases order : getFileData order = match order with
  | [] => Ret (mkFds (Some 1) [])
  | (_, l) :: _ => if (length l mod 3 =? 0)%nat then Crash Undefined else Throw RuntimeError
  end.
Proof.
  destruct order as [|[s l] r]; [reflexivity|]. unfold getFileData. cbn [getBytes].
  replace (lenN l mod 3 =? 0) with (length l mod 3 =? 0)%nat.
  - destruct (length l mod 3 =? 0)%nat; cbn [negb]; [|reflexivity]. cbn [get_sets]. destruct (nth_error l 0); reflexivity.
  - unfold lenN. change 3 with (N.of_nat 3). rewrite <- Nat2N.inj_mod by discriminate. destruct (Nat.eqb_spec (length l mod 3) 0) as [E|E]; symmetry; [apply N.eqb_eq|apply N.eqb_neq]; lia.
Qed.
Lemma getFileData_spec ops m order : pw_run [] ops = Ret m -> Permutation m order ->
  (forall f, getFileData order = Ret f -> held ops = [] /\ f = mkFds (Some 1) []) /\
  (held ops <> [] -> getFileData order = Throw RuntimeError \/ getFileData order = Crash Undefined).
Proof.
  intros E P. destruct (Rel_order _ _ _ (run_held _ _ E) P) as [N R]. rewrite getFileData_cases. split.
  - intros f. destruct order as [|[s l] r]; [|destruct (_ =? _)%nat; discriminate]. intros F. injection F as <-. split; [|reflexivity].
    apply same_sites_perm in R. cbn in R. apply Permutation_sym, Permutation_nil in R. exact R.
  - intros H. destruct order as [|[s l] r]; [|destruct (_ =? _)%nat; auto].
    destruct H. apply same_sites_perm in R. cbn in R. apply Permutation_sym, Permutation_nil in R. exact R.
Qed.
Lemma addPw_one s l p : p_site p = s -> fits_all p = true -> addPw p [(s, l)] = Ret [(s, l ++ [mkSset (p_user p) (p_mail p) (p_pass p)])].
Proof.
  intros <- F. rewrite addPw_cases, F. unfold m_count, m_at. cbn [m_get]. rewrite eqb_bytes_refl. cbn [N.eqb m_put]. rewrite eqb_bytes_refl. reflexivity.
Qed.
Lemma adds_one s ps l : Forall (fun p => p_site p = s /\ fits_all p = true) ps ->
  pw_run [(s, l)] (map AddPw ps) = Ret [(s, l ++ map (fun p => mkSset (p_user p) (p_mail p) (p_pass p)) ps)].
Proof.
  intros H. revert l. induction H as [|p ps [A B] H IH]; intros l; cbn [map pw_run]; [rewrite app_nil_r; reflexivity|].
  cbn [pw_step]. rewrite (addPw_one s l p A B). cbn [bind]. rewrite IH. rewrite <- app_assoc. reflexivity.
Qed.
Lemma one_site s ps m order : ps <> [] -> Forall (fun p => p_site p = s /\ fits_all p = true) ps -> pw_run [] (map AddPw ps) = Ret m -> Permutation m order ->
  getFileData order = if (length ps mod 3 =? 0)%nat then Crash Undefined else Throw RuntimeError.
Proof.
  intros NE F E P. destruct ps as [|p ps]; [congruence|]. inversion F as [|x y [A B] H]; subst. cbn [map pw_run pw_step] in E.
  assert (K : addPw p [] = Ret [(p_site p, [mkSset (p_user p) (p_mail p) (p_pass p)])])
    by (rewrite addPw_cases, B; unfold m_count, m_at; cbn [m_get N.eqb m_put]; rewrite eqb_bytes_refl; reflexivity).
  rewrite K in E. cbn [bind] in E. rewrite (adds_one (p_site p) ps _ H) in E. injection E as <-. apply Permutation_length_1_inv in P. subst order.
  rewrite getFileData_cases. cbn [app length]. rewrite map_length. reflexivity.
Qed.

(** ** Loading *)
Lemma construct_success f m : (exists m' f', constructFileData f m = Ret (m', f', None)) <-> f = mkFds (Some 1) [].
Proof.
  pose proof (construct_cases f m) as H. split.
  - intros (m' & f' & E). destruct f as [[x|] d]; cbn [fd_mode fd_data] in H; [|congruence]. destruct (N.eqb_spec x 1) as [->|D]; [|congruence].
    destruct d as [|b d]; [reflexivity|]. destruct (pop_part (b :: d)) as [[s r]|]; [destruct (pop_part r)|]; [congruence|congruence|congruence].
  - intros ->. cbn [fd_mode fd_data] in H. exists [], (mkFds (Some 1) []). exact H.
Qed.
Lemma construct_outcomes f m :
  (fd_mode f = None -> constructFileData f m = Crash Terminate) /\
  (forall x, fd_mode f = Some x -> x <> 1 -> constructFileData f m = Ret (m, f, Some ERR_FILEMODE_INVALID)) /\
  (fd_mode f = Some 1 -> fd_data f <> [] ->
     ((exists s u r, (length s <= 255)%nat /\ (length u <= 255)%nat /\ fd_data f = part s ++ part u ++ r) /\ constructFileData f m = Crash Undefined) \/
     ((forall s r, (length s <= 255)%nat -> fd_data f <> part s ++ r) /\
      constructFileData f m = Ret ([], mkFds (Some 1) (tl (fd_data f)), Some ERR_FILEDATA_INVALID)) \/
     (exists s r, (length s <= 255)%nat /\ fd_data f = part s ++ r /\ (forall u q, (length u <= 255)%nat -> r <> part u ++ q) /\
      constructFileData f m = Ret ([(s, [])], mkFds (Some 1) (tl r), Some ERR_FILEDATA_INVALID))).
Proof.
  pose proof (construct_cases f m) as H. destruct f as [[x|] d]; cbn [fd_mode fd_data] in *.
  - split; [discriminate|]. split.
    + intros y E D. injection E as ->. apply N.eqb_neq in D. rewrite D in H. exact H.
    + intros E D. injection E as ->. cbn [N.eqb Pos.eqb] in H. destruct d as [|b d]; [congruence|]. clear D.
      assert (K : forall s u r, (length s <= 255)%nat -> (length u <= 255)%nat -> b :: d = part s ++ part u ++ r ->
        pop_part (b :: d) = Some (s, part u ++ r) /\ pop_part (part u ++ r) = Some (u, r)) by (intros s u r A B ->; split; apply pop_part_part; assumption).
      assert (Q : forall c v, b2n c = lenN v -> c :: v = part v /\ (length v <= 255)%nat).
      { intros c v V. pose proof (b2n_lt c) as L. rewrite V in L. unfold lenN in *. split; [|lia]. unfold part. f_equal. rewrite <- V. symmetry. apply n2b_b2n. }
      pose proof (pop_part_cases (b :: d)) as C1. destruct (pop_part (b :: d)) as [[s r]|] eqn:P1; [|].
      * pose proof (pop_part_cases r) as C2. destruct (pop_part r) as [[u r']|] eqn:P2.
        -- left. split; [|exact H]. destruct C1 as (c & C1 & V1), C2 as (c' & C2 & V2). destruct (Q _ _ V1) as [Q1 L1], (Q _ _ V2) as [Q2 L2].
           exists s, u, r'. split; [exact L1|split; [exact L2|]]. rewrite <- Q1, <- Q2, C1, C2. reflexivity.
        -- right; right. destruct C1 as (c & C1 & V1). destruct (Q _ _ V1) as [Q1 L1]. exists s, r. split; [exact L1|]. split; [rewrite <- Q1, C1; reflexivity|]. split; [|exact H].
           intros u q B E. rewrite E, (pop_part_part u q B) in P2. discriminate P2.
      * right; left. split; [|exact H]. intros s r A E. rewrite E, (pop_part_part s r A) in P1. discriminate P1.
  - split; [intros _; exact H|]. split; [discriminate|discriminate].
Qed.
Lemma fits_le s : fits s = true -> (length s <= 255)%nat.
Proof. apply Nat.leb_le. Qed.
Lemma construct_documented l m : l <> [] -> Forall (fun p => fits_all p = true) l -> constructFileData (mkFds (Some 1) (flat_map set_bytes l)) m = Crash Undefined.
Proof.
  intros D F. destruct l as [|p l]; [congruence|]. inversion F as [|x y A _]; subst. unfold fits_all in A. rewrite !andb_true_iff in A. destruct A as [[[A1 A2] A3] A4].
  apply fits_le in A1, A2. destruct (construct_outcomes (mkFds (Some 1) (flat_map set_bytes (p :: l))) m) as (_ & _ & H). cbn [fd_mode fd_data] in H.
  destruct (H eq_refl) as [[_ C]|[[C _]|(s & r & Ls & E & C & _)]]; [discriminate|exact C| |].
  - destruct (C (p_site p) (part (p_user p) ++ part (p_mail p) ++ part (p_pass p) ++ flat_map set_bytes l) A1). cbn [flat_map]. unfold set_bytes at 1. rewrite <- !app_assoc. reflexivity.
  - assert (pop_part (part s ++ r) = pop_part (part (p_site p) ++ part (p_user p) ++ part (p_mail p) ++ part (p_pass p) ++ flat_map set_bytes l)) as X
      by (rewrite <- E; cbn [flat_map]; unfold set_bytes at 1; rewrite <- !app_assoc; reflexivity).
    rewrite !pop_part_part in X by assumption. injection X as _ X. destruct (C _ _ A2 X).
Qed.

(** ** There is a sort function *)
Fixpoint beforeb (s t : bytes) : bool :=
  match s, t with
  | _, [] => false
  | [], _ => true
  | a :: s', b :: t' => if b2n a <? b2n b then true else if b2n b <? b2n a then false else beforeb s' t'
  end.
Lemma beforeb_spec s t : beforeb s t = true <-> before s t.
Proof.
  split.
  - revert t. induction s as [|a s IH]; intros [|b t] E; cbn in E; try discriminate; [constructor|].
    destruct (N.ltb_spec (b2n a) (b2n b)); [constructor; assumption|]. destruct (N.ltb_spec (b2n b) (b2n a)); [discriminate|].
    replace b with a by (apply b2n_inj; lia). apply before_rest. apply IH, E.
  - induction 1 as [b s|a b s t L|a s t H IH]; cbn; [reflexivity| |].
    + apply N.ltb_lt in L. rewrite L. reflexivity.
    + rewrite N.ltb_irrefl. exact IH.
Qed.
Lemma beforeb_asym s t : beforeb s t = true -> beforeb t s = false.
Proof.
  revert t. induction s as [|a s IH]; intros [|b t]; cbn; try congruence.
  destruct (N.ltb_spec (b2n a) (b2n b)), (N.ltb_spec (b2n b) (b2n a)); try congruence; try lia. apply IH.
Qed.
(** the order "not before" is transitive *)
Lemma beforeb_neg_trans s t u : beforeb t s = false -> beforeb u t = false -> beforeb u s = false.
Proof.
  revert t u. induction s as [|a s IH]; intros [|b t] [|c u]; cbn; try congruence.
  destruct (N.ltb_spec (b2n b) (b2n a)), (N.ltb_spec (b2n c) (b2n b)), (N.ltb_spec (b2n c) (b2n a)), (N.ltb_spec (b2n a) (b2n b)), (N.ltb_spec (b2n b) (b2n c)), (N.ltb_spec (b2n a) (b2n c)); try congruence; try lia.
  apply IH.
Qed.
Fixpoint ins (p : pset) (l : list pset) : list pset :=
  match l with [] => [p] | q :: r => if beforeb (p_site q) (p_site p) then q :: ins p r else p :: l end.
Fixpoint isort (l : list pset) : list pset := match l with [] => [] | p :: r => ins p (isort r) end.
Lemma ins_perm p l : Permutation (p :: l) (ins p l).
Proof. induction l as [|q l IH]; cbn [ins]; [reflexivity|]. destruct (beforeb _ _); [|reflexivity]. etransitivity; [apply perm_swap|]. constructor. exact IH. Qed.
Lemma in_order_b p q : in_order p q <-> beforeb (p_site q) (p_site p) = false.
Proof. unfold in_order. rewrite <- beforeb_spec. destruct (beforeb _ _); split; congruence. Qed.
Lemma ins_sorted p l : StronglySorted in_order l -> StronglySorted in_order (ins p l).
Proof.
  induction l as [|q l IH]; intros S; cbn [ins]; [repeat constructor|]. inversion S as [|x y S1 S2]; subst. destruct (beforeb (p_site q) (p_site p)) eqn:E.
  - constructor; [apply IH, S1|]. apply Forall_forall. intros r I. apply (Permutation_in r (Permutation_sym (ins_perm p l))) in I. destruct I as [<-|I].
    + apply in_order_b. apply beforeb_asym, E.
    + rewrite Forall_forall in S2. apply S2, I.
  - constructor; [exact S|]. constructor; [apply in_order_b, E|]. apply Forall_forall. intros r I. apply in_order_b.
    rewrite Forall_forall in S2. specialize (S2 r I). apply in_order_b in S2. exact (beforeb_neg_trans _ _ _ E S2).
Qed.
Lemma isort_sorts : sorts isort.
Proof.
  intros l. induction l as [|p l [P S]]; cbn [isort]; [split; constructor|]. split; [|apply ins_sorted, S].
  etransitivity; [|apply ins_perm]. constructor. exact P.
Qed.
Lemma run_returns ops m : Forall (fun o => match o with Construct f => fd_mode f <> None /\ (fd_mode f = Some 1 -> fd_data f = []) | _ => True end) ops ->
  exists m', pw_run m ops = Ret m'.
Proof.
  intros H. revert m. induction H as [|o ops H F IH]; intros m; [exists m; reflexivity|]. cbn [pw_run].
  assert (S : exists m1, pw_step m o = Ret m1).
  { destruct o as [p|p|p|f]; cbn [pw_step]; try (eexists; reflexivity).
    - rewrite addPw_cases. destruct (fits_all p); eexists; reflexivity.
    - destruct H as [A B]. pose proof (construct_cases f m) as C. destruct (fd_mode f) as [x|]; [|congruence]. destruct (N.eqb_spec x 1) as [->|D].
      + rewrite (B eq_refl) in C. rewrite C. eexists; reflexivity.
      + rewrite C. eexists; reflexivity. }
  destruct S as [m1 S]. rewrite S. cbn [bind]. apply IH.
Qed.
Lemma addPw_outcome p m : (fits_all p = true -> exists m', addPw p m = Ret m') /\ (fits_all p = false -> addPw p m = Throw InvalidArgument).
Proof. rewrite addPw_cases. split; intros ->; [eexists|]; reflexivity. Qed.

(** the setters of a password set *)
Lemma setters v s : ((length v <= 255)%nat -> setUsername v s = Ret (mkSset v (s_mail s) (s_pass s)) /\ setEmail v s = Ret (mkSset (s_user s) v (s_pass s)) /\ setPassword v s = Ret (mkSset (s_user s) (s_mail s) v)) /\
  ((255 < length v)%nat -> setUsername v s = Throw InvalidArgument /\ setEmail v s = Throw InvalidArgument /\ setPassword v s = Throw InvalidArgument).
Proof.
  unfold setUsername, setEmail, setPassword. split; intros L; destruct (N.ltb_spec 255 (lenN v)) as [K|K]; unfold lenN in K; try lia; repeat split.
Qed.
