(** Lemmas for C109. *)
From Coq Require Import Strings.Byte.
From Verif Require Import Base BaseFacts BytesModel BytesFacts MiscModel MiscFacts CipherModel CipherSpec CipherFacts CipherFacts2 PwModel PwSpec PwFacts ChModel ChSpec ChFacts ChFacts2
  HeaderModel HeaderSpec HeaderFacts HeaderFacts2 HeaderFacts3 HeaderFacts4 HeaderFacts5 HeaderFacts8 HeaderFacts9 FileModel ApiModel ApiSpec ApiSpec2 FileFacts FileFacts2 ApiFacts ApiFacts2 ApiFacts3 ApiFacts4 ApiFacts5 ApiFacts6
  ApiFacts7 ApiFacts9 ApiFacts10 ApiFacts11 ApiFacts12 RefSpec RefSpec2 RefFacts RefFacts2 SecSpec SecFacts LeakSpec LeakFacts WorkModel WorkSpec QuerySpec SysSpec SysFacts EmptyFacts StolenSpec.
Open Scope N_scope.
Open Scope list_scope.

(** ** the program *)
Lemma undo_answer D cs : forall k s l got, answer D (undo (k, s, l) cs got) = Some (got ++ dec_blocks D (k, s, l) cs).
Proof.
  induction cs as [|c r IH]; intros k s l got; cbn [undo dec_blocks].
  - cbn [answer]. rewrite app_nil_r. reflexivity.
  - cbn [answer]. unfold kpad, kafter, knext_salt, knext_key. destruct r as [|c' r].
    + cbn [answer dec_blocks]. rewrite app_nil_r. reflexivity.
    + cbn [answer]. rewrite IH. unfold kpad, kafter, knext_salt, knext_key. rewrite <- app_assoc. reflexivity.
Qed.
Lemma undo_asked D cs : forall st got, lenN (asked D (undo st cs got)) <= 4 * lenN cs.
Proof.
  induction cs as [|c r IH]; intros [[k s] l] got; cbn [undo asked]; [cbn; lia|]. destruct r as [|c' r].
  - cbn [asked]. rewrite !lenN_cons, !lenN_nil. lia.
  - cbn [asked]. rewrite !lenN_cons. match goal with |- context [undo ?st _ ?g] => pose proof (IH st g) as X end. rewrite !lenN_cons in X. lia.
Qed.
Lemma cut_count n f : forall l, 0 < n -> (length l <= f)%nat -> n * lenN (CipherSpec.cut n f l) <= lenN l + (n - 1).
Proof.
  induction f as [|f IH]; intros l Pn L.
  - cbn [CipherSpec.cut]. change (lenN (@nil bytes)) with 0. lia.
  - destruct l as [|b l]; [cbn [CipherSpec.cut]; change (lenN (@nil bytes)) with 0; lia|].
    change (CipherSpec.cut n (S f) (b :: l)) with (takeN n (b :: l) :: CipherSpec.cut n f (dropN n (b :: l))). rewrite lenN_cons.
    pose proof (lenN_dropN n (b :: l)) as E. assert (length (dropN n (b :: l)) <= f)%nat as Ld by (unfold lenN in E; cbn [length] in *; lia).
    pose proof (IH _ Pn Ld) as X. rewrite E in X. rewrite lenN_cons in *.
    destruct (N.le_gt_cases n (1 + lenN l)) as [Q|Q]; [nia|].
    assert (dropN n (b :: l) = []) as Z by (destruct (dropN n (b :: l)); [reflexivity|rewrite lenN_cons in E; lia]).
    rewrite Z. assert (CipherSpec.cut n f [] = []) as -> by (destruct f; reflexivity). change (lenN (@nil bytes)) with 0. lia.
Qed.
Lemma thief_cost D key c : lenN c < 2 ^ 64 -> 8 * lenN (asked D (thief key c)) <= lenN c.
Proof.
  intros L. unfold thief. destruct (read_file Release c) as [[h body]|e|x] eqn:R; [|cbn [asked]; change (lenN (@nil bytes)) with 0; lia|cbn [asked]; change (lenN (@nil bytes)) with 0; lia].
  destruct (read_holds Release c h body L R) as (_ & hsz & l1 & l2 & W). destruct W as (Hok & _ & _ & _ & _ & _ & _ & E).
  assert (lenN c = hdr_len h + lenN body) as Lc by (rewrite E at 1; rewrite lenN_app, layout_len by exact Hok; reflexivity).
  pose proof (hdr_len_bounds h Hok) as B.
  match goal with |- context [undo ?st ?cs ?g] => pose proof (undo_asked D cs st g) as X end.
  assert (32 <= digest_len (h_hmode h)) as Q by (destruct Hok as (_ & Hm & _); destruct (digest_cases _ Hm) as [G|[G|G]]; rewrite G; lia).
  pose proof (cut_count (digest_len (h_hmode h)) (length body) body ltac:(lia) (Nat.le_refl _)) as Y. fold (blocks (digest_len (h_hmode h)) body) in Y.
  set (n := digest_len (h_hmode h)) in *. set (m := lenN (blocks n body)) in *. set (q := lenN (asked D _)) in *. clearbody n m q. clear - X Y B Lc Q. nia.
Qed.
Lemma thief_reads H (HH : hashes_ok H) h pw data c key : sealed H h pw data c -> no_empty_block h -> lenN data < 2 ^ 31 -> key = key_of H h pw ->
  answer (hash_of H (h_hmode h)) (thief key c) = Some data.
Proof.
  intros S Ne L ->. unfold thief. rewrite (LeakFacts.read_sealed H HH Release h pw data c S Ne L), undo_answer. cbn [app]. f_equal.
  destruct S as (Hok & _). exact (plain_of_cipher H HH h pw data Hok).
Qed.

Section Sys.
  Variable H : hashes.
  Hypothesis HH : hashes_ok H.
  Variable bd : build.
  Variable loc : bytes -> N.
  Variable f0 : fs.

  Definition stems (tr : list event) (h : header) : Prop := exists h0 s, first_header H f0 tr h0 /\ h = with_salt s h0.
  Lemma stems_more v tr h : stems tr h -> stems (v :: tr) h.
  Proof.
    intros (h0 & s & [F|(u & pw & ds & t & I & F)] & E); exists h0, s; (split; [|exact E]); [left; exact F|right]. exists u, pw, ds, t. split; [right; exact I|exact F].
  Qed.
  Lemma stems_salt tr h s : stems tr h -> stems tr (with_salt s h).
  Proof. intros (h0 & s0 & F & ->). exists h0, s. split; [exact F|reflexivity]. Qed.
  Lemma stems_self tr h : first_header H f0 tr h -> stems tr h.
  Proof. intros F. exists h, (h_salt h). split; [exact F|]. destruct h; reflexivity. Qed.

  (** a file that a save has left, whole or cut off: the header in it, if it can be read *)
  Lemma left_header h pw data c r hsz l1 l2 h' rest : sealed H h pw data c -> lenN data < 2 ^ 31 -> written_as (takeN r c) hsz l1 l2 h' rest -> h' = h.
  Proof.
    intros S L W. destruct (sealed_sizes H HH h pw data c S L) as (_ & Lc & L32). change (2 ^ 32) with 4294967296 in L32.
    assert (takeN r c = c) as E.
    { destruct (written_size _ _ _ _ _ _ W) as (y & Ey). destruct S as (Hok & _ & Ec).
      assert (exists r', c = u64 (lenN c) ++ r') as (r' & Er) by (rewrite Lc; rewrite Ec; unfold ser, layout_with; rewrite <- !app_assoc; eexists; reflexivity).
      assert (lenN (takeN r c) = N.min r (lenN c)) as Lt by (rewrite lenN_takeN; lia). assert (u64 (lenN (takeN r c)) ++ (u64 hsz ++ y) ++ dropN r c = u64 (lenN c) ++ r') as T.
      { rewrite <- Er. transitivity (takeN r c ++ dropN r c); [|apply takeN_dropN]. rewrite Ey at 2. rewrite <- !app_assoc. reflexivity. }
      apply u64_inj in T; [|unfold two64; lia|unfold two64; lia].
      apply takeN_all. lia. }
    rewrite E in W. assert (lenN c < two64) as L64 by (unfold two64; lia). destruct (first_empty (h_blocks h)) as [Ne|X].
    - destruct (sealed_written H HH h pw data c S Ne L) as (_ & _ & _ & _ & W'). exact (proj1 (written_unique _ _ _ _ _ _ _ _ _ _ _ L64 W W')).
    - assert (~ no_empty_block h) as Ne.
      { intros F. destruct X as (a & ty & b & Eb & _). unfold no_empty_block in F. rewrite Eb in F. apply Forall_app in F. destruct F as [_ F]. inversion F as [|? ? F1 F2]; subst. apply F1. reflexivity. }
      pose proof (sealed_zero H HH _ _ _ _ S L Ne) as Z. set (rnd := fun n : N => repeat x00 (N.to_nat n)).
      assert (forall k, lenN (rnd k) = k) as R by (intros k; unfold rnd; rewrite lenN_repeat; lia).
      pose proof (proj2 (decode_release rnd R c (decoded (lenN c) h') rest L64)) as D. rewrite (decode_zero Release rnd c R Z) in D.
      assert (Crash Terminate = Ret (inr (decoded (lenN c) h', rest)) :> dres (dheader * bytes)) as Y by (apply D; exists hsz, l1, l2, h'; auto). discriminate Y.
  Qed.
  Definition readable (f : fs) (tr : list event) : Prop := forall l c hsz l1 l2 h rest, f l = Some c -> written_as c hsz l1 l2 h rest -> stems tr h.
  Definition in_use (tr : list event) : Prop := forall k h, current H (own k tr) h -> stems tr h.
  Lemma content_written f l hsz l1 l2 h rest : written_as (content f l) hsz l1 l2 h rest -> f l = Some (content f l).
  Proof.
    unfold content. destruct (f l); [reflexivity|]. intros W. destruct (written_size _ _ _ _ _ _ W) as (y & Ey). apply (f_equal (@lenN byte)) in Ey. rewrite !lenN_app, !u64_len in Ey.
    change (lenN (@nil byte)) with 0 in Ey. lia.
  Qed.
  Lemma written_stems v tr x l (f : fs) : written H v tr x -> in_use tr -> f l = x -> forall c hsz l1 l2 h rest, f l = Some c -> written_as c hsz l1 l2 h rest -> stems tr h.
  Proof.
    intros Wr U E c hsz l1 l2 h rest Ec W. rewrite Ec in E. subst x. unfold written in Wr.
    assert (exists h pw data c', password (own (v_obj v) tr) = Some pw /\ encrypted (own (v_obj v) tr) = Some data /\
        current H (own (v_obj v) tr) h /\ lenN data < 2 ^ 31 /\ sealed H h pw data c' /\ Some c = Some (takeN (w_room (v_world v)) c')) as (h' & pw & data & c' & _ & _ & C & L & S & E').
    { destruct (v_op v); try contradiction; try discriminate Wr; try exact Wr. injection Wr as ->. destruct (written_size _ _ _ _ _ _ W) as (y & Ey).
      apply (f_equal (@lenN byte)) in Ey. rewrite !lenN_app, !u64_len in Ey. change (lenN (@nil byte)) with 0 in Ey. lia. }
    injection E' as ->. rewrite (left_header _ _ _ _ _ _ _ _ _ _ S L W). exact (U _ _ C).
  Qed.
  Lemma readable_step tr os f k w o f' r v f2 : system bd H loc f0 tr os f -> world_ok bd H w -> (forall p, w_loc w p = loc p) -> op_ok o -> step w (os k) f o = (f', r) ->
    readable f tr -> in_use tr -> f2 = f \/ f2 = f' -> readable f2 (v :: tr).
  Proof.
    intros S W L Ho E R U X l c hsz l1 l2 h rest Ec Wr. apply stems_more. destruct X as [-> | ->]; [exact (R _ _ _ _ _ _ _ Ec Wr)|].
    destruct (changed H HH bd loc f0 _ _ _ _ _ _ _ _ l S W L Ho E) as [Y|(_ & _ & Y)]; [rewrite Y in Ec; exact (R _ _ _ _ _ _ _ Ec Wr)|].
    exact (written_stems _ _ _ l f' (Y None f') U eq_refl _ _ _ _ _ _ Ec Wr).
  Qed.
  Lemma stems_all tr os f : system bd H loc f0 tr os f -> readable f tr /\ in_use tr.
  Proof.
    induction 1 as [os Hf Hn|tr os f k w o f' a' r S [R U] W L Ho E|tr os f k w o f' x f2 a S [R U] W L Ho E X Hn].
    - split; [|intros k h []]. intros l c hsz l1 l2 h rest Ec Wr. apply stems_self. left. exists l, c, hsz, l1, l2, rest. auto.
    - split; [exact (readable_step _ _ _ _ _ _ _ _ _ f' S W L Ho E R U (or_intror eq_refl))|].
      intros j h C. cbn [own v_obj v_reply v_world v_before v_op v_after] in C. destruct (Nat.eqb_spec k j) as [-> | Nj]; [|apply stems_more; exact (U _ _ C)].
      cbn [current e_op e_reply e_world e_before] in C. unfold closes in C. cbn [e_op e_reply] in C.
      set (v := mkEvent j w f o (Some r) f').
      assert (current H (own j tr) h -> stems (v :: tr) h) as Same by (intros C'; apply stems_more; exact (U _ _ C')).
      destruct o; try contradiction; destruct r; try contradiction; try (exact (Same C)).
      + destruct C as (hsz & l1 & l2 & rest & Wr). apply stems_more. exact (R _ _ _ _ _ _ _ (content_written _ _ _ _ _ _ _ Wr) Wr).
      + apply stems_self. right. eexists v, _, _, _. split; [left; reflexivity|]. cbn [v v_op v_reply v_world]. split; [reflexivity|]. split; [reflexivity|exact C].
      + destruct C as (h0 & C & ->). apply stems_salt, stems_more. exact (U _ _ C).
    - split; [exact (readable_step _ _ _ _ _ _ _ _ _ f2 S W L Ho E R U X)|].
      intros j h C. cbn [own v_obj v_reply] in C. destruct (Nat.eqb_spec k j) as [-> | Nj]; [destruct C|apply stems_more; exact (U _ _ C)].
  Qed.
  Lemma header_origin tr os f l c hsz l1 l2 h rest : system bd H loc f0 tr os f -> f l = Some c -> written_as c hsz l1 l2 h rest ->
    exists h0 s, first_header H f0 tr h0 /\ h = with_salt s h0.
  Proof. intros S Ec W. exact (proj1 (stems_all _ _ _ S) _ _ _ _ _ _ _ Ec W). Qed.
  Lemma stolen tr os f l v older : system bd H loc f0 tr os f -> Forall (fun v => full_blocks (v_op v)) tr -> newest loc tr l = Some (v, older) -> saves v l ->
    exists h0 s pw data c, first_header H f0 tr h0 /\ password (own (v_obj v) older) = Some pw /\ encrypted (own (v_obj v) older) = Some data /\
      f l = Some c /\ sealed H (with_salt s h0) pw data c /\
      forall pw0, opens H h0 pw0 -> answer (hash_of H (h_hmode h0)) (thief (key_of H h0 pw0) c) = Some data \/ collide H h0 pw0 pw.
  Proof.
    intros S F E Wr. destruct (last_write H HH bd loc f0 _ _ _ _ _ _ S F E Wr) as (h & pw & data & c & Q1 & Q2 & Q3 & Q4 & Q5 & Q6 & Q7).
    destruct (sealed_written H HH h pw data c Q6 Q4 Q5) as (_ & _ & _ & _ & W).
    destruct (header_origin _ _ _ _ _ _ _ _ _ _ S Q7 W) as (h0 & s & Fh & ->). exists h0, s, pw, data, c. spl; try assumption.
    intros pw0 O. destruct (bytes_dec pw0 pw) as [-> | D].
    - left. exact (thief_reads H HH (with_salt s h0) pw data c _ Q6 Q4 Q5 eq_refl).
    - right. destruct Q6 as (Hok & O' & _). exact (both_open H (with_salt s h0) pw0 pw Hok O O' D).
  Qed.
  Lemma no_new_header tr h : Forall same_headers tr -> first_header H f0 tr h -> exists l c hsz l1 l2 rest, f0 l = Some c /\ written_as c hsz l1 l2 h rest.
  Proof.
    intros F [X|(v & pw & ds & t & I & Eo & Er & _)]; [exact X|]. apply (proj1 (Forall_forall _ _) F) in I. unfold same_headers in I. rewrite Eo, Er in I. contradiction.
  Qed.
  Lemma one_file tr os f l v older l0 h0 pw0 data0 c0 : system bd H loc f0 tr os f -> Forall (fun v => full_blocks (v_op v) /\ same_headers v) tr ->
    f0 l0 = Some c0 -> sealed H h0 pw0 data0 c0 -> no_empty_block h0 -> lenN data0 < 2 ^ 31 -> (forall l1 c, f0 l1 = Some c -> l1 = l0 \/ c = []) ->
    newest loc tr l = Some (v, older) -> saves v l ->
    exists pw data c, password (own (v_obj v) older) = Some pw /\ encrypted (own (v_obj v) older) = Some data /\ f l = Some c /\
      (answer (hash_of H (h_hmode h0)) (thief (key_of H h0 pw0) c) = Some data \/ collide H h0 pw0 pw).
  Proof.
    intros S F E0 S0 Ne0 L0 Only E Wr. assert (Forall (fun v => full_blocks (v_op v)) tr /\ Forall same_headers tr) as [F1 F2] by (split; eapply Forall_impl; [|exact F| |exact F]; intros u [A B]; assumption).
    destruct (stolen _ _ _ _ _ _ S F1 E Wr) as (h & s & pw & data & c & Fh & Q1 & Q2 & Q3 & Q4 & Q5). exists pw, data, c. spl; try assumption.
    destruct (no_new_header _ _ F2 Fh) as (l1 & c1 & hsz & a & b & rest & E1 & W).
    destruct (Only _ _ E1) as [-> | ->].
    - rewrite E0 in E1. injection E1 as <-. destruct (sealed_written H HH h0 pw0 data0 c0 S0 Ne0 L0) as (_ & _ & L63 & _ & W').
      destruct (written_unique _ _ _ _ _ _ _ _ _ _ _ (lt63_two64 _ L63) W W') as [-> _]. apply Q5. apply S0.
    - destruct (written_size _ _ _ _ _ _ W) as (y & Ey). apply (f_equal (@lenN byte)) in Ey. rewrite !lenN_app, !u64_len in Ey. change (lenN (@nil byte)) with 0 in Ey. lia.
  Qed.
End Sys.
