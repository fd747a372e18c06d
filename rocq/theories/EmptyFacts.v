(** Lemmas about headers with an empty block. *)
From Coq Require Import Strings.Byte.
From Verif Require Import Base BaseFacts BytesModel BytesFacts MiscModel MiscFacts CipherModel CipherSpec CipherFacts CipherFacts2 PwModel PwSpec PwFacts ChModel ChSpec ChFacts ChFacts2
  HeaderModel HeaderSpec HeaderFacts HeaderFacts2 HeaderFacts3 HeaderFacts4 HeaderFacts5 HeaderFacts8 HeaderFacts9 FileModel ApiModel ApiSpec ApiSpec2 FileFacts FileFacts2 ApiFacts ApiFacts2 ApiFacts3 ApiFacts4 ApiFacts5 ApiFacts6
  ApiFacts7 ApiFacts8 ApiFacts9 ApiFacts10 ApiFacts11 ApiFacts12 SysSpec SysFacts.

Lemma first_empty (bs : list (N * bytes)) : Forall (fun b => snd b <> []) bs \/ exists l1 ty l2, bs = (l1 ++ (ty, []) :: l2)%list /\ Forall (fun b => snd b <> []) l1.
Proof.
  induction bs as [|[ty d] bs IH]; [left; constructor|]. destruct d as [|b d].
  - right. exists [], ty, bs. split; [reflexivity|constructor].
  - destruct IH as [IH|(l1 & ty' & l2 & -> & IH)]; [left; constructor; [discriminate|exact IH]|].
    right. exists ((ty, b :: d) :: l1), ty', l2. split; [reflexivity|]. constructor; [discriminate|exact IH].
Qed.
Section Empty.
  Variable H : hashes.
  Hypothesis HH : hashes_ok H.
  Variable bd : build.

  Lemma sealed_zero h pw data c : sealed H h pw data c -> lenN data < 2 ^ 31 -> ~ no_empty_block h -> zero_block c.
  Proof.
    intros S L Ne. destruct (sealed_sizes H HH h pw data c S L) as (Sf & Lc & L32). change (2 ^ 32) with 4294967296 in L32. destruct S as (Hok & _ & E).
    destruct (first_empty (h_blocks h)) as [X|(l1 & ty & l2 & Eb & Fb)]; [contradiction|].
    pose proof Hok as (A1 & A2 & A3 & A4 & _). rewrite Eb in A3, A4. apply Forall_app in A4. destruct A4 as [A4 A5]. inversion A5 as [|? ? A6 A7]; subst.
    unfold zero_block. exists (hdr_len h), (h_hmode h), (lenN (h_blocks h)), l1, ty. eexists. split; [|split; [|split; [|split]]].
    - split; [unfold two64; lia|]. split; [lia|]. split; [exact A2|]. rewrite lenN_app in A3. split; [|lia]. apply Forall_forall. intros b Hb. split; [exact (proj1 (Forall_forall _ _) A4 _ Hb)|exact (proj1 (Forall_forall _ _) Fb _ Hb)].
    - rewrite Eb, lenN_app, lenN_cons. lia.
    - rewrite Eb. lia.
    - apply A6.
    - rewrite Lc. unfold ser. rewrite layout_pre by exact A1. unfold pre. rewrite Eb, map_app, concat_app. cbn [map concat]. unfold ser_block at 2. cbn [fst snd]. rewrite app_nil_r.
      change (lenN (@nil byte)) with 0. rewrite <- !app_assoc. reflexivity.
  Qed.
  Lemma zero_fatal w f p c h pw data : sealed H h pw data c -> lenN data < 2 ^ 31 -> ~ no_empty_block h -> enc_path p -> w_stat w p = true -> w_read w p = true -> f (w_loc w p) = Some c ->
    fatal_file w f p Terminate.
  Proof.
    intros S L Ne Ep St Rd F. split; [exact Ep|]. right. split; [exact St|]. split; [exact Rd|]. exists c, (hdr_len h). split; [exact F|]. split; [apply (sealed_sizes H HH h pw data c S L)|].
    left. split; [reflexivity|]. exact (sealed_zero _ _ _ _ S L Ne).
  Qed.
  (** what a write of such a header leads to *)
  Lemma empty_block_written mode tr a w f o p f' a' : history bd H mode tr a -> world_ok bd H w -> fs_ok f -> (o = OWrite \/ o = OWriteTo p) -> step w a f o = (f', Ret (a', ROk)) ->
    exists q h c, target tr o = Some q /\ current H tr h /\ f' (w_loc w q) = Some (takeN (w_room w) c) /\
      (~ no_empty_block h -> lenN c <= w_room w -> forall w2, world_ok bd H w2 -> w_loc w2 q = w_loc w q -> enc_path q -> w_stat w2 q = true -> w_read w2 q = true ->
         step w2 (fresh 1) f' (OSelect q) = (f', Crash Terminate) /\
         forall dir l1 n l2 k, dir <> [] -> w_dir w2 dir = Entries (l1 ++ (n, true) :: l2) -> enc_path n -> join dir n = q ->
           looked_at_in l1 k -> k < 2 ^ 31 -> harmless w2 f' dir l1 -> step w2 (fresh 1) f' (OList dir) = (f', Crash Terminate)).
  Proof.
    intros Hh W Hf Ho E. destruct (write_history H HH bd _ _ _ _ _ _ _ _ _ Hh W Hf Ho E) as (q & h & pw & data & c & T & _ & _ & Cu & L & S & F).
    exists q, h, c. split; [exact T|]. split; [exact Cu|]. split; [exact F|]. intros Ne R w2 W2 Lq Ep St Rd.
    assert (op_ok o) as Oo by (destruct Ho as [-> | ->]; exact I).
    assert (fs_ok f') as Hf' by exact (step_fs_ok H HH bd (fun _ => 0) mode tr a w f o f' _ Hh W Hf Oo E).
    rewrite takeN_all in F by exact R. rewrite <- Lq in F.
    pose proof (zero_fatal w2 f' q c h pw data S L Ne Ep St Rd F) as Z. assert (history bd H 1 [] (fresh 1)) as H0 by (apply hist_new; reflexivity).
    split.
    - apply (dies_iff H HH bd _ _ _ w2 f' (OSelect q) f' Terminate H0 W2 Hf' I). split; [reflexivity|]. split; [reflexivity|]. exact Z.
    - intros dir l1 n l2 k Nd D En J Lk Lt Fl. apply (dies_iff H HH bd _ _ _ w2 f' (OList dir) f' Terminate H0 W2 Hf' I). split; [reflexivity|]. split; [reflexivity|].
      cbn [fatal]. rewrite D. split; [exact Nd|]. exists l1, ((n, true) :: l2), k. split; [reflexivity|]. split; [exact Lk|]. split; [exact Fl|]. left. split; [exact Lt|]. exists n, l2. rewrite J. auto.
  Qed.
  (** from a new file to one that cannot be opened *)
  Lemma vault_lost ws p l f ds pw data t it1 it2 : (forall i, at_hand bd H (ws i) p l) -> enc_path p -> w_create (ws 0%nat) p = true -> fs_ok f -> f l = None ->
    settings_made ds -> settings_complete ds -> lenN (s_dec ds) <= 255 -> lenN (s_enc ds) <= 255 -> Exists (fun b => bdata (db_data b) = []) (s_dec ds) ->
    s_n1 ds = Some it1 -> s_n2 ds = Some it2 -> t < 2 ^ 64 -> create_in_time (ws 2%nat) t it1 it2 ->
    getLen data < 2 ^ 31 -> patient (ws 3%nat) (getLen data) -> (forall h, created H (ws 2%nat) ds pw h -> hdr_len h + getLen data <= w_room (ws 4%nat)) ->
    exists a' f', calls [(ws 0%nat, OCreate p); (ws 1%nat, OSelect p); (ws 2%nat, OHeader pw ds t); (ws 3%nat, OEncrypt (text data)); (ws 4%nat, OWrite)] (fresh 1) f =
        Some ([ROk; ROk; ROk; ROk; ROk], a', f') /\ step (ws 5%nat) (fresh 1) f' (OSelect p) = (f', Crash Terminate).
  Proof.
    intros A Ep C Hf Fl Sm Sc L1 L2 Ex N1 N2 Lt T L P1 R. pose proof (create_select H bd (ws 0%nat) (ws 1%nat) p l f (A _) (A _) Ep C Fl) as E1. set (f1 := upd f l (Some [])) in *.
    pose proof (A 2%nat) as ((Wb & WH & WR & We) & _). pose proof Sc as Sc'. apply complete_iff in Sc'.
    destruct (create_header H HH (ws 2%nat) pw ds t WH WR We Lt Sm Sc') as (i1 & i2 & M1 & M2 & _ & B). assert (i1 = it1) by congruence. assert (i2 = it2) by congruence. subst i1 i2.
    destruct (B T) as [_ B2]. destruct (B2 L1 L2) as (d & k & h & E & Hd & _ & Hc & Bk). pose proof Hc as (_ & _ & _ & _ & _ & Hb & _ & O).
    assert (~ no_empty_block h) as Ne.
    { unfold no_empty_block. rewrite Hb. intros F. rewrite Forall_map in F. cbn [snd] in F. apply Exists_exists in Ex. destruct Ex as (b & I1 & I2). rewrite Forall_forall in F. exact (F b I1 I2). }
    assert (exists a2, step (ws 2%nat) (empty_obj p) f1 (OHeader pw ds t) = (f1, Ret (a2, ROk)) /\ dec_obj H a2 p h pw) as (a2 & E2 & D).
    { cbn [step]. rewrite Sc'. cbn [negb a_state empty_obj a_mode]. rewrite E. eexists. split; [reflexivity|]. do 4 eexists. split; [reflexivity|]. split; [exact Hd|]. split; [split; [exact O|exact Bk]|reflexivity]. }
    destruct (encrypt_write H HH bd (fun i => ws (3 + i)%nat) a2 p l f1 h pw data [] D (fun i => A _) Ep (upd_same _ _ _) L P1) as (a3 & f3 & E3 & _ & Em & Fo & c & S & Fc).
    cbn [Nat.add] in E3, Fc. rewrite (room_all H HH _ _ _ _ _ S (R _ Hc)) in Fc. exists a3, f3. split.
    - eapply (calls_app [(ws 0%nat, OCreate p); (ws 1%nat, OSelect p)] _ _ _ _ _ [ROk; ROk] _ _ _ E1). eapply calls_cons; [exact E2|exact E3].
    - pose proof (A 5%nat) as (W5 & (S5 & R5 & _) & E5).
      assert (fs_ok f3) as Hf3.
      { intros l' c' F'. destruct (N.eq_dec l' l) as [-> | Nl].
        - rewrite Fc in F'. injection F' as <-. destruct (sealed_sizes H HH h pw _ _ S L) as (_ & _ & X). change (2 ^ 32) with 4294967296 in X. change (2 ^ 63) with 9223372036854775808. lia.
        - rewrite (Fo _ Nl) in F'. unfold f1 in F'. rewrite upd_other in F' by exact Nl. exact (Hf _ _ F'). }
      apply (dies_iff H HH bd 1 [] (fresh 1) (ws 5%nat) f3 (OSelect p) f3 Terminate); [apply hist_new; reflexivity|exact W5|exact Hf3|exact I|].
      split; [reflexivity|]. split; [reflexivity|]. rewrite <- E5 in Fc. exact (zero_fatal _ f3 p c h pw _ S L Ne Ep S5 R5 Fc).
  Qed.
End Empty.
