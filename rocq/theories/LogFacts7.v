(** Lemmas for C97: the log of a call that succeeds. *)
From Coq Require Import Strings.String.
From Coq Require Import Lia.
From Verif Require Import Base BaseFacts BytesModel MiscModel CipherModel CipherSpec CipherFacts CipherFacts2 PwModel PwSpec ChModel ChSpec HeaderModel HeaderSpec HeaderFacts HeaderFacts2 HeaderFacts5 FileModel FileFacts ApiModel ApiSpec ApiFacts ApiFacts3 ApiFacts4 ApiFacts5 ApiFacts7 LogModel LogSpec LogFacts1 LogFacts6.
Open Scope N_scope.
Open Scope list_scope.
Import ListNotations.

(** ** Files *)
Lemma valid_log w f p x ls : isValidPath_l w f p x = (ls, Ret (inr tt)) -> ls = [] /\ isValidPath w f p x = Ret (inr tt).
Proof.
  unfold isValidPath_l. destruct (isValidPath w f p x) as [[c|[]]|e|c|]; cbn [bind]; intro Q; inversion Q; auto.
Qed.
Lemma valid_stream w f p : isValidPath w f p true = Ret (inr tt) -> stream_of w f p = content f (w_loc w p).
Proof.
  unfold isValidPath, exists_, stream_of, content. destruct (_ =? _); [discriminate | ]. destruct (negb _); [discriminate | ]. destruct (w_stat w p); [ | discriminate].
  cbn [bind]. destruct (f (w_loc w p)); cbn [negb]; [ | discriminate]. destruct (w_read w p); [reflexivity | discriminate].
Qed.
Lemma nothing_len c : nothing c = (lenN c =? 0).
Proof. destruct c; reflexivity. Qed.
Lemma read8_none c b s : readBytes 8 8 c = Some (b, s) -> lenN c <> 0.
Proof. destruct c; [discriminate | ]. intros _. unfold lenN. cbn [length]. lia. Qed.
Lemma update_log p c h : fh_update p c = Ret h -> fh_path h = p /\ fh_empty h = nothing c /\ update_lines c = (if nothing c then [mkLine SWarning Utility_cpp 91 []] else []).
Proof.
  unfold fh_update, update_lines. rewrite nothing_len. destruct (readBytes 8 8 c) as [[b s]|] eqn:R8.
  - pose proof (read8_none _ _ _ R8) as Nz. apply N.eqb_neq in Nz. rewrite Nz. destruct (toLong _) as [n|e|e|]; cbn [bind]; try discriminate. destruct (negb _); [discriminate | ].
    destruct (readBytes 8 8 s) as [[b' s']|]; [ | discriminate]. destruct (toLong _) as [m|e|e|]; cbn [bind]; try discriminate. destruct (_ <? _); [discriminate | ].
    rewrite Bool.andb_false_r. cbn [negb]. rewrite Bool.andb_true_r. destruct (_ <? _); [discriminate | ]. intro Q. injection Q as <-. auto.
  - destruct (lenN c =? 0) eqn:Z; [ | discriminate]. cbn [bind]. destruct (_ <? _); [discriminate | ]. destruct (_ && _); [discriminate | ]. intro Q. injection Q as <-. auto.
Qed.
Lemma handler_log w f p ls h : getFileHandler_l w f p = (ls, Ret (inr h)) -> let c := content f (w_loc w p) in
  fh_path h = p /\ fh_empty h = nothing c /\ ls = (if nothing c then [mkLine SWarning Utility_cpp 91 []] else []) /\ stream_of w f p = c.
Proof.
  intro E. unfold getFileHandler_l in E. apply noexcept_l_inv in E. apply bindr_inv in E as (l1 & [] & l2 & E1 & E & ->). apply onerr_inv, valid_log in E1 as [-> V].
  apply try_inv in E. unfold newFileHandler_l in E. pose proof (f_equal snd E) as E2. apply (f_equal fst) in E. cbn [fst snd] in E, E2. subst l2.
  unfold newFileHandler in E2. rewrite V in E2. cbn [bind] in E2. unfold isValidPath_l. rewrite V. cbn [fst snd bind app]. rewrite (valid_stream _ _ _ V) in *.
  destruct (update_log _ _ _ E2) as (A & B & C). auto.
Qed.
Lemma select_log w a f p ls a' : selectFile_l w a f p = (ls, Ret (a', ROk)) -> let c := content f (w_loc w p) in
  (nothing c = true /\ ls = [api_cpp SVerbose 372 [Txt p]; mkLine SWarning Utility_cpp 91 []; api_cpp SInfo 226 [Txt p]; api_h 239 []]) \/
  (nothing c = false /\ exists d, a_state a' = FILE_SELECTED /\ a_dh a' = Some d /\
     forall h, contents d = Some h -> ls = api_cpp SVerbose 372 [Txt p] :: read_log (lenN c) h ++ [api_cpp SInfo 242 [Txt p]; api_h 229 []]).
Proof.
  intro E. cbv zeta. unfold selectFile_l in E. apply noexcept_l_inv in E. apply bindl_inv in E as (l1 & [] & l2 & E1 & E & ->). injection E1 as <-.
  apply bindl_inv in E as (l1 & [e|h] & l3 & E1 & E & ->); [apply silent_inv in E as [E _]; unfold failed in E; discriminate | ].
  apply onerr_inv, handler_log in E1. destruct E1 as (P & Em & -> & St). rewrite Em in E. destruct (nothing (content f (w_loc w p))).
  - left. split; [reflexivity | ]. injection E as <- _. rewrite P. reflexivity.
  - right. split; [reflexivity | ]. apply bindl_inv in E as (l1 & [e|d] & l4 & E1 & E & ->); [apply silent_inv in E as [E _]; unfold failed in E; discriminate | ].
    injection E as <- <-. exists d. split; [reflexivity | ]. split; [reflexivity | ]. intros h0 C. apply onerr_inv in E1. unfold fh_getDataHeader_l in E1. apply noexcept_l_inv in E1.
    apply bindr_inv in E1 as (l4 & [d' r] & l5 & E1 & E2 & ->). apply ok_inv in E2 as [-> ->]. rewrite P, St in E1. rewrite (decode_log _ _ _ _ _ _ _ E1 C), P, app_nil_r. reflexivity.
Qed.

(** ** Chain hashes *)
Lemma perform_sl_log h clk c x pw t ls k : performChainHash_sl h clk c pw t = (ls, Ret (Done k)) -> chain_of c = Some x -> ls = [hashing 97 x t].
Proof.
  unfold performChainHash_sl. intro Q. pose proof (f_equal snd Q) as Q2. apply (f_equal fst) in Q. cbn [fst snd] in Q, Q2. subst ls. rewrite Q2. unfold perform_lines, chain_of, ch_getMode.
  destruct (ch_val c); [ | discriminate]. destruct (ch_mode c); [ | discriminate]. destruct (ch_data c); [ | discriminate]. intro C. injection C as <-. reflexivity.
Qed.
Lemma perform_bl_log h clk c x pw t ls k : performChainHash_bl h clk c pw t = (ls, Ret (Done k)) -> chain_of c = Some x -> ls = [hashing 63 x t].
Proof.
  unfold performChainHash_bl. intro Q. pose proof (f_equal snd Q) as Q2. apply (f_equal fst) in Q. cbn [fst snd] in Q, Q2. subst ls. rewrite Q2. unfold perform_lines, chain_of, ch_getMode.
  destruct (ch_val c); [ | discriminate]. destruct (ch_mode c); [ | discriminate]. destruct (ch_data c); [ | discriminate]. intro C. injection C as <-. reflexivity.
Qed.
Lemma getHash_log H m ls x : getHash_l H m = (ls, Ret x) -> ls = [lookup m].
Proof. unfold getHash_l, getHash. destruct (hash_mode_valid m) eqn:V; intro Q; pose proof (f_equal snd Q) as Q2; apply (f_equal fst) in Q; cbn [fst snd] in Q, Q2; [subst; reflexivity | ]. unfold hash_mode_valid in V. destruct m as [|[[|[]|]|[]|]]; discriminate. Qed.
Lemma parts_log d ls p : getDataHeaderParts_l d = (ls, Ret p) -> ls = [] /\ p = d_parts d.
Proof. unfold getDataHeaderParts_l, getDataHeaderParts. destruct (d_isComplete d); cbn [negb]; intro Q; inversion Q; auto. Qed.
Lemma check_log w d h pw t ls k : checkPassword_l w d pw t = (ls, Ret (inr k)) -> contents d = Some h -> t < 2 ^ 64 -> w_elapsed w < 2 ^ 64 ->
  ls = [lookup (h_hmode h); hashing 97 (h_ch1 h) t; hashing 63 (h_ch2 h) ((t + 2 ^ 64 - w_elapsed w) mod 2 ^ 64); api_cpp SInfo 475 []].
Proof.
  intros E C Lt Le. destruct (contents_parts d h C) as (v' & s' & Ef & Eh & C1 & C2 & _). unfold checkPassword_l in E.
  apply bindr_inv in E as (? & p & ? & E1 & E & ->). apply lift_inv, parts_log in E1 as [-> ->].
  apply bindr_inv in E as (? & hm & ? & E1 & E & ->). apply lift_inv, trouble_inv in E1 as [E1 ->]. unfold p_getHashMode in E1. rewrite Eh in E1. injection E1 as <-.
  apply bindr_inv in E as (? & hf & ? & E1 & E & ->). apply lift_inv, getHash_log in E1 as ->.
  apply bindr_inv in E as (? & [k1|] & ? & E1 & E & ->); [ | discriminate]. apply lift_inv, perform_sl_log with (x := h_ch1 h) in E1; [ | exact C1]. subst.
  destruct (negb _ && _); [discriminate | ].
  apply bindr_inv in E as (? & [k2|] & ? & E1 & E & ->); [ | discriminate]. apply lift_inv, perform_bl_log with (x := h_ch2 h) in E1; [ | exact C2]. subst.
  apply bindr_inv in E as (? & v & ? & E1 & E & ->). apply lift_inv, trouble_inv in E1 as [_ ->]. destruct (eqBytes _ _); [ | discriminate]. injection E as <- _.
  rewrite sub64_mod by assumption. reflexivity.
Qed.
Lemma verify_log w a pw t ls a' d h : verifyPassword_l w a pw t = (ls, Ret (a', ROk)) -> a_dh a = Some d -> contents d = Some h -> t < 2 ^ 64 -> w_elapsed w < 2 ^ 64 ->
  ls = [api_cpp SVerbose 437 [Num t]; lookup (h_hmode h); hashing 97 (h_ch1 h) t; hashing 63 (h_ch2 h) ((t + 2 ^ 64 - w_elapsed w) mod 2 ^ 64); api_cpp SInfo 475 []; api_h 250 []].
Proof.
  intros E D C Lt Le. unfold verifyPassword_l in E. apply noexcept_l_inv in E. apply bindl_inv in E as (? & [] & ? & E1 & E & ->). injection E1 as <-.
  rewrite D in E. apply bindl_inv in E as (? & d0 & ? & E1 & E & ->). apply silent_inv in E1 as [E1 ->]. injection E1 as <-.
  apply bindl_inv in E as (? & [e|k] & ? & E1 & E & ->); [apply silent_inv in E as [E _]; unfold failed in E; discriminate | ].
  apply catch_inv, check_log with (h := h) in E1; try assumption. subst. injection E as <- _. reflexivity.
Qed.

(** ** New headers *)
Lemma setHash_log m p ls p' : p_setHashMode_l m p = (ls, Ret p') -> ls = [lookup m] /\ p_ch1 p' = p_ch1 p /\ p_ch2 p' = p_ch2 p.
Proof. unfold p_setHashMode_l, p_setHashMode. destruct (hash_mode_valid m); intro Q; inversion Q; auto. Qed.
Lemma newChain_mode m i d ls c : newChainHash_l m i d = (ls, Ret c) -> ch_mode c = Some m /\ ch_iters c = i.
Proof. unfold newChainHash_l, newChainHash. destruct (ch_mode_valid m); intro Q; apply (f_equal snd) in Q; cbn [snd] in Q; [ | discriminate]. injection Q as <-. auto. Qed.
Lemma assign_log x ls c : ch_assign_l ch_default x = (ls, Ret c) -> ch_val x = true /\ ch_mode c = ch_mode x /\ ch_iters c = ch_iters x /\ ch_data c = ch_data x /\ (ch_val c = true -> ls = []).
Proof.
  unfold ch_assign_l. intro Q. pose proof (f_equal snd Q) as E. apply (f_equal fst) in Q. cbn [fst snd] in Q, E. rewrite E in Q. unfold ch_assign, ch_getMode, ch_getIters in E.
  destruct x as [m d i v]. destruct v; [ | discriminate]. cbn in E. destruct m as [m|]; [ | discriminate]. cbn in E. destruct (ch_mode_valid m); [ | discriminate]. cbn in E. injection E as <-.
  cbn [ch_mode ch_iters ch_data ch_val ch_revalidate] in *. subst ls. repeat split. apply check_quiet.
Qed.
Lemma newChains_log w ds ls c1 c2 : newChains_l w ds = (ls, Ret (c1, c2)) -> ch_val c1 = true -> ch_val c2 = true ->
  ls = [] /\ s_ch1 ds = ch_mode c1 /\ s_ch2 ds = ch_mode c2 /\ s_n1 ds = Some (ch_iters c1) /\ s_n2 ds = Some (ch_iters c2).
Proof.
  intros E V1 V2. unfold newChains_l in E.
  apply bindl_inv in E as (? & m1 & ? & E1 & E & ->). apply trouble_inv in E1 as [M1 ->].
  apply bindl_inv in E as (? & f1 & ? & E1 & E & ->). apply format_inv in E1 as ->.
  apply bindl_inv in E as (? & m2 & ? & E1 & E & ->). apply trouble_inv in E1 as [M2 ->].
  apply bindl_inv in E as (? & f2 & ? & E1 & E & ->). apply format_inv in E1 as ->.
  apply bindl_inv in E as (? & d1 & ? & E1 & E & ->). apply trouble_inv in E1 as [_ ->].
  apply bindl_inv in E as (? & d2 & ? & E1 & E & ->). apply trouble_inv in E1 as [_ ->].
  apply bindl_inv in E as (? & n1 & ? & E1 & E & ->). apply trouble_inv in E1 as [N1 ->].
  apply bindl_inv in E as (la & q1 & ? & X1 & E & ->). apply bindl_inv in E as (lb & y1 & ? & E1 & E & ->). apply assign_log in E1 as (K1 & Y1 & I1 & _ & L1).
  apply bindl_inv in E as (? & n2 & ? & E1 & E & ->). apply trouble_inv in E1 as [N2 ->].
  apply bindl_inv in E as (lc & q2 & ? & X2 & E & ->). apply bindl_inv in E as (ld & y2 & ? & E1 & E & ->). apply assign_log in E1 as (K2 & Y2 & I2 & _ & L2).
  apply bindl_inv in E as (? & l1 & ? & E1 & E & ->). apply trouble_inv in E1 as [_ ->].
  apply bindl_inv in E as (? & l2 & ? & E1 & E & ->). apply trouble_inv in E1 as [_ ->].
  destruct (_ || _); apply silent_inv in E as [E ->]; [discriminate | ]. injection E as -> ->.
  rewrite (newChain_inv _ _ _ _ _ X1 K1), (newChain_inv _ _ _ _ _ X2 K2), (L1 V1), (L2 V2). destruct (newChain_mode _ _ _ _ _ X1) as [A1 B1], (newChain_mode _ _ _ _ _ X2) as [A2 B2].
  unfold set_get in *. destruct (s_ch1 ds), (s_ch2 ds), (s_n1 ds), (s_n2 ds); try discriminate. repeat split; congruence.
Qed.
Lemma perform_val_s h clk c pw t ls k : performChainHash_sl h clk c pw t = (ls, Ret k) -> ch_val c = true.
Proof. unfold performChainHash_sl, performChainHash_s, ch_getMode. intro Q. apply (f_equal snd) in Q. cbn [snd] in Q. destruct (ch_val c); [reflexivity | discriminate]. Qed.
Lemma perform_val_b h clk c pw t ls k : performChainHash_bl h clk c pw t = (ls, Ret k) -> ch_val c = true.
Proof. unfold performChainHash_bl, performChainHash_b, ch_getMode. intro Q. apply (f_equal snd) in Q. cbn [snd] in Q. destruct (ch_val c); [reflexivity | discriminate]. Qed.
Lemma perform_sl_mode h clk c pw t ls k m : performChainHash_sl h clk c pw t = (ls, Ret (Done k)) -> ch_mode c = Some m -> ls = [mkLine SVerbose Chainhash_modes_cpp 97 [Num m; Num (ch_iters c); Num t]].
Proof.
  intros E M. pose proof (perform_val_s _ _ _ _ _ _ _ E) as V. unfold performChainHash_sl in E. pose proof (f_equal snd E) as Q2. apply (f_equal fst) in E. cbn [fst snd] in E, Q2. subst ls. rewrite Q2. unfold perform_lines, ch_getMode. rewrite V, M. reflexivity.
Qed.
Lemma perform_bl_mode h clk c pw t ls k m : performChainHash_bl h clk c pw t = (ls, Ret (Done k)) -> ch_mode c = Some m -> ls = [mkLine SVerbose Chainhash_modes_cpp 63 [Num m; Num (ch_iters c); Num t]].
Proof.
  intros E M. pose proof (perform_val_b _ _ _ _ _ _ _ E) as V. unfold performChainHash_bl in E. pose proof (f_equal snd E) as Q2. apply (f_equal fst) in E. cbn [fst snd] in E, Q2. subst ls. rewrite Q2. unfold perform_lines, ch_getMode. rewrite V, M. reflexivity.
Qed.
Lemma iters_log H w m pw ds t ls d k h : createHeaderIters_l w m pw ds t = (ls, Ret (inr (d, k))) -> contents d = Some h -> created H w ds pw h -> t < 2 ^ 64 -> w_elapsed w < 2 ^ 64 ->
  ls = [api_cpp SVerbose 36 (settings_shown ds ++ [Num t]); lookup (h_hmode h); lookup (h_hmode h); hashing 97 (h_ch1 h) t; hashing 63 (h_ch2 h) (t - w_elapsed w)] ++ built_log h.
Proof.
  intros E C (_ & Hm & (m1 & n1 & S1 & S2 & S3) & (m2 & n2 & S4 & S5 & S6) & _) Lt Le. unfold createHeaderIters_l in E. apply noexcept_l_inv in E. destruct (negb _); [discriminate | ].
  apply bindr_inv in E as (? & [] & ? & E1 & E & ->). apply lift_inv in E1. injection E1 as <-.
  apply bindr_inv in E as (? & fm & ? & E1 & E & ->). apply lift_inv, trouble_inv in E1 as [_ ->]. destruct (negb _); [discriminate | ].
  apply bindr_inv in E as (? & [c1 c2] & ? & NC & E & ->). apply try_inv in NC.
  apply bindr_inv in E as (? & p & ? & E1 & E & ->). apply lift_inv, trouble_inv in E1 as [P1 ->].
  assert (p_ch1 p = c1 /\ p_ch2 p = c2) as [K1 K2] by (unfold p_setFileDataMode in P1; destruct (file_mode_valid fm); [injection P1 as <-; auto | discriminate]).
  apply bindr_inv in E as (? & hm & ? & E1 & E & ->). apply lift_inv, trouble_inv in E1 as [E1 ->]. rewrite Hm in E1. injection E1 as <-.
  apply bindr_inv in E as (? & p2 & ? & E1 & E & ->). apply lift_inv, setHash_log in E1 as (-> & K3 & K4). rewrite K1 in K3. rewrite K2 in K4.
  apply bindr_inv in E as (? & hf & ? & E1 & E & ->). apply lift_inv, getHash_log in E1 as ->.
  apply bindr_inv in E as (? & [k1|] & ? & X1 & E & ->); [ | discriminate]. apply lift_inv in X1.
  apply bindr_inv in E as (lt & t2 & ? & T & E & ->).
  apply bindr_inv in E as (? & [k2|] & ? & X2 & E & ->); [ | discriminate]. apply lift_inv in X2.
  rewrite K3 in X1. rewrite K4 in X2. destruct (newChains_log _ _ _ _ _ NC (perform_val_s _ _ _ _ _ _ _ X1) (perform_val_b _ _ _ _ _ _ _ X2)) as (-> & A1 & A2 & A3 & A4).
  rewrite S1 in A1. rewrite S4 in A2. symmetry in A1, A2. rewrite S2 in A3. rewrite S5 in A4. injection A3 as A3. injection A4 as A4.
  rewrite (perform_sl_mode _ _ _ _ _ _ _ _ X1 A1), (perform_bl_mode _ _ _ _ _ _ _ _ X2 A2).
  assert (lt = [] /\ t2 = t - w_elapsed w) as [-> ->].
  { destruct (N.eqb_spec t 0) as [->|T0]; [apply ok_inv in T as [<- ->]; auto | ]. unfold w64 in T. change two64 with (2 ^ 64) in T. rewrite (N.mod_small (w_elapsed w)) in T by exact Le.
    destruct (N.leb_spec t (w_elapsed w)); [discriminate | ]. apply ok_inv in T as [<- ->]. split; [reflexivity | ]. apply sub64_le; change two64 with (2 ^ 64); lia. }
  apply bindr_inv in E as (? & p3 & ? & E1 & E & ->). apply lift_inv, trouble_inv in E1 as [_ ->].
  apply bindr_inv in E as (? & sa & ? & E1 & E & ->). apply lift_inv, trouble_inv in E1 as [_ ->].
  apply bindr_inv in E as (? & p4 & ? & E1 & E & ->). apply lift_inv, trouble_inv in E1 as [_ ->].
  apply bindr_inv in E as (? & d' & ? & E1 & E & ->). apply ok_inv in E as [E ->]. injection E as -> _. rewrite (setParts_log _ _ _ _ _ E1 C).
  unfold hashing, iterations. rewrite S3, S6, <- A3, <- A4, app_nil_r. reflexivity.
Qed.

(** ** Block chains *)
Section Fed.
  Variable hf : hashfn.
  Hypothesis Hh : hash_ok hf.
  Lemma fed_data fuel k key salt data c c1 : getLen key = hsize hf -> getLen salt = hsize hf -> getLen data < 2 ^ 63 -> new_chain k hf key salt = Ret c -> addData fuel data c = Ret c1 ->
    Fed hf k (bdata key) (bdata salt) true (bdata data) c1.
  Proof.
    destruct Hh as (Hp & Hl & Hn). intros Lk Ls Ld Ec E1.
    assert (getLen data < 2 ^ 31) as L31.
    { destruct (N.ltb_spec (getLen data) (2 ^ 31)) as [L|L]; [exact L|exfalso]. rewrite addData_cap in E1. apply addData_big in E1; [exact E1|exact L|]. apply lt63. exact Ld. }
    set (fuel' := (fuel + N.to_nat (getLen data) + 2)%nat).
    assert (addData fuel' data c = Ret c1) as E1'.
    { unfold addData in E1 |- *. apply bind_some in E1 as (c0 & -> & E1). cbn [bind]. eapply addData_loop_more; [|exact E1]. subst fuel'. lia. }
    destruct (new_chain_ok hf Hp Hl Hn k key salt Lk Ls) as (c' & Ec' & HF & Hres). rewrite Ec in Ec'. injection Ec' as <-.
    destruct (addChunk_ok hf Hp Hl Hn k (bdata key) (bdata salt) false [] c (ByRef (bdata data)) fuel' Lk Ls) as (c2 & Hc' & HF'); auto.
    { cbn. auto. }
    { cbn [chunk_data]. rewrite length_lenN. subst fuel'. unfold getLen. lia. }
    cbn [addChunk] in Hc'. rewrite addData_cap in E1'. rewrite E1' in Hc'. injection Hc' as <-. exact HF'.
  Qed.
  Lemma fed_stream fuel k key salt s total c c1 : getLen key = hsize hf -> getLen salt = hsize hf -> total < 2 ^ 64 -> new_chain k hf key salt = Ret c -> addStream fuel s total c = Ret c1 ->
    Fed hf k (bdata key) (bdata salt) true (takeN total s) c1.
  Proof.
    destruct Hh as (Hp & Hl & Hn). intros Lk Ls Ld Ec E1. destruct (addStream_len _ _ _ _ _ Ld E1) as [L31 Lt].
    set (fuel' := (fuel + N.to_nat total + 2)%nat).
    assert (addStream fuel' s total c = Ret c1) as E1'.
    { unfold addStream in E1 |- *. apply bind_some in E1 as (c0 & -> & E1). cbn [bind]. eapply addStream_loop_more; [|exact E1]. subst fuel'. lia. }
    destruct (new_chain_ok hf Hp Hl Hn k key salt Lk Ls) as (c' & Ec' & HF & Hres). rewrite Ec in Ec'. injection Ec' as <-.
    assert (lenN (takeN total s) = total) as Lx by (rewrite lenN_takeN; lia).
    destruct (addChunk_ok hf Hp Hl Hn k (bdata key) (bdata salt) false [] c (ByStream (takeN total s) (dropN total s)) fuel' Lk Ls) as (c2 & Hc' & HF'); auto.
    { cbn. auto. }
    { cbn [chunk_data]. rewrite Lx. exact L31. }
    { cbn [chunk_data]. rewrite length_lenN, Lx. subst fuel'. lia. }
    cbn [addChunk] in Hc'. rewrite takeN_dropN, Lx, E1' in Hc'. injection Hc' as <-. exact HF'.
  Qed.
  Lemma fed_room k key salt D c : Fed hf k key salt true D c -> chain_sizes (hsize hf) (lenN D) [Num (getHeight c); Num (getDataSize c)].
  Proof.
    destruct Hh as (Hp & Hl & Hn). intro F. destruct (fed_sizes hf Hp Hl Hn _ _ _ _ _ _ F) as (-> & -> & _). destruct F as (fulls & cur & R & Ed & _).
    pose proof (c_free_Rep hf Hp Hl Hn _ _ _ _ _ _ R) as Fr. destruct R as (Al & _ & (b & _ & HB) & _). pose proof (block_ok_le hf Hp Hl Hn _ _ _ _ HB) as Lc.
    exists (c_free c). rewrite Fr. split; [lia | ]. split.
    - rewrite <- Ed, lenN_app. assert (exists q, lenN (concat fulls) = q * hsize hf) as [q ->].
      { clear - Al. induction Al as [|x l Hx _ [q IH]]; [exists 0; reflexivity | ]. exists (q + 1). cbn [concat]. rewrite lenN_app, IH, Hx. lia. }
      replace (q * hsize hf + lenN cur + (hsize hf - lenN cur)) with ((q + 1) * hsize hf) by lia. apply N.mod_mul. lia.
    - unfold sub64. reflexivity.
  Qed.
End Fed.
