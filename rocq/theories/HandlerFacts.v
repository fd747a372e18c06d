(** Lemmas about the calls on a FileHandler. *)
From Verif Require Import Base BaseFacts BytesModel BytesSpec BytesFacts BytesFacts2 MiscModel CipherModel PwModel ChModel HeaderModel HeaderSpec HeaderFacts HeaderFacts2 HeaderFacts3 HeaderFacts4 HeaderFacts5 HeaderFacts9 FileModel ApiModel ApiSpec ApiFacts3
  FileFacts FileFacts2 RefSpec RefFacts RefFacts2 RefFacts4 ApiFacts12 HandlerModel HandlerSpec.
Open Scope N_scope.

Lemma read_eight c : readBytes 8 8 c = if lenN c <? 8 then None else Some (takeN 8 c, dropN 8 c).
Proof. unfold readBytes. change (Z.to_N (8 mod 4294967296)) with 8. cbn [N.ltb N.compare Pos.compare Pos.compare_cont]. reflexivity. Qed.
Lemma long_eight c cap : 8 <= lenN c -> toLong (mkBytes (takeN 8 c) cap) = Ret (be_val (takeN 8 c)).
Proof. intros L. rewrite toLong_val; [reflexivity|]. unfold getLen. cbn [bdata]. rewrite lenN_takeN. lia. Qed.
Lemma updated_spec c h : fh_updated c h =
  (mkFH (fh_path h) (if lenN c =? 0 then 0 else if head_read c then head_field c else fh_hsize h) (lenN c) (lenN c =? 0),
   match judged c with FThrown e => Throw e | _ => Ret tt end).
Proof.
  unfold fh_updated, judged, head_read. cbv zeta. rewrite read_eight. destruct (N.eqb_spec (lenN c) 0) as [Z|Z].
  { destruct (N.ltb_spec (lenN c) 8); [|lia]. rewrite Z. reflexivity. }
  destruct (N.ltb_spec (lenN c) 8) as [L|L].
  { destruct (N.leb_spec 16 (lenN c)); [lia|]. reflexivity. }
  rewrite long_eight by exact L. fold (size_field c). destruct (N.eqb_spec (size_field c) (lenN c)) as [E|E]; cbn [negb]; [|rewrite andb_false_r; reflexivity].
  rewrite read_eight, lenN_dropN. destruct (N.ltb_spec (lenN c - 8) 8); destruct (N.ltb_spec (lenN c) 16); destruct (N.leb_spec 16 (lenN c)); try lia; cbn [andb]; [reflexivity|].
  rewrite long_eight by (rewrite lenN_dropN; lia). fold (head_field c). unfold fh_check. cbn [fh_fsize fh_hsize]. change MIN_DATAHEADER_LEN with 104.
  f_equal. destruct (N.ltb_spec (lenN c) (head_field c)); [reflexivity|]. rewrite (proj2 (N.eqb_neq _ _) Z), andb_false_r. cbn [negb]. rewrite andb_true_r.
  destruct (head_field c <? 104); reflexivity.
Qed.
(** the constructor is update on a new object *)
Lemma update_members p c h : fh_path h = p -> fh_update p c = (_ <- snd (fh_updated c h) ;; Ret (fst (fh_updated c h))).
Proof.
  intros <-. unfold fh_update, fh_updated, fh_check. cbv zeta. destruct (readBytes 8 8 c) as [[b s]|].
  - destruct (toLong (mkBytes b 8)) as [n| | |]; cbn [bind snd fst]; try reflexivity. destruct (n =? lenN c); cbn [negb bind snd fst]; [|reflexivity].
    destruct (readBytes 8 8 s) as [[b' s']|]; cbn [bind snd fst]; [|reflexivity]. destruct (toLong (mkBytes b' 8)); cbn [bind snd fst fh_fsize fh_hsize]; try reflexivity.
    destruct (_ <? _); cbn [bind]; [reflexivity|]. destruct (_ && _); reflexivity.
  - destruct (N.eqb_spec (lenN c) 0) as [Z|Z]; cbn [bind snd fst fh_fsize fh_hsize]; [|reflexivity]. rewrite Z. reflexivity.
Qed.
Lemma judged_done c : lenN c <> 0 -> judged c = FDone -> head_read c = true /\ 104 <= head_field c <= lenN c.
Proof.
  intros Z. unfold judged, head_read. destruct (N.eqb_spec (lenN c) 0); [contradiction|]. destruct (N.ltb_spec (lenN c) 8); [discriminate|].
  destruct (size_field c =? lenN c); cbn [negb]; [|discriminate]. destruct (N.ltb_spec (lenN c) 16); [discriminate|]. destruct (N.ltb_spec (lenN c) (head_field c)); [discriminate|].
  destruct (N.ltb_spec (head_field c) 104); [discriminate|]. intros _. destruct (N.leb_spec 16 (lenN c)); [|lia]. split; [reflexivity|lia].
Qed.
Lemma judged_cases c : judged c = FDone \/ judged c = FThrown LengthError \/ judged c = FThrown LogicError.
Proof. unfold judged. repeat (destruct (_ : bool); auto). Qed.
Lemma update_judged p c h : fh_update p c = Ret h -> judged c = FDone /\ h = mkFH p (if lenN c =? 0 then 0 else head_field c) (lenN c) (lenN c =? 0).
Proof.
  rewrite (update_members p c (mkFH p 0 0 false) eq_refl). rewrite updated_spec. cbn [fst snd fh_path fh_hsize]. intros E.
  destruct (judged_cases c) as [J|[J|J]]; rewrite J in E; try discriminate E. split; [exact J|]. injection E as <-. f_equal.
  destruct (N.eqb_spec (lenN c) 0) as [Z|Z]; [reflexivity|]. rewrite (proj1 (judged_done c Z J)). reflexivity.
Qed.

Lemma stream_reading w f p : stream_of w f p = reading w f p.
Proof. unfold stream_of, reading, found. destruct (w_read w p), (f (w_loc w p)); reflexivity. Qed.
Lemma opening_valid w f p : enc_path p -> isValidPath w f p true =
  if w_stat w p then match f (w_loc w p) with None => dfail ERR_FILE_NOT_FOUND | Some _ => if w_read w p then dret tt else dfail ERR_FILE_NOT_OPEN end else Crash Terminate.
Proof.
  intros E. destruct (valid_path_cases w f p true) as [[-> _]|[(_ & X & _)|[(_ & S & ->)|(_ & S & ->)]]].
  - apply enc_path_nonempty in E. discriminate.
  - contradiction.
  - rewrite S. reflexivity.
  - rewrite S. reflexivity.
Qed.
(** the members after any calls *)
Definition is_handler (p c0 : bytes) (tr : list fh_entry) (h : handler) : Prop := h = mkFH p (head_size p c0 tr) (file_size p c0 tr) (was_empty p c0 tr).
Lemma write_call w f p hs n em data : enc_path p ->
  fh_save w data p (fh_getWriteStream w f (mkFH p hs n em)) =
  match opening_says w f p with
  | Gives _ => (upd (upd f (w_loc w p) (Some [])) (w_loc w p) (Some (takeN (w_room w) data)), Ret (mkFH p 0 0 em, FDone))
  | Rejects e => (f, Ret (mkFH p 0 0 em, FErr e))
  | Dies c => (f, Crash c)
  end.
Proof.
  intros E. unfold fh_getWriteStream. cbn [fh_path fh_empty]. rewrite (opening_valid w f p E). unfold opening_says. destruct (w_stat w p); [|reflexivity]. cbn [negb].
  destruct (f (w_loc w p)); [|reflexivity]. destruct (w_read w p); cbn [andb]; [|reflexivity]. unfold dret at 1. destruct (w_write w p); reflexivity.
Qed.
Lemma upd_upd f l a b k : upd (upd f l a) l b k = upd f l b k.
Proof. unfold upd. destruct (k =? l); reflexivity. Qed.
Lemma first_bytes n (c : bytes) : readBytes n (Z.of_N n) c = if n mod 2 ^ 32 <=? lenN c then Some (takeN (n mod 2 ^ 32) c, dropN (n mod 2 ^ 32) c) else None.
Proof.
  unfold readBytes. assert (Z.to_N (Z.of_N n mod 4294967296) = n mod 2 ^ 32) as ->.
  { change 4294967296%Z with (Z.of_N (2 ^ 32)). rewrite <- N2Z.inj_mod, N2Z.id. reflexivity. }
  assert (n mod 2 ^ 32 <= n) as L by (apply N.mod_le; discriminate).
  destruct (N.ltb_spec n (n mod 2 ^ 32)); [lia|]. destruct (N.ltb_spec (lenN c) (n mod 2 ^ 32)), (N.leb_spec (n mod 2 ^ 32) (lenN c)); try lia; reflexivity.
Qed.
Lemma reading_fits w f p : fs_ok f -> lenN (reading w f p) < two64.
Proof.
  intros F. unfold reading, found. destruct (w_read w p); [|reflexivity]. destruct (f (w_loc w p)) as [c|] eqn:E; [|reflexivity]. exact (lt63_64 _ (F _ _ E)).
Qed.

Lemma get_header bd H w f p hs n em : world_ok bd H w -> fs_ok f -> fh_getDataHeader w f 0 (mkFH p hs n em) =
  match read_file bd (reading w f p) with Gives (h, _) => dret (decoded (lenN (reading w f p)) h) | Rejects e => dfail e | Dies c => Crash c end.
Proof.
  intros (Wb & _ & R & _) F. unfold fh_getDataHeader. cbn [fh_path]. rewrite stream_reading, Wb. rewrite (reader_refines bd (w_rnd w 0%nat) _ (R 0%nat) (reading_fits w f p F)).
  destruct (read_file bd (reading w f p)) as [[h r]|e|k]; reflexivity.
Qed.
Lemma is_head bd H w f p hs n em m : world_ok bd H w -> fs_ok f -> fh_isDataHeader w f 0 m (mkFH p hs n em) =
  match read_file bd (reading w f p) with Gives _ => if m =? 1 then dret tt else dfail ERR_FILEMODE_INVALID | Rejects e => dfail e | Dies c => Crash c end.
Proof.
  intros W F. unfold fh_isDataHeader. rewrite (get_header bd H) by assumption. destruct (read_file bd (reading w f p)) as [[h r]|e|k] eqn:R; try reflexivity.
  pose proof (reading_fits w f p F) as L. destruct (read_holds _ _ _ _ L R) as [Hd _]. unfold dret at 1. cbn [dbind bind]. rewrite (holds_parts _ _ Hd). cbn [bind].
  change (p_getFileDataMode (d_parts (decoded (lenN (reading w f p)) h))) with (@Ret N 1). unfold lift, dret, dfail. cbn [bind dbind]. rewrite (N.eqb_sym m 1). destruct (1 =? m); reflexivity.
Qed.
Lemma answer bd H p c0 tr w f o h : enc_path p -> world_ok bd H w -> fs_ok f -> is_handler p c0 tr h ->
  meets (snd (fh_call w h f o)) (should bd p c0 tr w f o) /\ (forall l, fst (fh_call w h f o) l = leaves p c0 tr w f o l) /\
  (forall h' r, snd (fh_call w h f o) = Ret (h', r) -> is_handler p c0 (mkFE w f o r (fst (fh_call w h f o)) :: tr) h').
Proof.
  unfold is_handler. intros P W F ->.
  assert (forall o r f', (forall d, o <> FSave d) -> (forall d, o <> FSaveIfEmpty d) -> o <> FUpdate ->
    mkFH p (head_size p c0 (mkFE w f o r f' :: tr)) (file_size p c0 (mkFE w f o r f' :: tr)) (was_empty p c0 (mkFE w f o r f' :: tr)) =
    mkFH p (head_size p c0 tr) (file_size p c0 tr) (was_empty p c0 tr)) as Same.
  { intros o' r f' A B C. destruct o'; try reflexivity; [congruence|exfalso; eapply A; reflexivity|exfalso; eapply B; reflexivity]. }
  destruct o as [ | | | | | | | | |n| |m|data|data]; cbn [fh_call should leaves meets].
  - rewrite updated_spec. cbn [fh_path fh_hsize]. cbv beta iota. cbn [fst snd]. rewrite stream_reading.
    assert (forall r f', mkFH p (if lenN (reading w f p) =? 0 then 0 else if head_read (reading w f p) then head_field (reading w f p) else head_size p c0 tr) (lenN (reading w f p)) (lenN (reading w f p) =? 0) =
      mkFH p (head_size p c0 (mkFE w f FUpdate r f' :: tr)) (file_size p c0 (mkFE w f FUpdate r f' :: tr)) (was_empty p c0 (mkFE w f FUpdate r f' :: tr))) as E by reflexivity.
    destruct (judged_cases (reading w f p)) as [-> |[-> | ->]]; cbn [caught bind]; (split; [eexists; reflexivity|split; [reflexivity|intros h' r [= <- <-]; apply E]]).
  - split; [eexists; reflexivity|split; [reflexivity|intros h' r [= <- <-]; symmetry; apply Same; discriminate]].
  - split; [eexists; reflexivity|split; [reflexivity|intros h' r [= <- <-]; symmetry; apply Same; discriminate]].
  - split; [eexists; reflexivity|split; [reflexivity|intros h' r [= <- <-]; symmetry; apply Same; discriminate]].
  - split; [eexists; reflexivity|split; [reflexivity|intros h' r [= <- <-]; symmetry; apply Same; discriminate]].
  - split; [eexists; reflexivity|split; [reflexivity|intros h' r [= <- <-]; symmetry; apply Same; discriminate]].
  - cbn [fh_path]. rewrite stream_reading. split; [eexists; reflexivity|split; [reflexivity|intros h' r [= <- <-]; symmetry; apply Same; discriminate]].
  - unfold fh_dataStream. cbn [fh_path fh_hsize]. rewrite stream_reading. split; [eexists; reflexivity|split; [reflexivity|intros h' r [= <- <-]; symmetry; apply Same; discriminate]].
  - unfold fh_getAllBytes, found. cbn [fh_path].
    destruct (f (w_loc w p)) as [c|]; [rewrite first_mod|]; destruct (w_read w p); cbn [caught bind bdata snd fst];
      (split; [eexists; reflexivity|split; [reflexivity|intros h' r [= <- <-]; symmetry; apply Same; discriminate]]).
  - unfold fh_getFirstBytes, found. cbn [fh_path].
    destruct (w_read w p), (f (w_loc w p)) as [c|]; try (rewrite first_bytes; destruct (_ <=? _)); cbn [caught bind bdata snd fst];
      (split; [eexists; reflexivity|split; [reflexivity|intros h' r [= <- <-]; symmetry; apply Same; discriminate]]).
  - rewrite (get_header bd H) by assumption. destruct (read_file bd (reading w f p)) as [[h r]|e|k] eqn:R; unfold dret, dfail; cbn [caught told bind snd fst].
    + split; [|split; [reflexivity|intros h' r' [= <- <-]; symmetry; apply Same; discriminate]]. eexists _, _. split; [reflexivity|].
      pose proof (reading_fits w f p F) as L. apply decoded_view; [|exact L]. apply (holds_ok (decoded (lenN (reading w f p)) h)). apply (read_holds bd _ h r L R).
    + split; [eexists; reflexivity|split; [reflexivity|intros h' r' [= <- <-]; symmetry; apply Same; discriminate]].
    + split; [reflexivity|split; [reflexivity|discriminate]].
  - rewrite (is_head bd H) by assumption. destruct (read_file bd (reading w f p)) as [x|e|k] eqn:R; unfold dret, dfail.
    + destruct (m =? 1); cbn [caught told bind snd fst]; (split; [eexists; reflexivity|split; [reflexivity|intros h' r' [= <- <-]; symmetry; apply Same; discriminate]]).
    + cbn [caught told bind snd fst]. split; [eexists; reflexivity|split; [reflexivity|intros h' r' [= <- <-]; symmetry; apply Same; discriminate]].
    + split; [reflexivity|split; [reflexivity|discriminate]].
  - cbn [fh_path]. rewrite (write_call w f p _ _ _ data P). cbn [asks]. destruct (opening_says w f p) as [[]|e|k]; cbn [fst snd outcome_of meets].
    + split; [eexists; reflexivity|split; [intros l; apply upd_upd|intros h' r [= <- <-]; reflexivity]].
    + split; [eexists; reflexivity|split; [reflexivity|intros h' r [= <- <-]; reflexivity]].
    + split; [reflexivity|split; [reflexivity|discriminate]].
  - cbn [fh_path asks]. unfold fh_getWriteStreamIfEmpty. cbn [fh_empty]. destruct (was_empty p c0 tr) eqn:Em.
    + rewrite (write_call w f p _ _ _ data P). destruct (opening_says w f p) as [[]|e|k]; cbn [fst snd outcome_of meets].
      * split; [eexists; reflexivity|split; [intros l; apply upd_upd|intros h' r [= <- <-]]].
        unfold file_size, was_empty. cbn [head_size forgot seen fe_op asks]. rewrite Em. fold (was_empty p c0 tr). rewrite Em. reflexivity.
      * split; [eexists; reflexivity|split; [reflexivity|intros h' r [= <- <-]]].
        unfold file_size, was_empty. cbn [head_size forgot seen fe_op asks]. rewrite Em. fold (was_empty p c0 tr). rewrite Em. reflexivity.
      * split; [reflexivity|split; [reflexivity|discriminate]].
    + cbn [fh_save caught dfail told bind fst snd meets]. split; [eexists; reflexivity|split; [reflexivity|intros h' r [= <- <-]]].
      unfold file_size, was_empty. cbn [head_size forgot seen fe_op asks]. rewrite Em. fold (was_empty p c0 tr). rewrite Em. reflexivity.
Qed.
Lemma handler_members bd H p tr c0 h : fh_history bd H p tr c0 h -> enc_path p /\ lenN c0 < 2 ^ 63 /\ is_handler p c0 tr h.
Proof.
  induction 1 as [w f c h W F Fc E|tr c h w f o f' h' r Hh (P & L & I) W F E].
  - destruct (proj1 (open_iff w f p F) (ex_intro _ h E)) as (P & S & R & _). split; [exact P|]. split; [exact (F _ _ Fc)|].
    rewrite (new_open w f p c) in E by (unfold openable; auto). apply update_judged in E as [_ ->]. reflexivity.
  - split; [exact P|]. split; [exact L|]. destruct (answer bd H p c tr w f o h P W F I) as (_ & _ & A). rewrite E in A. apply A. reflexivity.
Qed.
(** what every call answers and does *)
Lemma handler_answers bd H p tr c0 h w f o : fh_history bd H p tr c0 h -> world_ok bd H w -> fs_ok f ->
  meets (snd (fh_call w h f o)) (should bd p c0 tr w f o) /\ (forall l, fst (fh_call w h f o) l = leaves p c0 tr w f o l).
Proof.
  intros Hh W F. destruct (handler_members _ _ _ _ _ _ Hh) as (P & _ & I). destruct (answer bd H p c0 tr w f o h P W F I) as (A & B & _). split; assumption.
Qed.
Lemma call_num bd H p tr c0 h w f : fh_history bd H p tr c0 h ->
  fh_call w h f FHeaderSize = (f, Ret (h, FNum (head_size p c0 tr))) /\ fh_call w h f FFileSize = (f, Ret (h, FNum (file_size p c0 tr))) /\
  fh_call w h f FDataSize = (f, Ret (h, FNum ((file_size p c0 tr + 2 ^ 64 - head_size p c0 tr) mod 2 ^ 64))) /\
  fh_call w h f FDataStream = (f, Ret (h, FBytes (dropN (head_size p c0 tr) (reading w f p)))).
Proof.
  intros Hh. destruct (handler_members _ _ _ _ _ _ Hh) as (_ & _ & E). unfold is_handler in E. subst h. repeat split. cbn [fh_call]. unfold fh_dataStream. rewrite stream_reading. reflexivity.
Qed.
Lemma seen_judged bd H p tr c0 h : fh_history bd H p tr c0 h -> looked_well tr = true -> judged (seen p c0 tr) = FDone /\ lenN (seen p c0 tr) < 2 ^ 63 /\
  (forgot p c0 tr = false -> head_size p c0 tr = if lenN (seen p c0 tr) =? 0 then 0 else head_field (seen p c0 tr)).
Proof.
  induction 1 as [w f c h W F Fc E|tr c h w f o f' h' r Hh IH W F E]; intros G.
  - destruct (proj1 (open_iff w f p F) (ex_intro _ h E)) as (P & S & R & _). rewrite (new_open w f p c) in E by (unfold openable; auto). apply update_judged in E as [J _].
    split; [exact J|]. split; [exact (F _ _ Fc)|]. reflexivity.
  - destruct (handler_members _ _ _ _ _ _ Hh) as (P & _ & I). destruct (answer bd H p c tr w f o h P W F I) as (M & _ & _). rewrite E in M. cbn [snd] in M.
    destruct o; cbn [looked_well seen forgot head_size fe_op fe_reply fe_world fe_before] in G |- *.
    1:{ cbn [should meets] in M. destruct M as [x [= -> ->]]. destruct (judged_cases (reading w f p)) as [J|[J|J]]; rewrite J in G; try discriminate G.
        split; [exact J|]. split; [unfold reading, found; destruct (w_read w p); [|reflexivity]; destruct (f (w_loc w p)) as [x'|] eqn:Q; [exact (F _ _ Q)|reflexivity]|].
        intros _. destruct (N.eqb_spec (lenN (reading w f p)) 0) as [Z|Z]; [reflexivity|]. rewrite (proj1 (judged_done _ Z J)). reflexivity. }
    all: destruct (IH G) as (A & B & C); split; [exact A|split; [exact B|]]; intros K; try (cbn [asks orb] in *; exact (C K)).
    + discriminate K.
    + cbn [asks] in *. destruct (was_empty p c tr) eqn:Em; [discriminate K|]. exact (C K).
Qed.
Lemma good_sizes bd H p tr c0 h w f : fh_history bd H p tr c0 h -> looked_well tr = true -> forgot p c0 tr = false ->
  exists n, n <= lenN (seen p c0 tr) /\ fh_call w h f FHeaderSize = (f, Ret (h, FNum n)) /\ fh_call w h f FFileSize = (f, Ret (h, FNum (lenN (seen p c0 tr)))) /\
    fh_call w h f FDataSize = (f, Ret (h, FNum (lenN (seen p c0 tr) - n))) /\
    (reading w f p = seen p c0 tr -> exists b, fh_call w h f FDataStream = (f, Ret (h, FBytes b)) /\ lenN b = lenN (seen p c0 tr) - n).
Proof.
  intros Hh G K. destruct (seen_judged _ _ _ _ _ _ Hh G) as (J & L & E). specialize (E K). destruct (call_num _ _ _ _ _ _ w f Hh) as (A & B & C & D).
  exists (head_size p c0 tr). assert (head_size p c0 tr <= lenN (seen p c0 tr)) as Le.
  { rewrite E. destruct (N.eqb_spec (lenN (seen p c0 tr)) 0) as [Z|Z]; [lia|]. apply (judged_done _ Z J). }
  unfold file_size in *. rewrite K in *. split; [exact Le|]. split; [exact A|]. split; [exact B|]. split.
  - rewrite C. do 4 f_equal. change (2 ^ 63) with 9223372036854775808 in L. change (2 ^ 64) with 18446744073709551616.
    replace (lenN (seen p c0 tr) + 18446744073709551616 - head_size p c0 tr) with (lenN (seen p c0 tr) - head_size p c0 tr + 1 * 18446744073709551616) by lia.
    rewrite N.mod_add by discriminate. apply N.mod_small. lia.
  - intros R. exists (dropN (head_size p c0 tr) (seen p c0 tr)). rewrite D, R. split; [reflexivity|]. apply lenN_dropN.
Qed.
Lemma again_and_again bd H p tr c0 h w f ds last : fh_history bd H p tr c0 h -> seen p c0 tr = [] -> can_write w p -> f (w_loc w p) <> None ->
  exists h' f', fh_calls w h f (map FSaveIfEmpty (ds ++ [last])) = Some (h', f', map (fun _ => FDone) (ds ++ [last])) /\ f' (w_loc w p) = Some (takeN (w_room w) last).
Proof.
  intros Hh S (A & B & C) N. destruct (handler_members _ _ _ _ _ _ Hh) as (P & _ & E). unfold is_handler, was_empty in E. rewrite S in E. change (lenN (@nil byte) =? 0) with true in E.
  clear Hh S. revert h f E N. generalize (head_size p c0 tr), (file_size p c0 tr). induction ds as [|d ds IH]; intros hs n h f E N; subst h.
  - cbn [map app fh_calls fh_call]. unfold fh_getWriteStreamIfEmpty. cbn [fh_empty fh_path]. rewrite (write_call w f p _ _ _ last P). unfold opening_says. rewrite A, B, C. cbn [negb andb].
    destruct (f (w_loc w p)); [|contradiction]. eexists _, _. split; [reflexivity|]. rewrite upd_upd. unfold upd. rewrite N.eqb_refl. reflexivity.
  - cbn [map app fh_calls fh_call]. unfold fh_getWriteStreamIfEmpty at 1. cbn [fh_empty fh_path]. rewrite (write_call w f p _ _ _ d P). unfold opening_says. rewrite A, B, C. cbn [negb andb].
    destruct (f (w_loc w p)); [|contradiction]. edestruct IH as (h' & f' & X & Y); [reflexivity| |].
    2:{ rewrite X. eexists _, _. split; [reflexivity|exact Y]. }
    rewrite upd_upd. unfold upd. rewrite N.eqb_refl. discriminate.
Qed.
(** after a save the handler knows nothing of the file until update *)
Lemma after_save bd H p tr c0 h w f data : fh_history bd H p tr c0 h -> can_write w p -> f (w_loc w p) <> None -> lenN data <= w_room w ->
  exists h' f', fh_calls w h f [FSave data; FHeaderSize; FFileSize; FDataSize; FIsEmpty; FDataStream] =
    Some (h', f', [FDone; FNum 0; FNum 0; FNum 0; FBool (was_empty p c0 tr); FBytes data]) /\ f' (w_loc w p) = Some data.
Proof.
  intros Hh (A & B & C) N R. destruct (handler_members _ _ _ _ _ _ Hh) as (P & _ & E). unfold is_handler in E. subst h.
  cbn [fh_calls fh_call]. cbn [fh_path]. rewrite (write_call w f p _ _ _ data P). unfold opening_says. rewrite A, B, C. cbn [negb andb].
  destruct (f (w_loc w p)); [|contradiction]. cbn [fh_calls fh_call]. unfold fh_dataStream, stream_of. cbn [fh_path fh_hsize fh_fsize fh_empty]. rewrite B.
  rewrite takeN_all by exact R. assert (forall g, upd g (w_loc w p) (Some data) (w_loc w p) = Some data) as U by (intros; unfold upd; rewrite N.eqb_refl; reflexivity).
  rewrite U. eexists _, _. split; [reflexivity|apply U].
Qed.
