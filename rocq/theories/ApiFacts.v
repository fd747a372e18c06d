(** Facts about the cipher as the API uses it: one chain, one piece of data. *)
From Verif Require Import Base BaseFacts BytesModel BytesFacts CipherModel CipherSpec CipherFacts CipherFacts2.
Ltac Zify.zify_post_hook ::= Z.div_mod_to_equations.

Lemma bind_some {A B} (m : outcome A) (k : A -> outcome B) b : bind m k = Ret b -> exists a, m = Ret a /\ k a = Ret b.
Proof. destruct m; cbn; try discriminate. eauto. Qed.

(** more fuel changes nothing *)
Lemma addData_loop_more f1 : forall f2 data written c c', (f1 <= f2)%nat -> addData_loop f1 data written c = Ret c' -> addData_loop f2 data written c = Ret c'.
Proof.
  induction f1 as [|f1 IH]; intros f2 data written c c' L; [discriminate|]. destruct f2 as [|f2]; [lia|]. cbn [addData_loop].
  intros E. apply bind_some in E as (part & -> & E). cbn [bind]. destruct (c_cur c) as [b|]; [|discriminate].
  apply bind_some in E as (b' & -> & E). cbn [bind]. destruct (_ <? getLen data); [|exact E].
  apply bind_some in E as ([bb c2] & -> & E). cbn [bind]. apply IH; [lia|exact E].
Qed.
Lemma addStream_loop_more f1 : forall f2 s total written c c', (f1 <= f2)%nat -> addStream_loop f1 s total written c = Ret c' -> addStream_loop f2 s total written c = Ret c'.
Proof.
  induction f1 as [|f1 IH]; intros f2 s total written c c' L; [discriminate|]. destruct f2 as [|f2]; [lia|]. cbn [addStream_loop].
  intros E. apply bind_some in E as (part & -> & E). cbn [bind]. destruct (readExact (bmax part) s) as [[got s']|]; [|discriminate].
  cbv zeta in *. destruct (c_cur c) as [b|]; [|discriminate].
  apply bind_some in E as (b' & -> & E). cbn [bind]. destruct (_ <? total); [|exact E].
  apply bind_some in E as ([bb c2] & -> & E). cbn [bind]. apply IH; [lia|exact E].
Qed.
(** the capacity of the data does not matter *)
Lemma addData_loop_cap fuel : forall l m1 m2 written c, addData_loop fuel (mkBytes l m1) written c = addData_loop fuel (mkBytes l m2) written c.
Proof.
  induction fuel as [|fuel IH]; intros l m1 m2 written c; [reflexivity|]. cbn [addData_loop]. unfold copySubBytes, getLen. cbn [bdata].
  destruct (_ <? written); [reflexivity|]. destruct (lenN l <? _); [reflexivity|]. cbn [bind]. destruct (c_cur c) as [b|]; [|reflexivity].
  destruct (blk_addData _ _ b); cbn [bind]; try reflexivity. destruct (_ <? lenN l); [|reflexivity].
  destruct (addBlock _) as [[bb c2]| | |]; cbn [bind]; try reflexivity. apply IH.
Qed.
Lemma addData_cap fuel d c : addData fuel d c = addData fuel (fromArray (bdata d)) c.
Proof.
  unfold addData, getLen, fromArray. cbn [bdata]. destruct (addData_start c (lenN (bdata d))); cbn [bind]; try reflexivity.
  destruct d as [l m]. apply addData_loop_cap.
Qed.
(** a stream that is too short never yields a result *)
Lemma addStream_loop_len fuel : forall s total written c c', total < 2147483648 -> written <= total ->
  addStream_loop fuel s total written c = Ret c' -> total - written <= lenN s.
Proof.
  induction fuel as [|fuel IH]; intros s total written c c' Ht Hw; cbn [addStream_loop]; [discriminate|].
  unfold piece. rewrite sub64_le by (unfold two64; lia). rewrite to_int32_small by lia.
  set (m := N.min (c_free c) (total - written)).
  replace (Z.min (Z.of_N (c_free c)) (Z.of_N (total - written))) with (Z.of_N m) by (subst m; lia).
  unfold newBytes. destruct (Z.ltb_spec (Z.of_N m) 0); [lia|]. cbn [bind bmax]. rewrite N2Z.id.
  unfold readExact. destruct (N.leb_spec m (lenN s)); [|discriminate].
  destruct (c_cur c) as [b|]; [|discriminate]. intros E. apply bind_some in E as (b' & _ & E).
  unfold getLen in E. cbn [bdata] in E. rewrite lenN_takeN, N.min_l in E by lia.
  unfold w64 in E. rewrite N.mod_small in E by (unfold two64; subst m; lia).
  destruct (N.ltb_spec (written + m) total); [|subst m; lia].
  apply bind_some in E as ([bb c2] & _ & E). apply IH in E; [|assumption|subst m; lia]. rewrite lenN_dropN in E. subst m. lia.
Qed.
Lemma addStream_len fuel s total c c' : total < two64 -> addStream fuel s total c = Ret c' -> total < 2147483648 /\ total <= lenN s.
Proof.
  intros Ht E. destruct (N.ltb_spec total 2147483648) as [L|L].
  - split; [exact L|]. unfold addStream in E. apply bind_some in E as (c1 & _ & E). apply addStream_loop_len in E; lia.
  - exfalso. exact (addStream_big fuel s total c c' L Ht E).
Qed.

Definition spec_k (k : kind) := match k with Enc => spec_enc | Dec => spec_dec end.
Section One.
  Variable h : hashfn.
  Hypothesis Hh : hash_ok h.
  Definition via_data (fuel : nat) (k : kind) (key salt data : Bytes) : outcome Bytes :=
    c <- new_chain k h key salt ;; c <- addData fuel data c ;; '(res, _) <- getResult c ;; Ret res.
  Definition via_stream (fuel : nat) (k : kind) (key salt : Bytes) (s : bytes) (total : N) : outcome Bytes :=
    c <- new_chain k h key salt ;; c <- addStream fuel s total c ;; '(res, _) <- getResult c ;; Ret res.
  Lemma chunk_run fuel k key salt x : getLen key = hsize h -> getLen salt = hsize h -> lenN (chunk_data x) < 2147483648 -> (length (chunk_data x) + 2 <= fuel)%nat ->
    exists r, (c <- new_chain k h key salt ;; c <- addChunk fuel x c ;; '(res, _) <- getResult c ;; Ret res) = Ret r /\
      bdata r = spec_k k (hfun h) (hsize h) (bdata key) (bdata salt) (chunk_data x).
  Proof.
    destruct Hh as (Hp & Hl & Hn). intros Lk Ls Hx Hf.
    destruct (new_chain_ok h Hp Hl Hn k key salt Lk Ls) as (c & -> & HF & Hres). cbn [bind].
    destruct (addChunk_ok h Hp Hl Hn k (bdata key) (bdata salt) false [] c x fuel Lk Ls) as (c' & Hc' & HF'); auto.
    { cbn. auto. }
    rewrite Hc'. cbn [bind]. destruct (getResult_ok h Hp Hl Hn _ _ _ _ _ HF') as (r & c2 & -> & Hr). cbn [bind].
    exists r. split; [reflexivity|]. rewrite Hr. cbn [app]. rewrite (crypt_spec h Hp Hl Hn). destruct k; reflexivity.
  Qed.
  Lemma via_data_ok fuel k key salt data : getLen key = hsize h -> getLen salt = hsize h -> getLen data < 2 ^ 31 -> (N.to_nat (getLen data) + 2 <= fuel)%nat ->
    exists r, via_data fuel k key salt data = Ret r /\ bdata r = spec_k k (hfun h) (hsize h) (bdata key) (bdata salt) (bdata data).
  Proof.
    intros Lk Ls Ld Hf. change (2 ^ 31) with 2147483648 in Ld. unfold getLen in Ld, Hf.
    destruct (chunk_run fuel k key salt (ByRef (bdata data)) Lk Ls Ld) as (r & E & Hr).
    { cbn [chunk_data]. rewrite length_lenN. exact Hf. }
    exists r. split; [|exact Hr]. rewrite <- E. unfold via_data. cbn [addChunk].
    destruct (new_chain k h key salt); cbn [bind]; try reflexivity. rewrite addData_cap. reflexivity.
  Qed.
  Lemma via_data_inv fuel k key salt data r : getLen data < 2 ^ 63 -> via_data fuel k key salt data = Ret r ->
    getLen key = hsize h /\ getLen salt = hsize h /\ getLen data < 2 ^ 31 /\ bdata r = spec_k k (hfun h) (hsize h) (bdata key) (bdata salt) (bdata data).
  Proof.
    intros Ld E. unfold via_data in E. apply bind_some in E as (c & Ec & E). apply bind_some in E as (c1 & E1 & E).
    assert (getLen key = hsize h /\ getLen salt = hsize h) as [Lk Ls].
    { destruct (N.eqb_spec (getLen key) (hsize h)) as [Lk|Lk], (N.eqb_spec (getLen salt) (hsize h)) as [Ls|Ls]; try (split; assumption);
      exfalso; rewrite (proj2 (new_chain_iff h k key salt)) in Ec by tauto; discriminate. }
    assert (getLen data < 2 ^ 31) as L31.
    { destruct (N.ltb_spec (getLen data) (2 ^ 31)) as [L|L]; [exact L|exfalso]. rewrite addData_cap in E1.
      apply addData_big in E1; [exact E1|exact L|]. apply lt63. exact Ld. }
    repeat match goal with |- _ /\ _ => split end. all: try assumption.
    set (fuel' := (fuel + N.to_nat (getLen data) + 2)%nat).
    assert (addData fuel' data c = Ret c1) as E1'.
    { unfold addData in E1 |- *. apply bind_some in E1 as (c0 & -> & E1). cbn [bind]. eapply addData_loop_more; [|exact E1]. subst fuel'. lia. }
    destruct (via_data_ok fuel' k key salt data Lk Ls L31 ltac:(subst fuel'; lia)) as (r' & E' & Hr'). unfold via_data in E'.
    rewrite Ec in E'. cbn [bind] in E'. rewrite E1' in E'. cbn [bind] in E'. rewrite E in E'. injection E' as <-. exact Hr'.
  Qed.
  Lemma via_stream_ok fuel k key salt s total : getLen key = hsize h -> getLen salt = hsize h -> total <= lenN s -> total < 2 ^ 31 -> (N.to_nat total + 2 <= fuel)%nat ->
    exists r, via_stream fuel k key salt s total = Ret r /\ bdata r = spec_k k (hfun h) (hsize h) (bdata key) (bdata salt) (takeN total s).
  Proof.
    intros Lk Ls Lt L31 Hf. change (2 ^ 31) with 2147483648 in L31.
    assert (lenN (takeN total s) = total) as Lx by (rewrite lenN_takeN; lia).
    destruct (chunk_run fuel k key salt (ByStream (takeN total s) (dropN total s)) Lk Ls) as (r & E & Hr).
    { cbn [chunk_data]. rewrite Lx. exact L31. }
    { cbn [chunk_data]. rewrite length_lenN, Lx. exact Hf. }
    exists r. split; [|exact Hr]. rewrite <- E. unfold via_stream. cbn [addChunk]. rewrite takeN_dropN, Lx. reflexivity.
  Qed.
  Lemma via_stream_inv fuel k key salt s total r : total < 2 ^ 64 -> via_stream fuel k key salt s total = Ret r ->
    getLen key = hsize h /\ getLen salt = hsize h /\ total < 2 ^ 31 /\ total <= lenN s /\ bdata r = spec_k k (hfun h) (hsize h) (bdata key) (bdata salt) (takeN total s).
  Proof.
    intros Ld E. unfold via_stream in E. apply bind_some in E as (c & Ec & E). apply bind_some in E as (c1 & E1 & E).
    assert (getLen key = hsize h /\ getLen salt = hsize h) as [Lk Ls].
    { destruct (N.eqb_spec (getLen key) (hsize h)) as [Lk|Lk], (N.eqb_spec (getLen salt) (hsize h)) as [Ls|Ls]; try (split; assumption);
      exfalso; rewrite (proj2 (new_chain_iff h k key salt)) in Ec by tauto; discriminate. }
    destruct (addStream_len _ _ _ _ _ Ld E1) as [L31 Lt].
    repeat match goal with |- _ /\ _ => split end. all: try assumption.
    set (fuel' := (fuel + N.to_nat total + 2)%nat).
    assert (addStream fuel' s total c = Ret c1) as E1'.
    { unfold addStream in E1 |- *. apply bind_some in E1 as (c0 & -> & E1). cbn [bind]. eapply addStream_loop_more; [|exact E1]. subst fuel'. lia. }
    destruct (via_stream_ok fuel' k key salt s total Lk Ls Lt L31 ltac:(subst fuel'; lia)) as (r' & E' & Hr'). unfold via_stream in E'.
    rewrite Ec in E'. cbn [bind] in E'. rewrite E1' in E'. cbn [bind] in E'. rewrite E in E'. injection E' as <-. exact Hr'.
  Qed.
End One.
