(** Lemmas for the properties of the API: encryptData in histories; histories for the Examples. *)
From Coq Require Import Strings.Byte.
From Verif Require Import Base BaseFacts BytesModel BytesFacts MiscModel MiscFacts CipherModel CipherSpec CipherFacts CipherFacts2 PwModel PwSpec PwFacts ChModel ChSpec ChFacts ChFacts2
  HeaderModel HeaderSpec HeaderFacts HeaderFacts2 HeaderFacts3 HeaderFacts4 HeaderFacts5 HeaderFacts8 HeaderFacts9 FileModel ApiModel ApiSpec FileFacts FileFacts2 ApiFacts ApiFacts2 ApiFacts3 ApiFacts4 ApiFacts5 ApiFacts6 ApiFacts7 ApiFacts8.

Section Api9.
  Variable H : hashes.
  Hypothesis HH : hashes_ok H.
  Variable bd : build.
  Lemma encrypt_possible mode tr a w f data : history bd H mode tr a -> world_ok bd H w -> a_state a = DECRYPTED -> getLen data < 2 ^ 31 -> patient w (getLen data) ->
    exists a', step w a f (OEncrypt (text data)) = (f, Ret (a', ROk)).
  Proof.
    intros Hh (_ & WH & _) Es L P. destruct (history_dec H HH bd _ _ _ Hh Es) as (p & c & h & pw & _ & _ & _ & fd & k & d & fh & -> & Hd & [K1 K2] & _).
    destruct (encrypt_ok H HH w (mkApi DECRYPTED 1 fd k None (Some d) (Some fh)) (text data) d h pw data WH eq_refl eq_refl Hd K2 eq_refl L P) as (res & d2 & E & _).
    eexists. cbn [step a_state]. rewrite E. reflexivity.
  Qed.
  Lemma encrypt_size mode tr a w f x f' a' : history bd H mode tr a -> world_ok bd H w -> op_ok (OEncrypt x) -> step w a f (OEncrypt x) = (f', Ret (a', ROk)) ->
    exists data, x = text data /\ getLen data < 2 ^ 31 /\ f' = f.
  Proof.
    intros Hh (_ & WH & _) Ho E. pose proof (history_inv _ HH _ _ _ _ Hh) as [Em I]. cbn [step] in E. destruct (a_state a); try discriminate E.
    destruct I as (p & c0 & h0 & pw0 & k0 & d0 & fh & fd & Q1 & Q2 & Q3 & Q4 & [Q5 Q5'] & Q6 & Q7 & Q8 & Ea).
    assert (encryptData w a x = Ret (a', ROk) /\ f' = f) as [E' ->] by (injection E as <- ->; auto).
    assert (a_dh a = Some d0) as Edh by (rewrite Ea; reflexivity). assert (bdata (a_key a) = key_of H h0 pw0) as Ek by (rewrite Ea; exact Q5').
    destruct (encrypt_inv H HH w a x d0 h0 pw0 a' _ WH Em Edh Q6 Ek Ho E') as [(e & _ & X)|[(d1 & e & _ & _ & X)|(data & res & d2 & -> & L & _)]]; try discriminate X.
    exists data. auto.
  Qed.
  Lemma sealed_sizes h pw data c : sealed H h pw data c -> lenN data < 2 ^ 31 -> sizes_fit c (hdr_len h) /\ lenN c = hdr_len h + lenN data /\ lenN c < 2 ^ 32.
  Proof.
    intros (Hok & O & ->) L. pose proof (hdr_len_small h Hok) as Ls. pose proof (hdr_len_bounds h Hok) as Lb. change (2 ^ 31) with 2147483648 in L. change (2 ^ 32) with 4294967296.
    assert (lenN (ser (hdr_len h + lenN data) h ++ cipher_of H h pw data) = hdr_len h + lenN data) as Lc by (rewrite lenN_app, ser_len, (cipher_len H HH) by exact Hok; reflexivity).
    spl; try lia. unfold sizes_fit. rewrite Lc. unfold ser, layout_with. rewrite <- !app_assoc. eexists. split; [reflexivity|].
    destruct Hok as (_ & Hm & _). destruct (digest_cases _ Hm) as [E|[E|E]]; rewrite E in Lb; lia.
  Qed.
  Lemma write_sizes mode tr a w f o p f' a' : history bd H mode tr a -> world_ok bd H w -> fs_ok f -> (o = OWrite \/ o = OWriteTo p) -> step w a f o = (f', Ret (a', ROk)) ->
    exists q h pw data c, target tr o = Some q /\ sealed H h pw data c /\ f' (w_loc w q) = Some (takeN (w_room w) c) /\ sizes_fit c (hdr_len h) /\ lenN c = hdr_len h + lenN data /\ lenN c < 2 ^ 32.
  Proof.
    intros Hh W Hf Ho E. destruct (write_history H HH bd mode tr a w f o p f' a' Hh W Hf Ho E) as (q & h & pw & data & c & T & _ & _ & _ & L & S & F).
    exists q, h, pw, data, c. spl; try assumption; apply (sealed_sizes h pw data c S L).
  Qed.
  Lemma reopen_data ws p l f h pw data c t : (forall i, at_hand bd H (ws i) p l) -> enc_path p -> f l = Some c -> sealed H h pw data c -> no_empty_block h -> lenN data < 2 ^ 31 ->
    t < 2 ^ 64 -> verify_in_time (ws 1%nat) t (iterations (h_ch1 h)) (iterations (h_ch2 h)) -> patient (ws 2%nat) (lenN data) ->
    exists b a', calls [(ws 0%nat, OSelect p); (ws 1%nat, OVerify pw t); (ws 2%nat, ODecrypt)] (fresh 1) f = Some ([ROk; ROk; RData (mkFD (Some 1) (Some b))], a', f) /\
      bdata b = data /\ a_state a' = DECRYPTED.
  Proof.
    intros A Ep F S Ne L Lt T P. destruct (reopen H HH bd ws p l f h pw data c t A Ep F S Ne L Lt T P) as (b & a' & E & B & k & fh & -> & _). eexists _, _. split; [exact E|]. split; [exact B|reflexivity].
  Qed.
End Api9.

(** ** Histories made by running calls *)
Fixpoint play (l : list (world * fs * op)) (tr : list entry) (a : api) : option (list entry * api) :=
  match l with
  | [] => Some (tr, a)
  | (w, f, o) :: r => match step w a f o with (f', Ret (a', x)) => play r (mkEntry w f o x f' :: tr) a' | _ => None end
  end.
Lemma play_history bd H mode l : forall tr a tr' a', history bd H mode tr a ->
  Forall (fun x => world_ok bd H (fst (fst x)) /\ fs_ok (snd (fst x)) /\ op_ok (snd x)) l -> play l tr a = Some (tr', a') -> history bd H mode tr' a'.
Proof.
  induction l as [|[[w f] o] l IH]; intros tr a tr' a' Hh F E; cbn [play] in E.
  - injection E as <- <-. exact Hh.
  - inversion F as [|? ? (W & Hf & Ho) F']; subst. cbn [fst snd] in *. destruct (step w a f o) as [f' [[a1 x]| | |]] eqn:Es; try discriminate E.
    eapply IH; [|exact F'|exact E]. eapply hist_call; eassumption.
Qed.
(** a history with a computable property *)
Lemma play_example bd H l (P : list entry -> api -> Prop) :
  Forall (fun x => world_ok bd H (fst (fst x)) /\ fs_ok (snd (fst x)) /\ op_ok (snd x)) l ->
  match play l [] (fresh 1) with Some (tr, a) => P tr a | None => False end -> exists tr a, history bd H 1 tr a /\ P tr a.
Proof.
  intros F E. destruct (play l [] (fresh 1)) as [[tr a]|] eqn:Ep; [|contradiction]. exists tr, a. split; [|exact E].
  eapply play_history; [|exact F|exact Ep]. apply hist_new. reflexivity.
Qed.
