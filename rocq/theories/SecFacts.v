(** Lemmas for the properties about attackers. *)
From Verif Require Import Base BaseFacts BytesModel BytesFacts MiscModel MiscFacts CipherModel CipherSpec CipherFacts CipherFacts2 PwModel PwSpec PwFacts ChModel ChSpec ChFacts ChFacts2
  HeaderModel HeaderSpec HeaderFacts HeaderFacts2 HeaderFacts3 HeaderFacts4 HeaderFacts5 HeaderFacts8 HeaderFacts9 FileModel ApiModel ApiSpec FileFacts FileFacts2 ApiFacts ApiFacts2 ApiFacts3 ApiFacts4 ApiFacts5 ApiFacts6 ApiFacts7 ApiFacts8 ApiFacts9 SecSpec.

(** ** Collisions *)
Lemma app_tail_inj (a b s : bytes) : a ++ s = b ++ s -> a = b.
Proof. apply app_inv_tail. Qed.
Lemma round_value H c x n : iterated H (described (fst (fst c)) (snd c)) x n = H (round_input H c x n).
Proof. destruct n; reflexivity. Qed.
Lemma bytes_dec (x y : bytes) : x = y \/ x <> y.
Proof. destruct (list_eq_dec Byte.byte_eq_dec x y); auto. Qed.
Lemma chain_collision H c x x' n : iterated H (described (fst (fst c)) (snd c)) x n = iterated H (described (fst (fst c)) (snd c)) x' n -> x <> x' ->
  exists k, (k <= n)%nat /\ round_input H c x k <> round_input H c x' k /\ H (round_input H c x k) = H (round_input H c x' k).
Proof.
  intros E Nx. induction n as [|n IH].
  - exists O. split; [lia|]. split; [|exact E]. intros X. apply Nx. unfold round_input in X. eapply app_tail_inj. exact X.
  - destruct (bytes_dec (iterated H (described (fst (fst c)) (snd c)) x n) (iterated H (described (fst (fst c)) (snd c)) x' n)) as [D|D].
    + destruct (IH D) as (k & L & A & B). exists k. split; [lia|]. auto.
    + exists (S n). split; [lia|]. split; [|exact E]. intros X. apply D. unfold round_input in X. eapply app_tail_inj. exact X.
Qed.
Lemma both_open H h pw pw' : header_ok h -> opens H h pw -> opens H h pw' -> pw <> pw' -> collide H h pw pw'.
Proof.
  intros Hok O O' Npw. unfold opens in *. rewrite O in O'. unfold collide, check_rounds, check_input.
  destruct Hok as (_ & _ & _ & _ & (_ & C1 & _) & (_ & C2 & _) & _). unfold iterations in *.
  set (n1 := snd (fst (h_ch1 h))) in *. set (n2 := snd (fst (h_ch2 h))) in *.
  destruct (bytes_dec (key_of H h pw) (key_of H h pw')) as [D|D].
  - destruct (chain_collision _ _ _ _ _ D Npw) as (k & L & A & B). fold n1 in L. exists k. split; [lia|].
    destruct (Nat.ltb_spec k (N.to_nat n1)); [|lia]. auto.
  - destruct (chain_collision _ _ _ _ _ O' D) as (k & L & A & B). fold n2 in L. exists (N.to_nat n1 + k)%nat. split; [lia|].
    destruct (Nat.ltb_spec (N.to_nat n1 + k) (N.to_nat n1)); [lia|]. replace (N.to_nat n1 + k - N.to_nat n1)%nat with k by lia. auto.
Qed.

Ltac Zify.zify_post_hook ::= Z.div_mod_to_equations.
(** ** Equal salts *)
Section Pad.
  Variable hf : hashfn.
  Hypothesis Hh : hash_ok hf.
  Notation n := (hsize hf).
  Lemma full_blocks j : forall x : bytes, lenN x = j * n -> exists fulls, Forall (fun p => lenN p = n) fulls /\ concat fulls = x.
  Proof.
    induction j as [|j IH] using N.peano_ind; intros x Lx.
    - exists []. split; [constructor|]. symmetry. apply lenN_0. lia.
    - destruct (IH (dropN n x)) as (fulls & F & E); [rewrite lenN_dropN; lia|]. exists (takeN n x :: fulls). split.
      + constructor; [|exact F]. rewrite lenN_takeN. lia.
      + cbn [concat]. rewrite E. apply takeN_dropN.
  Qed.
  Lemma enc_split pw es x : lenN x mod n = 0 -> exists u st, lenN u = lenN x /\ lenN (kpad (hfun hf) st) = n /\
    forall y, lenN y <= n -> spec_enc (hfun hf) n pw es (x ++ y) = u ++ bsum y (kpad (hfun hf) st).
  Proof.
    destruct Hh as (Hp & Hl & Hn). intros Lx.
    assert (lenN x = (lenN x / n) * n) as Lx' by (rewrite (N.div_mod (lenN x) n) at 1; [lia|lia]).
    destruct (full_blocks _ _ Lx') as (fulls & F & <-).
    exists (out_of hf Enc (kstart n pw es) fulls), (st_of hf Enc (kstart n pw es) fulls). split; [|split].
    - apply (out_of_len hf Hp Hl Hn). exact F.
    - apply Hn.
    - intros y Ly. rewrite <- (crypt_spec_enc hf Hp Hl Hn). rewrite (crypt_split hf Hp Hl Hn) by assumption. reflexivity.
  Qed.
  Lemma zip_cancel (x y p : bytes) : lenN x = lenN y -> lenN y <= lenN p -> bdiff (bsum x p) (bsum y p) = bdiff x y.
  Proof.
    rewrite !bsum_zipb, !bdiff_zipb. revert y p. induction x as [|a x IH]; intros [|b y] [|c p] L1 L2; cbn [zipb] in *; try reflexivity;
      rewrite ?lenN_cons, ?lenN_nil in *; try lia.
    f_equal; [|apply IH; lia]. unfold subb, addb. apply b2n_inj. rewrite !b2n_n2b. pose proof (b2n_lt a). pose proof (b2n_lt b). pose proof (b2n_lt c). lia.
  Qed.
  Lemma zip_forge (y y' p : bytes) : lenN y = lenN y' -> lenN y <= lenN p -> bsum (bdiff (bsum y p) y) y' = bsum y' p.
  Proof.
    rewrite !bsum_zipb, !bdiff_zipb. revert y' p. induction y as [|a y IH]; intros [|b y'] [|c p] L1 L2; cbn [zipb] in *; try reflexivity;
      rewrite ?lenN_cons, ?lenN_nil in *; try lia.
    f_equal; [|apply IH; lia]. unfold subb, addb. apply b2n_inj. rewrite !b2n_n2b. pose proof (b2n_lt a). pose proof (b2n_lt b). pose proof (b2n_lt c). lia.
  Qed.
End Pad.

Section Sec.
  Variable H : hashes.
  Hypothesis HH : hashes_ok H.
  Variable bd : build.
  Lemma header_hash h : header_ok h -> exists hf, hash_ok hf /\ hfun hf = hash_of H (h_hmode h) /\ hsize hf = digest_len (h_hmode h).
  Proof.
    intros Hok. destruct (hash_mode_ok H (h_hmode h) HH ltac:(apply Hok)) as (hf & Hg & Hh & Hf). pose proof (getHash_size _ _ _ Hg) as [Hs _]. exists hf. auto.
  Qed.
  Lemma cipher_split h pw x : header_ok h -> (exists j, lenN x = j * digest_len (h_hmode h)) -> exists u pad, lenN u = lenN x /\ lenN pad = digest_len (h_hmode h) /\
    forall y, lenN y <= digest_len (h_hmode h) -> cipher_of H h pw (x ++ y) = u ++ bsum y pad.
  Proof.
    intros Hok (j & Lx). destruct (header_hash h Hok) as (hf & Hh & Hf & Hs). rewrite <- Hs in *.
    assert (lenN x mod hsize hf = 0) as Lm by (rewrite Lx; apply N.mod_mul; destruct Hh; lia).
    destruct (enc_split hf Hh (key_of H h pw) (h_salt h) x Lm) as (u & st & A & B & C). exists u, (kpad (hfun hf) st). spl; try assumption.
    intros y Ly. unfold cipher_of. rewrite <- Hf, <- Hs. apply C. exact Ly.
  Qed.
  Lemma cipher_prefix h pw p q : header_ok h -> exists r, cipher_of H h pw (p ++ q) = cipher_of H h pw p ++ r.
  Proof.
    intros Hok. destruct (header_hash h Hok) as (hf & (Hp & Hl & Hn) & Hf & Hs).
    exists (dropN (lenN p) (cipher_of H h pw (p ++ q))). rewrite <- (takeN_dropN (lenN p) (cipher_of H h pw (p ++ q))) at 1. f_equal.
    unfold cipher_of. rewrite <- Hf, <- Hs. rewrite <- !(crypt_spec_enc hf Hp Hl Hn). apply (crypt_prefix hf Hp Hl Hn).
  Qed.
  Lemma cipher_leak h pw p1 p2 x y1 y2 z1 z2 : header_ok h -> split_at (digest_len (h_hmode h)) p1 p2 x y1 y2 z1 z2 ->
    leaks (cipher_of H h pw p1) (cipher_of H h pw p2) x y1 y2.
  Proof.
    intros Hok (-> & -> & J & Ly & L). destruct (cipher_split h pw x Hok J) as (u & pad & Lu & Lp & C).
    destruct (cipher_prefix h pw (x ++ y1) z1 Hok) as (w1 & E1). destruct (cipher_prefix h pw (x ++ y2) z2 Hok) as (w2 & E2).
    rewrite (C y1) in E1 by lia. rewrite (C y2) in E2 by lia. rewrite <- !app_assoc in E1, E2.
    exists u, (bsum y1 pad), (bsum y2 pad), w1, w2. spl; try assumption; try (rewrite lenN_bsum; lia).
    apply zip_cancel; lia.
  Qed.
  Lemma forge_sealed h pw x y y' c : sealed H h pw (x ++ y) c -> (exists j, lenN x = j * digest_len (h_hmode h)) -> lenN y <= digest_len (h_hmode h) -> lenN y' = lenN y ->
    sealed H h pw (x ++ y') (forge y y' c).
  Proof.
    intros (Hok & O & ->) J L L'. split; [exact Hok|]. split; [exact O|]. destruct (cipher_split h pw x Hok J) as (u & pad & Lu & Lp & C).
    rewrite !C by lia. unfold forge. rewrite !lenN_app, L'. set (s := ser _ h).
    assert (lenN (bsum y pad) = lenN y) as Lb by (rewrite lenN_bsum; lia). rewrite Lb.
    replace (lenN s + (lenN u + lenN y) - lenN y) with (lenN (s ++ u)) by (rewrite lenN_app; lia).
    rewrite app_assoc, takeN_app_exact, dropN_app_exact. rewrite <- app_assoc. do 2 f_equal. apply zip_forge; lia.
  Qed.
  Lemma any_body h pw body : header_ok h -> opens H h pw -> sealed H h pw (plain_of H h pw body) (ser (hdr_len h + lenN body) h ++ body) /\ lenN (plain_of H h pw body) = lenN body.
  Proof.
    intros Hok O. destruct (header_hash h Hok) as (hf & (Hp & Hl & Hn) & Hf & Hs).
    assert (cipher_of H h pw (plain_of H h pw body) = body) as E.
    { unfold plain_of, cipher_of. rewrite <- Hf, <- Hs. rewrite <- (crypt_spec_enc hf Hp Hl Hn), <- (crypt_spec_dec hf Hp Hl Hn). apply (enc_dec hf Hp Hl Hn). }
    assert (lenN (plain_of H h pw body) = lenN body) as L by (rewrite <- E at 2; symmetry; apply (cipher_len H HH); exact Hok).
    split; [|exact L]. split; [exact Hok|]. split; [exact O|]. rewrite E, L. reflexivity.
  Qed.

  (** ** at the API *)
  Lemma accepted_password mode tr a w f p c h pw data pw' t f' a' : history bd H mode tr a -> world_ok bd H w -> t < 2 ^ 64 -> selected tr = Some (p, c) ->
    sealed H h pw data c -> no_empty_block h -> lenN data < 2 ^ 31 -> step w a f (OVerify pw' t) = (f', Ret (a', ROk)) -> pw' = pw \/ collide H h pw pw'.
  Proof.
    intros Hh W Lt Sel S Ne L E. destruct (bytes_dec pw' pw) as [D|D]; [left; exact D|right].
    destruct (sealed_written H HH h pw data c S Ne L) as (L1 & L2 & L3 & L4 & Wr).
    assert (a_state a = FILE_SELECTED) as Es by (cbn [step] in E; destruct (a_state a); try discriminate E; reflexivity).
    destruct (verify_outcome H HH bd mode tr a w f p c _ _ _ h _ pw' t Hh W Lt Es Sel Wr) as [A B].
    assert (opens H h pw') as O'.
    { destruct (bytes_dec (h_valid h) (validator H h (key_of H h pw'))) as [O'|O']; [exact O'|]. exfalso.
      assert (verify_in_time w t (iterations (h_ch1 h)) (iterations (h_ch2 h)) \/ ~ verify_in_time w t (iterations (h_ch1 h)) (iterations (h_ch2 h))) as [T|T].
      { unfold verify_in_time. destruct (reached_dec (w_clk1 w) t (readings_string (iterations (h_ch1 h)))); [right; tauto|].
        destruct (N.eq_dec t 0); destruct (N.eq_dec (w_elapsed w) t);
        destruct (reached_dec (w_clk2 w) ((t + 2 ^ 64 - w_elapsed w) mod 2 ^ 64) (readings_bytes (iterations (h_ch2 h)))); tauto. }
      - destruct (A T) as [_ A2]. rewrite (A2 O') in E. discriminate E.
      - rewrite (B T) in E. discriminate E. }
    destruct S as (Hok & O & _). apply both_open; auto.
  Qed.
  (** open, change, save *)
  Lemma resave ws p l f h pw data c new t : (forall i, at_hand bd H (ws i) p l) -> enc_path p -> f l = Some c -> sealed H h pw data c -> no_empty_block h -> lenN data < 2 ^ 31 ->
    t < 2 ^ 64 -> verify_in_time (ws 1%nat) t (iterations (h_ch1 h)) (iterations (h_ch2 h)) -> patient (ws 2%nat) (lenN data) ->
    getLen new < 2 ^ 31 -> patient (ws 3%nat) (getLen new) -> hdr_len h + getLen new <= w_room (ws 4%nat) ->
    exists b c' a' f', calls [(ws 0%nat, OSelect p); (ws 1%nat, OVerify pw t); (ws 2%nat, ODecrypt); (ws 3%nat, OEncrypt (text new)); (ws 4%nat, OWrite)] (fresh 1) f =
        Some ([ROk; ROk; RData (mkFD (Some 1) (Some b)); ROk; ROk], a', f') /\ bdata b = data /\ f' l = Some c' /\ sealed H h pw (bdata new) c'.
  Proof.
    intros A Ep F S Ne L Lt T P L' P' R. destruct (reopen H HH bd ws p l f h pw data c t A Ep F S Ne L Lt T P) as (b & a' & E & B & k & fh & -> & K & Hp).
    destruct (sealed_written H HH h pw data c S Ne L) as (L1 & L2 & L3 & L4 & Wr).
    assert (dec_obj H (mkApi DECRYPTED 1 None k None (Some (decoded (lenN c) h)) (Some fh)) p h pw) as D.
    { do 4 eexists. split; [reflexivity|]. spl; try assumption. split; [apply decoded_hinv|apply decoded_contents]; try apply S; exact (lt63_two64 _ L3). }
    destruct (encrypt_write H HH bd (fun i => ws (3 + i)%nat) _ p l f h pw new c D (fun i => A _) Ep F L' P') as (a2 & f2 & E2 & _ & _ & _ & c' & S' & F').
    cbn [Nat.add] in E2, F'. rewrite (room_all H HH _ _ _ _ _ S' R) in F'.
    exists b, c', a2, f2. spl; try assumption. exact (calls_app _ _ _ _ _ _ _ _ _ _ E E2).
  Qed.
End Sec.
Lemma any_body_opens H : hashes_ok H -> forall bd ws p l f h pw body t,
  (forall i, at_hand bd H (ws i) p l) -> enc_path p -> f l = Some (ser (hdr_len h + lenN body) h ++ body) -> header_ok h -> opens H h pw -> no_empty_block h -> lenN body < 2 ^ 31 ->
  t < 2 ^ 64 -> verify_in_time (ws 1%nat) t (iterations (h_ch1 h)) (iterations (h_ch2 h)) -> patient (ws 2%nat) (lenN body) ->
  exists b a', calls [(ws 0%nat, OSelect p); (ws 1%nat, OVerify pw t); (ws 2%nat, ODecrypt)] (fresh 1) f = Some ([ROk; ROk; RData (mkFD (Some 1) (Some b))], a', f) /\
    bdata b = plain_of H h pw body /\ lenN (bdata b) = lenN body.
Proof.
  intros HH bd ws p l f h pw body t A Ep F Hok O Ne L Lt T P. destruct (any_body H HH h pw body Hok O) as [S E]. rewrite <- E in L, P.
  destruct (reopen_data H HH bd ws p l f h pw _ _ t A Ep F S Ne L Lt T P) as (b & a' & X & B & _). exists b, a'. spl; [exact X|exact B|]. rewrite B. exact E.
Qed.
