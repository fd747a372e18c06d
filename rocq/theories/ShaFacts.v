From Verif Require Import Base BaseFacts BytesModel CipherModel ChModel Sha2 HeaderModel HeaderSpec.

Lemma big_endian_length n v : length (Sha2.big_endian n v) = n.
Proof. induction n as [|n IH]; [reflexivity|]. change (S (length (Sha2.big_endian n v)) = S n). rewrite IH. reflexivity. Qed.
Lemma flat_big_endian n l : length (flat_map (Sha2.big_endian n) l) = (n * length l)%nat.
Proof. induction l as [|x l IH]; cbn [flat_map length]; [lia|]. rewrite app_length, big_endian_length, IH. lia. Qed.
Lemma digest_length wb S0 S1 s0 s1 ks iv x : lenN (digest wb S0 S1 s0 s1 ks iv x) = 8 * wb.
Proof.
  unfold digest. cbv zeta. destruct (blocks _ _ _ _ _ _ _ _ _).
  unfold lenN. rewrite flat_big_endian. cbn [length]. lia.
Qed.
Lemma sha2_lengths : hashes_ok sha2.
Proof.
  split; [|split]; intros x; cbn [H256 H384 H512 sha2].
  - apply digest_length.
  - unfold sha384, sha512_with. rewrite lenN_takeN, digest_length. reflexivity.
  - apply digest_length.
Qed.

Lemma sha2_hash m x extra :
  match (h <- getHash sha2 m ;; do_hash h x extra) with
  | Ret b => 1 <= m <= 3 /\ 8 * lenN (bdata b) = 128 * (m + 1) /\ bmax b = lenN (bdata b) + extra mod two32
             /\ bdata b = hash_of sha2 m x
  | Throw e => e = InvalidArgument /\ ~ 1 <= m <= 3
  | Crash c => c = Undefined /\ 1 <= m <= 3 /\ two32 <= 16 * (m + 1) + extra mod two32
  | OutOfFuel => False
  end.
Proof.
  destruct sha2_lengths as (L1 & L2 & L3).
  assert (Hx : extra mod two32 < two32) by (apply N.mod_lt; discriminate).
  assert (M : m = 1 \/ m = 2 \/ m = 3 \/ ~ 1 <= m <= 3) by lia.
  assert (G : forall n f, n < 65 -> (forall y, lenN (f y) = n) ->
    match do_hash (mkHash n f) x extra with
    | Ret b => lenN (bdata b) = n /\ bmax b = n + extra mod two32 /\ bdata b = f x
    | Throw _ => False | Crash c => c = Undefined /\ two32 <= n + extra mod two32 | OutOfFuel => False end).
  { intros n f Hn Hf. unfold do_hash. cbn [hsize hfun]. unfold w32.
    destruct (N.ltb_spec ((n + extra mod two32) mod two32) n) as [Hc|Hc].
    - split; [reflexivity|].
      destruct (N.le_gt_cases two32 (n + extra mod two32)); [assumption|].
      rewrite N.mod_small in Hc by assumption. lia.
    - cbn [bdata bmax]. split; [apply Hf|]. split; [|reflexivity].
      destruct (N.le_gt_cases two32 (n + extra mod two32)) as [Hb|Hb].
      + exfalso. replace (n + extra mod two32) with ((n + extra mod two32 - two32) + 1 * two32) in Hc by lia.
        rewrite N.mod_add in Hc by discriminate.
        assert (n + extra mod two32 - two32 < n) by lia.
        rewrite N.mod_small in Hc; [lia|]. unfold two32 in *; lia.
      + apply N.mod_small. assumption. }
  destruct M as [-> | [-> | [-> | M]]].
  - cbn [getHash bind]. specialize (G 32 (H256 sha2) eq_refl L1). destruct (do_hash _ _ _); try easy.
      destruct G as (A & B & C). rewrite A in *. repeat split; try lia; assumption.
  - cbn [getHash bind]. specialize (G 48 (H384 sha2) eq_refl L2). destruct (do_hash _ _ _); try easy.
      destruct G as (A & B & C). rewrite A in *. repeat split; try lia; assumption.
  - cbn [getHash bind]. specialize (G 64 (H512 sha2) eq_refl L3). destruct (do_hash _ _ _); try easy.
      destruct G as (A & B & C). rewrite A in *. repeat split; try lia; assumption.
  - replace (getHash sha2 m) with (@Throw hashfn InvalidArgument).
    + cbn [bind]. split; [reflexivity|exact M].
    + unfold getHash. destruct m as [|[[p|p|]|[p|p|]|]]; try reflexivity; lia.
Qed.
