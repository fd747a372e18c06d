(** The statements about the decoders, in terms of what can be observed of the decoded header. *)
From Verif Require Import Base BaseFacts BytesModel BytesFacts MiscModel MiscFacts CipherModel CipherFacts PwModel PwSpec PwFacts ChModel ChSpec ChFacts ChFacts2
  HeaderModel HeaderSpec HeaderFacts HeaderFacts2 HeaderFacts3 HeaderFacts4 HeaderFacts5 HeaderFacts6 HeaderFacts7 HeaderFacts9 HeaderFacts10.
Ltac Zify.zify_post_hook ::= Z.div_mod_to_equations.

Lemma accept_release rnd file d rest : (forall k, lenN (rnd k) = k) -> lenN file < two64 -> decode_stream Release rnd file = Ret (inr (d, rest)) ->
  exists hsz l1 l2 h, written_as file hsz l1 l2 h rest /\ shows d (lenN file) h.
Proof.
  intros Hr Hl E. apply (decode_release rnd Hr file d rest Hl) in E. destruct E as (hsz & l1 & l2 & h & W & ->). exists hsz, l1, l2, h. split; [exact W|].
  apply decoded_view; [apply W|exact Hl].
Qed.
Lemma accept_release_conv rnd file hsz l1 l2 h rest : (forall k, lenN (rnd k) = k) -> lenN file < two64 -> written_as file hsz l1 l2 h rest ->
  exists d, decode_stream Release rnd file = Ret (inr (d, rest)) /\ shows d (lenN file) h.
Proof.
  intros Hr Hl W. exists (decoded (lenN file) h). split; [|apply decoded_view; [apply W|exact Hl]].
  apply (decode_release rnd Hr file _ rest Hl). eauto 6.
Qed.
Lemma accept_debug rnd file d rest : (forall k, lenN (rnd k) = k) -> lenN file < two64 -> decode_stream Debug rnd file = Ret (inr (d, rest)) ->
  exists h, header_ok h /\ no_empty_block h /\ file = ser (lenN file) h ++ rest /\ shows d (lenN file) h.
Proof.
  intros Hr Hl E. apply (decode_debug rnd Hr file d rest Hl) in E. destruct E as (h & Hh & Hn & Ef & ->). exists h. spl; try assumption.
  all: apply decoded_view; assumption.
Qed.
Lemma accept_any bd rnd h rest : (forall k, lenN (rnd k) = k) -> header_ok h -> no_empty_block h -> hdr_len h + lenN rest < two64 ->
  exists d, decode_stream bd rnd (ser (hdr_len h + lenN rest) h ++ rest) = Ret (inr (d, rest)) /\ shows d (hdr_len h + lenN rest) h.
Proof.
  intros Hr Hh Hn Hl. exists (decoded (hdr_len h + lenN rest) h). split; [|apply decoded_view; assumption].
  apply decode_ser; auto.
Qed.
Lemma mem_back bd rnd fs h body cap : (forall k, lenN (rnd k) = k) -> header_ok h -> no_empty_block h ->
  free_salt (h_ch1 h) = [] -> free_salt (h_ch2 h) = [] -> hdr_len h < 65536 -> hdr_len h <= fs -> fs < two64 -> hdr_len h + lenN body < two64 ->
  exists d, decode_mem bd rnd (mkBytes (ser fs h ++ body) cap) = Ret (inr d) /\ shows d fs h.
Proof.
  intros Hr Hh Hn F1 F2 Hs Hf Hf' Hb. exists (decoded fs h). split; [apply mem_reads_back; assumption|apply decoded_view; assumption].
Qed.
Lemma mem_debug_only rnd f d : (forall k, lenN (rnd k) = k) -> getLen f < two64 -> decode_mem Debug rnd f = Ret (inr d) ->
  exists fs h body, header_ok h /\ no_empty_block h /\ free_salt (h_ch1 h) = [] /\ free_salt (h_ch2 h) = [] /\ hdr_len h < 65536 /\
    hdr_len h <= fs /\ bdata f = ser fs h ++ body /\ shows d fs h.
Proof.
  intros Hr Hl E. apply (mem_debug rnd f d Hr Hl) in E. destruct E as (fs & h & body & Hh & Hn & F1 & F2 & Hs & Hf & Hf' & Ef & ->).
  exists fs, h, body. spl; try assumption. all: apply decoded_view; assumption.
Qed.
(** whatever either build returns is a valid header with the stored file size *)
Lemma mem_valid bd rnd f d : (forall k, lenN (rnd k) = k) -> decode_mem bd rnd f = Ret (inr d) ->
  exists fs h, header_ok h /\ no_empty_block h /\ hdr_len h <= fs /\ fs < two64 /\ shows d fs h.
Proof.
  intros Hr E. destruct (mem_inv bd rnd f d Hr E) as (fs & hsz & l1 & l2 & h & Hf & _ & Hh & Hn & Hf' & -> & _).
  exists fs, h. spl; try assumption; apply decoded_view; assumption.
Qed.
