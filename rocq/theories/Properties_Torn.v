(** Property C38, continued: what a file holds at every moment of a save. *)
From Coq Require Import Strings.String.
From Verif Require Import Base BaseFacts BytesModel BytesSpec MiscModel CipherModel CipherSpec PwModel PwSpec ChModel ChSpec HeaderModel HeaderSpec Toy FileModel ApiModel ApiSpec ApiSpec2
  SecSpec InterModel InterSpec TornSpec ApiFacts8 ApiFacts9 InterFacts TornFacts Properties_Header Properties_File Properties_Api Properties_Api2.

(** C38 *)
(** The copy taken before the access [k] is what the process leaves if it ends there: the old content until the file is opened,
    then nothing, then the pieces written so far. *)
Theorem C38_moments_of_a_save : forall H, hashes_ok H -> forall bd mode tr a, history bd H mode tr a -> a_state a = ENCRYPTED -> exists c, to_save H tr c /\
  forall w o q f x m cuts k, saves_to tr o q -> usable_file w q -> enc_path q -> f (w_loc w q) = Some x -> (o <> OWrite -> x = []) -> m <> w_loc w q ->
  exists s' a', step_i w (copying k (w_loc w q) m) cuts a o (O, f) = (s', Ret (a', ROk)) /\
    snd s' (w_loc w q) = Some (takeN (w_room w) c) /\
    snd s' m = if (k <? first_piece o)%nat then f (w_loc w q)
               else if (k <=? first_piece o + length cuts)%nat then Some (takeN (N.min (w_room w) (pieces_of (k - first_piece o) cuts)) c) else f m.
Proof. exact copied_during_save. Qed.
Print Assumptions C38_moments_of_a_save.
Theorem C38_every_prefix : forall H, hashes_ok H -> forall bd mode tr a, history bd H mode tr a -> a_state a = ENCRYPTED -> exists c, to_save H tr c /\
  forall w o q f x m j, saves_to tr o q -> usable_file w q -> enc_path q -> f (w_loc w q) = Some x -> (o <> OWrite -> x = []) -> m <> w_loc w q -> j <= lenN c -> j <= w_room w ->
  exists cuts k s' a', step_i w (copying k (w_loc w q) m) cuts a o (O, f) = (s', Ret (a', ROk)) /\ snd s' (w_loc w q) = Some (takeN (w_room w) c) /\ snd s' m = Some (takeN j c).
Proof. exact every_prefix. Qed.
Print Assumptions C38_every_prefix.
Theorem C38_left_behind : forall H, hashes_ok H -> forall bd mode tr a, history bd H mode tr a -> a_state a = ENCRYPTED -> exists c, to_save H tr c /\
  forall w o q f x m cuts k w2 q2, saves_to tr o q -> usable_file w q -> enc_path q -> f (w_loc w q) = Some x -> (o <> OWrite -> x = []) -> m <> w_loc w q ->
  (first_piece o <= k <= first_piece o + length cuts)%nat -> at_hand bd H w2 q2 m -> enc_path q2 ->
  exists s' a', step_i w (copying k (w_loc w q) m) cuts a o (O, f) = (s', Ret (a', ROk)) /\
    (snd s' m = Some c \/
     step w2 (fresh 1) (snd s') (OSelect q2) = (snd s', Ret (fresh 1, RErr FAIL ERR_FILEHANDLER_CREATION)) \/
     (snd s' m = Some [] /\ step w2 (fresh 1) (snd s') (OSelect q2) = (snd s', Ret (empty_obj q2, ROk)))).
Proof. exact left_behind. Qed.
Print Assumptions C38_left_behind.
(** a save in pieces of 100 and 60 bytes and the rest, looked at before every access *)
Definition torn_at (a : api) (k : nat) : option bytes :=
  match step_i ex_world (copying k (ex_loc a_enc_path) 77) [100; 60] a OWrite (O, ex_files) with (s, Ret (_, ROk)) => snd s 77 | _ => None end.
Example C38_ex_moments : exists tr a, history Release ex_hashes 1 tr a /\ a_state a = ENCRYPTED /\ saves_to tr OWrite a_enc_path /\ usable_file ex_world a_enc_path /\ enc_path a_enc_path /\
  ex_files (w_loc ex_world a_enc_path) = Some ex_file /\ 77 <> w_loc ex_world a_enc_path /\
  map (torn_at a) (seq 0 7) = [Some ex_file; Some ex_file; Some ex_file; Some []; Some (takeN 100 ex_file); Some (takeN 160 ex_file); None].
Proof.
  history_of (opening ++ [OEncrypt (text ex_data)]). split; [reflexivity|]. split; [right; split; [reflexivity|eexists; reflexivity]|]. split; [repeat split|].
  split; [exact a_enc_path_ok|]. split; [reflexivity|]. split; [vm_compute; discriminate|]. vm_compute. reflexivity.
Qed.
