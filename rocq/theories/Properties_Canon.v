(** Property C124. *)
From Verif Require Import Base BytesModel BytesSpec HeaderModel HeaderSpec Toy Properties_Header CanonSpec CanonFacts.
Open Scope N_scope.
Open Scope list_scope.

(** a file is written in one way only *)
Theorem C124_once : forall file hs l1 l2 h r hs' l1' l2' h' r', lenN file < two64 -> written_as file hs l1 l2 h r -> written_as file hs' l1' l2' h' r' ->
  hs = hs' /\ l1 = l1' /\ l2 = l2' /\ h = h' /\ r = r'.
Proof. exact written_once. Qed.
Print Assumptions C124_once.
(** no header is the beginning of another one, also not if size or length fields are wrong or blocks are empty *)
Theorem C124_prefix : forall fs h r fs' h' r', header_ok h -> header_ok h' -> fs < two64 -> fs' < two64 -> ser fs h ++ r = ser fs' h' ++ r' -> fs = fs' /\ h = h' /\ r = r'.
Proof. exact own_prefix. Qed.
Print Assumptions C124_prefix.
Theorem C124_prefix_any : forall fs hs l1 l2 h r fs' hs' l1' l2' h' r', header_ok h -> header_ok h' -> lengths_ok l1 l2 h -> lengths_ok l1' l2' h' ->
  fs < two64 -> hs < two64 -> fs' < two64 -> hs' < two64 ->
  layout_with fs hs l1 l2 h ++ r = layout_with fs' hs' l1' l2' h' ++ r' -> fs = fs' /\ hs = hs' /\ l1 = l1' /\ l2 = l2' /\ h = h' /\ r = r'.
Proof. exact layout_inj. Qed.
Print Assumptions C124_prefix_any.
(** the reader of a Debug build looks at every byte *)
Theorem C124_debug : forall rnd rnd' file file' d d' rest, (forall k, lenN (rnd k) = k) -> (forall k, lenN (rnd' k) = k) -> lenN file < two64 -> lenN file' < two64 ->
  decode_stream Debug rnd file = Ret (inr (d, rest)) -> decode_stream Debug rnd' file' = Ret (inr (d', rest)) -> contents d = contents d' -> file = file'.
Proof. exact same_debug. Qed.
Print Assumptions C124_debug.
(** that of a Release build at all but the header size and the lengths that the mode fixes *)
Theorem C124_release : forall rnd rnd' file file' d d' rest, (forall k, lenN (rnd k) = k) -> (forall k, lenN (rnd' k) = k) -> lenN file < two64 -> lenN file' < two64 ->
  decode_stream Release rnd file = Ret (inr (d, rest)) -> decode_stream Release rnd' file' = Ret (inr (d', rest)) -> contents d = contents d' ->
  lenN file = lenN file' /\ exists h hs l1 l2 hs' l1' l2', contents d = Some h /\ file = layout_with (lenN file) hs l1 l2 h ++ rest /\ file' = layout_with (lenN file) hs' l1' l2' h ++ rest /\
    (l1 = l1' \/ fixed_length (h_ch1 h)) /\ (l2 = l2' \/ fixed_length (h_ch2 h)) /\ (file = file' <-> hs = hs' /\ l1 = l1' /\ l2 = l2').
Proof. exact same_release. Qed.
Print Assumptions C124_release.

(** what a reader shows of a file *)
Definition read_as (bd : build) (file : bytes) : option (option header * bytes) :=
  match decode_stream bd zrnd file with Ret (inr (d, rest)) => Some (contents d, rest) | _ => None end.
Definition ex_even : bytes := layout_with 377 377 8 4 ex_h.
Example C124_ex :
  read_as Release ex_even = Some (Some ex_h, []) /\ read_as Release ex_odd = Some (Some ex_h, []) /\ eqb_bytes ex_even ex_odd = false /\
  read_as Debug ex_even = Some (Some ex_h, []) /\ read_as Debug ex_odd = None /\ hdr_len ex_h = 377 /\
  read_as Release (layout_with 377 377 8 5 ex_h) = None /\
  read_as Debug (ser 379 ex_h ++ [x41; x42]) = Some (Some ex_h, [x41; x42]) /\ read_as Debug (ser 379 ex_h0 ++ [x41; x42]) = None.
Proof. vm_compute. repeat split. Qed.
Example C124_ex_written : lenN ex_odd < two64 /\ written_as ex_odd 0 99 4 ex_h [] /\ fixed_length (h_ch1 ex_h) /\ ~ fixed_length (h_ch2 ex_h) /\ lengths_ok 99 4 ex_h.
Proof.
  split; [vm_compute; reflexivity|]. split.
  { split; [apply ex_h_ok|]. split; [apply ex_h_ok|]. split; [vm_compute; discriminate|]. split; [intros [E|E]; discriminate E|]. split; [reflexivity|]. split; [intros _; reflexivity|]. split; [reflexivity|]. vm_compute. reflexivity. }
  split; [split; discriminate|]. split; [intros [E _]; apply E; reflexivity|]. split; [intros [E|E]; discriminate E|]. split; [reflexivity|]. split; [intros _; reflexivity|reflexivity].
Qed.
