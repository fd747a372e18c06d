(** Changes to a header by someone who can write the file and does not know the password. *)
From Verif Require Import Base BytesModel CipherSpec PwModel PwSpec ChModel ChSpec HeaderModel HeaderSpec ApiModel ApiSpec SecSpec RefSpec.

(** ** Parts the password check does not look at *)
(** the same parts for the password check *)
Definition same_check (h h' : header) : Prop :=
  h_hmode h' = h_hmode h /\ h_ch1 h' = h_ch1 h /\ h_ch2 h' = h_ch2 h /\ h_valid h' = h_valid h.
(** the file [c] with the header [h] instead of its own *)
Definition reheaded (bd : build) (c : bytes) (h : header) : option bytes :=
  match read_file bd c with
  | Gives (_, body) => Some (ser (hdr_len h + lenN body) h ++ body)
  | _ => None
  end.

(** ** More rounds in the second chain hash *)
(** [k] more rounds after the first [i] ones, which gave [v] *)
Fixpoint go_on (D : bytes -> bytes) (m : saltmode) (v : bytes) (i k : nat) : bytes :=
  match k with O => v | S j => D (go_on D m v i j ++ salt_at m (N.of_nat (i + j))) end.
Definition slowed (H : hashes) (n : N) (h : header) : header :=
  let '(m, n2, b) := h_ch2 h in
  mkHeader (h_fmode h) (h_hmode h) (h_blocks h) (h_ch1 h) (m, n, b)
    (go_on (hash_of H (h_hmode h)) (described m b) (h_valid h) (N.to_nat n2) (N.to_nat (n - n2))) (h_salt h) (h_encs h).
(** the file [c] with [n] rounds in the second chain hash *)
Definition slow_down (bd : build) (H : hashes) (n : N) (c : bytes) : option bytes :=
  match read_file bd c with
  | Gives (h, body) => if (iterations (h_ch2 h) <=? n) && (n <=? 1000000000) then Some (ser (lenN c) (slowed H n h) ++ body) else None
  | _ => None
  end.

(** ** Other chain hashes *)
(** The check of [pw] under [h] is the end of the check of [pw'] under [h']. *)
Definition end_of (H : hashes) (h : header) (pw : bytes) (h' : header) (pw' : bytes) : Prop :=
  forall k, N.of_nat k < check_rounds h -> check_input H h pw k = check_input H h' pw' (k + N.to_nat (check_rounds h' - check_rounds h)).
(** Different inputs with the same digest, as many rounds before the end of the one check as of the other *)
Definition collide2 (H : hashes) (h : header) (pw : bytes) (h' : header) (pw' : bytes) : Prop :=
  exists k, let k' := (k + N.to_nat (check_rounds h' - check_rounds h))%nat in N.of_nat k < check_rounds h /\
    check_input H h pw k <> check_input H h' pw' k' /\
    hash_of H (h_hmode h) (check_input H h pw k) = hash_of H (h_hmode h) (check_input H h' pw' k').
