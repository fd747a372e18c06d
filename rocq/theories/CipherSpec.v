(** Specification of the cipher, written on plain byte lists.
    It mentions no definition of the model except the hash function record's digest function. *)
From Verif Require Import Base.

Section Spec.
  Variable H : bytes -> bytes.   (* the digest function *)
  Variable n : N.                (* digest size = block size *)

  (** byte-wise sum and difference modulo 256 *)
  Definition bsum (x y : bytes) : bytes :=
    map (fun p => n2b ((b2n (fst p) + b2n (snd p)) mod 256)) (combine x y).
  Definition bdiff (x y : bytes) : bytes :=
    map (fun p => n2b ((256 + b2n (fst p) - b2n (snd p)) mod 256)) (combine x y).

  (** state of the key stream: running key, running salt, digest of the previous plaintext block *)
  Definition kstate : Type := bytes * bytes * bytes.
  Definition kstart (pwhash enc_salt : bytes) : kstate :=
    (pwhash, enc_salt, repeat x00 (N.to_nat n)).
  Definition knext_key (st : kstate) : bytes :=
    let '(k, s, l) := st in H (bsum (bsum k s) l).
  Definition knext_salt (st : kstate) : bytes :=
    let '(k, s, l) := st in H (bsum (bsum (knext_key st) s) l).
  (** the pad of the current block *)
  Definition kpad (st : kstate) : bytes := H (bsum (knext_key st) (knext_salt st)).
  (** the state for the block after the plaintext block [p] *)
  Definition kafter (st : kstate) (p : bytes) : kstate := (knext_key st, knext_salt st, H p).

  (** encryption and decryption of a list of blocks *)
  Fixpoint enc_blocks (st : kstate) (ps : list bytes) : bytes :=
    match ps with
    | [] => []
    | p :: r => bsum p (kpad st) ++ enc_blocks (kafter st p) r
    end.
  Fixpoint dec_blocks (st : kstate) (cs : list bytes) : bytes :=
    match cs with
    | [] => []
    | c :: r => let p := bdiff c (kpad st) in p ++ dec_blocks (kafter st p) r
    end.

  (** cut a list into blocks of [n] bytes; the last one may be shorter *)
  Fixpoint cut (fuel : nat) (l : bytes) : list bytes :=
    match fuel, l with
    | O, _ => []
    | _, [] => []
    | S f, _ => takeN n l :: cut f (dropN n l)
    end.
  Definition blocks (l : bytes) : list bytes := cut (length l) l.

  Definition spec_enc (pwhash enc_salt p : bytes) : bytes :=
    enc_blocks (kstart pwhash enc_salt) (blocks p).
  Definition spec_dec (pwhash enc_salt c : bytes) : bytes :=
    dec_blocks (kstart pwhash enc_salt) (blocks c).
End Spec.

(** the number [getDataSize] reports for a chain of [n]-byte blocks that was fed with [l] bytes in all:
    minus (mod 2^64) what is free in the last of its blocks; a chain that was fed has one block at least *)
Definition blocks_used (n l : N) : N := N.max 1 ((l + n - 1) / n).
Definition minus_free (n l : N) : N := (2 ^ 64 - (n * blocks_used n l - l)) mod 2 ^ 64.
