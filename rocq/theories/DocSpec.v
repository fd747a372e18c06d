(** What the documentation says about the salt and about the cipher: README.md 48-81, docs/doc.md 5-8, docs/dataheader.md 136-139. *)
From Coq Require Import Strings.Byte.
From Verif Require Import Base CipherSpec HeaderSpec FileModel ApiModel ApiSpec SysSpec.
Open Scope N_scope.
Open Scope list_scope.

(** where the salt stands in a file *)
Definition salt_at (h : header) : N := hdr_len h - (digest_len (h_hmode h) + 1 + 257 * lenN (h_encs h)).
(** [n] random bytes that a successful changeSalt or createDataHeader has drawn *)
Definition drawn (tr : list event) (n : N) (s : bytes) : Prop := exists v, In v tr /\ v_reply v = Some ROk /\
  ((v_op v = OSalt /\ s = w_rnd (v_world v) 0 n) \/ (exists pw ds t, v_op v = OHeader pw ds t /\ s = w_rnd (v_world v) 2 n)).

(** docs/doc.md: the salt is what is stored minus the password hash; docs/dataheader.md: it is the exclusive or of the two *)
Definition bxor (x y : bytes) : bytes := map (fun p => n2b (N.lxor (b2n (fst p)) (b2n (snd p)))) (combine x y).
Inductive documented (key stored : bytes) : bytes -> Prop :=
  | Subtracted : documented key stored (bdiff stored key)
  | Xored : documented key stored (bxor stored key).
(** README.md: the first block of a file is the data plus the password hash plus the salt *)
Definition doc_block (key salt p : bytes) : bytes := bsum (bsum p key) salt.
Definition doc_unblock (key salt c : bytes) : bytes := bdiff (bdiff c salt) key.
