(** What someone without the password can do to a file: cut its data off, put bytes behind it, turn
    known bytes in the middle into others. *)
From Verif Require Import Base BytesModel BytesSpec CipherSpec HeaderModel HeaderSpec.

(** the length of the header: bytes 8 to 15 of the file, which are not encrypted *)
Definition clear_len (c : bytes) : N := be_val (sliceN 8 16 c).
(** the file [c] with [n] as its length field *)
Definition resized (n : N) (c : bytes) : bytes := u64 n ++ dropN 8 c.
(** only the first [j] bytes of the data *)
Definition shorten (j : N) (c : bytes) : bytes := let n := clear_len c + j in takeN n (resized n c).
(** the bytes [z] behind the file *)
Definition lengthen (z c : bytes) : bytes := resized (lenN c + lenN z) c ++ z.
(** the data from [i] on, known to be [y], turned into [y'] *)
Definition patch (i : N) (y y' c : bytes) : bytes :=
  let k := clear_len c + i in takeN k c ++ bsum (bdiff (sliceN k (k + lenN y) c) y) y' ++ dropN (k + lenN y) c.
