(** Specifications for the Bytes class, on plain lists. *)
From Verif Require Import Base BytesModel.

(** big-endian value *)
Definition be_val (l : bytes) : N := fold_left (fun a c => a * 256 + b2n c) l 0.

(** uppercase hexadecimal digit *)
Definition is_hex (c : byte) : Prop :=
  48 <= b2n c <= 57 \/ 65 <= b2n c <= 70.

(** A list with a capacity; what each operation does to it.  [None]: the operation throws. *)
Inductive bop :=
| BFillRandom (r : bytes)              (* fillrandom; r: the bytes the generator delivers *)
| BAddRandom (r : bytes)               (* addrandom(num) *)
| BSet (l : bytes) | BAdd (l : bytes)  (* setBytes, addBytes *)
| BConsume (l : bytes)                 (* consumeBytes *)
| BShrink (n : N)                      (* setLen with n <= len *)
| BCopyFrom (src : bytes)              (* src.copyToBytes(this) *)
| BAppendFrom (src : bytes)            (* src.addcopyToBytes(this) *)
| BAddSize (n : N)                     (* addSize *)
| BAddByte (x : byte)                  (* addByte *)
| BAddString (s : bytes).              (* addStringToBytes *)

Definition replace_content (cap : N) (l : bytes) : option (bytes * N) :=
  if lenN l <=? cap then Some (l, cap) else None.

Definition spec_step (s : bytes * N) (o : bop) : option (bytes * N) :=
  let '(l, cap) := s in
  match o with
  | BFillRandom r => replace_content cap (l ++ takeN (cap - lenN l) r)
  | BAddRandom r | BAdd r | BAppendFrom r | BAddString r => replace_content cap (l ++ r)
  | BSet r | BConsume r | BCopyFrom r => replace_content cap r
  | BShrink n => if n <=? lenN l then Some (takeN n l, cap) else None
  | BAddSize n => Some (l, cap + n)
  | BAddByte x => replace_content cap (l ++ [x])
  end.

(** the same operations on the model *)
Definition bop_ok (b : Bytes) (o : bop) : bool :=
  match o with
  | BFillRandom r => (bmax b - getLen b <=? lenN r) && (bmax b - getLen b <? 2147483648)
  | BAddRandom r => lenN r <? 2147483648
  | BShrink n => n <=? getLen b
  | _ => true
  end.
Definition model_step (b : Bytes) (o : bop) : outcome Bytes :=
  match o with
  | BFillRandom r => fillrandom (fun n => takeN n r) b
  | BAddRandom r => addrandom (fun n => takeN n r) (lenN r) b
  | BSet l => setBytes l b
  | BAdd l => addBytes l b
  | BConsume l => consumeBytes l b
  | BShrink n => setLen n b
  | BCopyFrom src => copyToBytes (fromArray src) b
  | BAppendFrom src => addcopyToBytes (fromArray src) b
  | BAddSize n => Ret (addSize n b)
  | BAddByte x => addByte x b
  | BAddString s => addStringToBytes s b
  end.
(** a throwing operation leaves the object as it was *)
Fixpoint model_run (b : Bytes) (ops : list bop) : Bytes :=
  match ops with
  | [] => b
  | o :: r => match model_step b o with Ret b' => model_run b' r | _ => model_run b r end
  end.
Fixpoint spec_run (s : bytes * N) (ops : list bop) : bytes * N :=
  match ops with
  | [] => s
  | o :: r => match spec_step s o with Some s' => spec_run s' r | None => spec_run s r end
  end.
(** what an object holds: its bytes and its capacity *)
Definition repr (b : Bytes) : bytes * N := (bdata b, bmax b).
Definition within (b : Bytes) : Prop := getLen b <= bmax b.
(** capacities stay representable and no operation grows the length by setLen *)
Fixpoint ops_ok (b : Bytes) (ops : list bop) : Prop :=
  match ops with
  | [] => True
  | o :: r => bop_ok b o = true /\ bmax b < two64 /\
      ops_ok (match model_step b o with Ret b' => b' | _ => b end) r
  end.

(** ** Hexadecimal texts: the bytes that pairs of characters mean *)
Definition hex_digit (c : byte) : N := if b2n c <=? 57 then b2n c - 48 else b2n c - 55.
Fixpoint unhex (l : bytes) : bytes :=
  match l with a :: b :: r => n2b (hex_digit a * 16 + hex_digit b) :: unhex r | _ => [] end.
