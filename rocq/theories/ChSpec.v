(** What chain hash data and chain hash descriptions are supposed to be
    (docs/chainhash_modes.md): lists of named parts, at most one part of free length. *)
From Coq Require Import Strings.String.
From Verif Require Import Base BytesModel BytesSpec CipherModel PwModel PwSpec ChModel.

(** part names and lengths of each mode; None: any length *)
Definition layout (mode : N) : list (bytes * option N) :=
  match mode with
  | 2 => [(str "S", None)]
  | 3 => [(str "SN", Some 8)]
  | 4 => [(str "SN", Some 8); (str "S", None)]
  | 5 => [(str "SN", Some 8); (str "A", Some 8); (str "B", Some 8); (str "C", Some 8)]
  | _ => []
  end.
Definition fits_part (l : option N) (p : bytes) : bool :=
  match l with Some n => lenN p =? n | None => true end.

(** calls on a data block; the argument of [Generate] is what the random generator delivers *)
Inductive cdop := AddPart (b : Bytes) | Generate (r : bytes).
Definition cdop_ok (o : cdop) : Prop := match o with AddPart _ => True | Generate r => 255 <= lenN r end.

(** cut a byte string into the parts of a layout; a free part takes what is left *)
Fixpoint cut (ls : list (bytes * option N)) (r : bytes) : list bytes :=
  match ls with
  | [] => []
  | (_, Some n) :: ls' => takeN n r :: cut ls' (dropN n r)
  | (_, None) :: ls' => r :: cut ls' []
  end.
Fixpoint full_len (ls : list (bytes * option N)) : N :=
  match ls with
  | [] => 0
  | (_, Some n) :: ls' => n + full_len ls'
  | (_, None) :: _ => 255
  end.
(** number of random bytes that fill a block *)
Definition mode_size (mode : N) : N := match mode with 2 | 4 => 255 | 3 => 8 | 5 => 32 | _ => 0 end.
Definition random_len (mode : N) : N := N.min 255 (full_len (layout mode)).

(** the effect of a call on the list of parts, or the exception *)
Definition spec_cd (mode : N) (ps : list bytes) (o : cdop) : list bytes + exn :=
  match o with
  | AddPart b =>
      match nth_error (layout mode) (length ps) with
      | None => inr LogicError
      | Some (_, l) =>
          if negb (fits_part l (bdata b)) then inr InvalidArgument
          else if 255 <? lenN (concat ps) + lenN (bdata b) then inr LengthError
          else inl (ps ++ [bdata b])%list
      end
  | Generate r =>
      if lenN (concat ps) =? 0 then inl (cut (layout mode) (takeN (random_len mode) r)) else inr PointerThrown
  end.
Fixpoint spec_cd_run (mode : N) (ps : list bytes) (ops : list cdop) : list bytes :=
  match ops with
  | [] => ps
  | o :: r => spec_cd_run mode (match spec_cd mode ps o with inl ps' => ps' | inr _ => ps end) r
  end.

(** the same on the model; a call that throws leaves the object as it was *)
Definition cd_step (bd : build) (d : chd) (o : cdop) : outcome chd :=
  match o with
  | AddPart b => cd_addBytes bd b d
  | Generate r => cd_generate (fun n => takeN n r) d
  end.
Fixpoint cd_run (bd : build) (d : chd) (ops : list cdop) : chd :=
  match ops with
  | [] => d
  | o :: r => cd_run bd (match cd_step bd d o with Ret d' => d' | _ => d end) r
  end.
(** data blocks that a program can have *)
Definition made (bd : build) (d : chd) : Prop :=
  exists mode ops, 1 <= mode <= 5 /\ Forall cdop_ok ops /\ d = cd_run bd (newChd mode) ops.

(** calls on a chain hash description *)
Inductive chop :=
| CIters (iters : N) | CMode (mode : N) | CData (d : option chd)
| CAssign (src : chainhash)              (* operator= *)
| CShared (o : cdop).                    (* a call on the data block, through another pointer to it *)
Definition ch_step (bd : build) (c : chainhash) (o : chop) : outcome chainhash :=
  match o with
  | CIters n => ch_setIters n c
  | CMode m => ch_setMode m c
  | CData d => ch_setData d c
  | CAssign src => ch_assign c src
  | CShared o => Ret (ch_mutate (fun d => cd_step bd d o) c)
  end.
(** calls on the data block of a description, through another pointer *)
Fixpoint shared_run (bd : build) (c : chainhash) (ops : list cdop) : chainhash :=
  match ops with [] => c | o :: r => shared_run bd (ch_mutate (fun d => cd_step bd d o) c) r end.
(** descriptions that a program can have *)
Inductive built (bd : build) : chainhash -> Prop :=
| built_default : built bd ch_default
| built_ctor mode iters d c : (forall x, d = Some x -> made bd x) ->
    newChainHash mode iters d = Ret c -> built bd c
| built_step c o c' : built bd c -> op_built bd o -> ch_step bd c o = Ret c' -> built bd c'
with op_built (bd : build) : chop -> Prop :=
| ob_iters n : op_built bd (CIters n)
| ob_mode m : op_built bd (CMode m)
| ob_data d : (forall x, d = Some x -> made bd x) -> op_built bd (CData d)
| ob_assign src : built bd src -> op_built bd (CAssign src)
| ob_shared o : cdop_ok o -> op_built bd (CShared o).

(** a description that can be used *)
Definition usable (c : chainhash) : Prop :=
  exists mode d, ch_mode c = Some mode /\ ch_data c = Some d /\ 1 <= mode <= 5 /\
    1 <= ch_iters c <= 1000000000 /\ cd_mode d = mode /\ cd_ind d = lenN (layout mode).

(** the salts that a block of a mode describes *)
Definition described (mode : N) (block : bytes) : saltmode :=
  match mode with
  | 2 => ConstSalt block
  | 3 => CountSalt (be_val block)
  | 4 => ConstCountSalt (be_val (takeN 8 block)) (dropN 8 block)
  | 5 => QuadSalt (be_val (takeN 8 block)) (be_val (takeN 8 (dropN 8 block)))
           (be_val (takeN 8 (dropN 16 block))) (be_val (dropN 24 block))
  | _ => NoSalt
  end.

(** time-limited descriptions *)
Inductive ctop := TTime (t : N) | TMode (m : N) | TData (d : option chd) | TAssign (src : chtimed) | TShared (o : cdop).
Definition ct_step (bd : build) (c : chtimed) (o : ctop) : outcome chtimed :=
  match o with
  | TTime t => ct_setTime t c
  | TMode m => ct_setMode m c
  | TData d => ct_setData d c
  | TAssign src => ct_assign c src
  | TShared o => Ret (ct_mutate (fun d => cd_step bd d o) c)
  end.
Inductive tbuilt (bd : build) : chtimed -> Prop :=
| tbuilt_default : tbuilt bd ct_default
| tbuilt_ctor mode rt d c : (forall x, d = Some x -> made bd x) ->
    newChainHashTimed mode rt d = Ret c -> tbuilt bd c
| tbuilt_step c o c' : tbuilt bd c -> top_built bd o -> ct_step bd c o = Ret c' -> tbuilt bd c'
with top_built (bd : build) : ctop -> Prop :=
| tob_time n : top_built bd (TTime n)
| tob_mode m : top_built bd (TMode m)
| tob_data d : (forall x, d = Some x -> made bd x) -> top_built bd (TData d)
| tob_assign src : tbuilt bd src -> top_built bd (TAssign src)
| tob_shared o : cdop_ok o -> top_built bd (TShared o).
Definition tusable (c : chtimed) : Prop :=
  exists mode d t, ct_mode c = Some mode /\ ct_data c = Some d /\ ct_time c = Some t /\ 1 <= mode <= 5 /\
    1 <= t <= 86400000 /\ cd_mode d = mode /\ cd_ind d = lenN (layout mode).
