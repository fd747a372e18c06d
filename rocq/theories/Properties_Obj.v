(** Property C90: what the objects of the header code answer after any sequence of calls. *)
From Coq Require Import Strings.Byte.
From Verif Require Import Base BaseFacts BytesModel BytesSpec BytesFacts2 CipherModel CipherFacts PwModel PwSpec ChModel ChSpec HeaderModel HeaderSpec Toy
  ChFacts HeaderFacts5 HeaderFacts9 ObjSpec ObjFacts Properties_Header.

(** DataHeaderParts: every call answers, or throws, according to the calls before it *)
Theorem C90_parts : forall bd ops, Forall (part_op_ok bd) ops -> part_answers parts_empty ops = part_expected [] ops.
Proof. exact parts_calls. Qed.
Print Assumptions C90_parts.
Definition b32 : Bytes := mkBytes (repeat x41 32) 32.
Example C90_parts_ex :
  part_answers parts_empty [GHash; PValid b32; PHash 4; PHash 1; PValid b32; PSalt (mkBytes [x41] 1); GValid; PFile 0; PFile 1; GFile; GSalt; PHash 3; PHash 0; GSize; PValid b32] =
  [Throw RuntimeError; Throw RuntimeError; Throw InvalidArgument; Ret ADone; Ret ADone; Throw InvalidArgument; Ret (ABytes (repeat x41 32)); Throw InvalidArgument; Ret ADone;
   Ret (ANum 1); Throw RuntimeError; Ret ADone; Throw InvalidArgument; Ret (ANum 64); Throw InvalidArgument].
Proof. vm_compute. reflexivity. Qed.
(** a new hash mode leaves the old password validator and salt: the object is complete, with
    values that are too short for its hash mode *)
Definition ch_plain : chainhash := mkCH (Some 1) (Some (newChd 1)) 3 true.
Example ch_plain_built : built Debug ch_plain.
Proof.
  apply (built_ctor Debug 1 3 (Some (newChd 1))); [|vm_compute; reflexivity].
  intros x [= <-]. exists 1, []. split; [split; vm_compute; discriminate|]. split; [constructor|reflexivity].
Qed.
Theorem C90_parts_lengths_match_refuted : exists ops x, Forall (part_op_ok Debug) ops /\
  part_answers parts_empty (ops ++ [GComplete 64; GSize; GValid]) =
    repeat (Ret ADone) (length ops) ++ [Ret (ABool true); Ret (ANum 64); Ret (ABytes x)] /\ lenN x = 32.
Proof.
  exists [PHash 1; PValid b32; PSalt b32; PFile 1; PCh1 ch_plain; PCh2 ch_plain; PHash 3], (repeat x41 32).
  split; [|vm_compute; auto]. repeat (constructor; [first [exact Logic.I|exact ch_plain_built]|]). constructor.
Qed.
Print Assumptions C90_parts_lengths_match_refuted.

(** DataHeader, new: every call answers as the sheet does, and so do the getters afterwards *)
Theorem C90_header : forall bd H clk rnd mode ops d, (forall k, lenN (rnd k) = k) -> hashes_ok H -> newDataHeader rnd mode = Ret d ->
  Forall (hop_ok bd) ops -> Forall direct ops ->
  h_answers bd H clk d ops = sheet_answers H (new_sheet mode (rnd (digest_len mode))) ops /\
  answers_as (h_run bd H clk d ops) (sheet_run H (new_sheet mode (rnd (digest_len mode))) ops).
Proof. exact header_calls. Qed.
Print Assumptions C90_header.
Theorem C90_header_mode : forall rnd mode, ~ 1 <= mode <= 3 -> newDataHeader rnd mode = Throw InvalidArgument.
Proof. exact new_refused. Qed.
Print Assumptions C90_header_mode.
(** DataHeader, read from a file *)
Theorem C90_header_read : forall bd H clk rnd file d rest ops, (forall k, lenN (rnd k) = k) -> hashes_ok H -> lenN file < two64 ->
  decode_stream bd rnd file = Ret (inr (d, rest)) -> Forall (hop_ok bd) ops -> Forall direct ops ->
  exists h, shows d (lenN file) h /\
    h_answers bd H clk d ops = sheet_answers H (read_sheet (lenN file) h) ops /\
    answers_as (h_run bd H clk d ops) (sheet_run H (read_sheet (lenN file) h) ops).
Proof. exact read_calls. Qed.
Print Assumptions C90_header_read.
Definition ex_ops : list hop :=
  [HFileSize 500; HCalc (mkBytes [] 0); HChain1 ch_default; HChain1 ch_plain; HChain2 ch_plain; HFileMode 2; HFileMode 1; HValid (mkBytes [x41] 1); HValid b32;
   HCalc (mkBytes [] 0); HFileSize 103; HFileSize 104; HCalc b32; HCalc (mkBytes [] 0); HBlock (mkDB 1 (mkBytes [x61] 1)); HCalc (mkBytes [] 0); HDataSize 4294967295; HCalc (mkBytes [] 0)].
Example C90_ops_ok : Forall (hop_ok Debug) ex_ops /\ Forall direct ex_ops.
Proof.
  assert (built Debug ch_default) as B0 by constructor. pose proof ch_plain_built as B1.
  assert (block_made (mkDB 1 (mkBytes [x61] 1))) as BM by (apply (bm_new 1 (mkBytes [x61] 1)); vm_compute; reflexivity).
  split; unfold ex_ops; repeat (apply Forall_cons; [cbn [hop_ok direct];
    first [exact Logic.I|exact B0|exact B1|exact BM|reflexivity|split; [vm_compute; discriminate|reflexivity]]|]); apply Forall_nil.
Qed.
Example C90_header_ex :
  match newDataHeader zrnd 1 with
  | Ret d =>
      h_answers Debug ex_hashes (fun _ => 0) d ex_ops =
        [Throw LogicError; Throw LogicError; Throw InvalidArgument; Ret tt; Ret tt; Throw InvalidArgument; Ret tt; Throw InvalidArgument; Ret tt;
         Throw LogicError; Throw InvalidArgument; Ret tt; Throw InvalidArgument; Ret tt; Ret tt; Throw InvalidArgument; Ret tt; Throw InvalidArgument] /\
      d_fsize (h_run Debug ex_hashes (fun _ => 0) d ex_ops) = Some 106
  | _ => False
  end.
Proof. vm_compute. auto. Qed.

(** ChainHashTimed *)
Theorem C90_timed_constructor : forall bd mode rt d, (forall x, d = Some x -> made bd x) ->
  (1 <= mode <= 5 -> exists c, newChainHashTimed mode rt d = Ret c /\ timed_of c = (Some mode, Some rt, d) /\ (ct_val c = true <-> tusable c)) /\
  (~ 1 <= mode <= 5 -> newChainHashTimed mode rt d = Throw InvalidArgument).
Proof. exact timed_ctor. Qed.
Print Assumptions C90_timed_constructor.
Theorem C90_timed_setters : forall bd c o, tbuilt bd c -> top_built bd o -> timed_setter o ->
  match timed_refused o with
  | Some e => ct_step bd c o = Throw e
  | None =>
      let '(m, t, d) := timed_after c o in
      (t = None /\ m <> None /\ d <> None /\ ct_step bd c o = Crash Undefined) \/
      (~ (t = None /\ m <> None /\ d <> None) /\
       exists c', ct_step bd c o = Ret c' /\ timed_of c' = (m, t, d) /\ (ct_val c' = true <-> tusable c'))
  end.
Proof. exact timed_setters. Qed.
Print Assumptions C90_timed_setters.
Theorem C90_timed_getters : forall bd c, tbuilt bd c ->
  (ct_val c = true -> tusable c /\ exists m t d, timed_of c = (Some m, Some t, Some d) /\
      ct_getMode c = Ret m /\ ct_getTime c = Ret t /\ ct_getData c = Ret (Some d)) /\
  (ct_val c = false -> ct_getMode c = Throw RuntimeError /\ ct_getTime c = Throw RuntimeError /\ ct_getData c = Throw RuntimeError).
Proof. exact timed_getters. Qed.
Print Assumptions C90_timed_getters.
Example C90_timed_ex :
  match newChainHashTimed 1 86400000 (Some (newChd 1)) with
  | Ret c => ct_getMode c = Ret 1 /\ ct_getTime c = Ret 86400000 /\ ct_step Debug c (TMode 6) = Throw InvalidArgument /\
      ct_step Debug c (TAssign ct_default) = Throw RuntimeError /\
      match ct_step Debug c (TTime 86400001) with Ret c' => ct_val c' = false /\ ct_getTime c' = Throw RuntimeError | _ => False end
  | _ => False
  end.
Proof. vm_compute. auto 10. Qed.

(** header settings: a getter returns the last accepted value and throws if there is none *)
Theorem C90_settings : forall bound ops i o, nth_error (slots (set_run bound ops)) i = Some o ->
  (forall v, last_set bound ops i v -> set_get o = Ret v) /\ ((forall v, ~ last_set bound ops i v) -> set_get o = Throw RuntimeError).
Proof. exact settings_get. Qed.
Print Assumptions C90_settings.
Example C90_settings_ex :
  map set_get (slots (set_run 1000000000 [SFile 1; SHash 4; SHash 2; SHash 0; SCh2 6; SN1 1000000000; SN1 1000000001; SN2 0])) =
  [Ret 1; Ret 2; Throw RuntimeError; Throw RuntimeError; Ret 1000000000; Throw RuntimeError].
Proof. vm_compute. reflexivity. Qed.

(** Bytes: what a call throws that does not fit *)
Theorem C90_bytes : forall b o, within b -> bop_ok b o = true -> bmax b < two64 -> spec_step (repr b) o = None ->
  model_step b o = Throw (raised o).
Proof. exact bytes_throw. Qed.
Print Assumptions C90_bytes.
Example C90_bytes_ex : let b := mkBytes [x41; x42] 3 in
  spec_step (repr b) (BAddString [x43; x44]) = None /\ model_step b (BAddString [x43; x44]) = Throw RuntimeError /\
  spec_step (repr b) (BAdd [x43; x44]) = None /\ model_step b (BAdd [x43; x44]) = Throw LengthError.
Proof. vm_compute. auto. Qed.
