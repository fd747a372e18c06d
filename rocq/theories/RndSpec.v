(** A random generator that may fail: what it changes for the reference machine of RefSpec2. *)
From Coq Require Import Strings.Byte.
From Verif Require Import Base BytesModel BytesSpec MiscModel CipherModel CipherSpec PwModel PwSpec ChModel ChSpec HeaderModel HeaderSpec FileModel ApiModel ApiSpec RefSpec RefSpec2.

(** the generator delivers [k] bytes when it is used for the [i]-th time in a call *)
Definition delivers (w : world) (i : nat) (k : N) : bool := lenN (w_rnd w i k) =? k.
(** any circumstances, whether the generator works or not *)
Definition world_any (bd : build) (H : hashes) (w : world) : Prop := w_build w = bd /\ w_hashes w = H /\ w_elapsed w < 2 ^ 64.
Inductive history_any (bd : build) (H : hashes) (mode : N) : list entry -> api -> Prop :=
| any_new a : newAPI mode = Ret a -> history_any bd H mode [] a
| any_call tr a w f o f' a' r : history_any bd H mode tr a -> world_any bd H w -> fs_ok f -> op_ok o ->
    step w a f o = (f', Ret (a', r)) -> history_any bd H mode (mkEntry w f o r f' :: tr) a'.

(** ** Where a call fails because the generator does *)
(** the process ends, or the call is answered with an error *)
Inductive fault := Fatal | Reported.
(** a file whose header is read as far as its hash mode *)
Definition hash_byte (c : bytes) : N := be_val (takeN 1 (dropN 17 c)).
Definition file_fault (w : world) (f : fs) (i : nat) (p : bytes) : bool :=
  match opened_sized w f p with
  | Gives c => negb (lenN c =? 0) && (1 <=? hash_byte c) && (hash_byte c <=? 3) && negb (delivers w i (digest_len (hash_byte c)))
  | _ => false
  end.
(** the first file of a directory that ends the process is one on which the generator failed *)
Fixpoint list_fault (w : world) (f : fs) (i : nat) (dir : bytes) (l : list (bytes * bool)) : bool :=
  match l with
  | [] => false
  | (n, regular) :: r =>
      if regular && enc_name n then
        file_fault w f i (join dir n) || match looked_at w f (join dir n) with Dies _ => false | _ => (N.of_nat i + 1 <? 2 ^ 31) && list_fault w f (S i) dir r end
      else list_fault w f i dir r
  end.
(** random data for a chain hash: of any length (modes 2 and 4) or of a fixed one *)
Definition data_fault (w : world) (i : nat) (m : N) : option fault :=
  if delivers w i (mode_size m) then None else Some (if (m =? 2) || (m =? 4) then Fatal else Reported).
Definition header_fault (w : world) (ds : dhsettings) (t : N) : option fault :=
  match data_fault w 0 (value (s_ch1 ds)) with
  | Some x => Some x
  | None =>
      match data_fault w 1 (value (s_ch2 ds)) with
      | Some x => Some x
      | None =>
          let n := digest_len (value (s_hmode ds)) in
          if create_timely w t (value (s_n1 ds)) (value (s_n2 ds)) && negb (delivers w 2 n && delivers w 3 n) then Some Fatal else None
      end
  end.
Definition fault_of (w : world) (s : session) (f : fs) (o : op) : option fault :=
  match s, o with
  | Idle, OSelect p => if file_fault w f 0 p then Some Fatal else None
  | Idle, OList dir =>
      match w_dir w dir with Entries l => if negb (lenN dir =? 0) && list_fault w f 0 dir l then Some Fatal else None | _ => None end
  | Empty _, OHeader _ ds t | Open _ _ _ _, OHeader _ ds t => if all_set ds then header_fault w ds t else None
  | Open _ h _ _, OSalt => let n := digest_len (h_hmode h) in if delivers w 0 n && delivers w 1 n then None else Some Fatal
  | _, _ => None
  end.

(** ** The machine with such a generator *)
Definition act_any (w : world) (s : session) (f : fs) (o : op) : fs * result :=
  match fault_of w s f o with
  | Some Fatal => (f, Ends Terminate)
  | Some Reported => (f, Done s (Err ERR))
  | None => act w s f o
  end.
Definition matches_any (w : world) (s : session) (f : fs) (o : op) (r : fs * outcome (api * reply)) : Prop :=
  match act_any w s f o, r with
  | (g, Done _ x), (f', Ret (_, y)) => same f' g /\ seen y = Some x
  | (g, Ends c), (f', Crash c') => same f' g /\ c' = c
  | (g, Hangs), (f', OutOfFuel) => same f' g
  | _, _ => False
  end.
Fixpoint follow_any (tr : list entry) : option session :=
  match tr with
  | [] => Some Idle
  | e :: r =>
      match follow_any r with
      | Some s => match act_any (e_world e) s (e_before e) (e_op e) with (_, Done s' _) => Some s' | _ => None end
      | None => None
      end
  end.
Fixpoint answered_any (tr : list entry) : Prop :=
  match tr with
  | [] => True
  | e :: r =>
      answered_any r /\ exists s g s' x, follow_any r = Some s /\ act_any (e_world e) s (e_before e) (e_op e) = (g, Done s' x) /\
        same (e_after e) g /\ seen (e_reply e) = Some x
  end.

(** ** The same calls with a generator that works *)
Definition mended (rnd : N -> bytes) (k : N) : bytes := if lenN (rnd k) =? k then rnd k else repeat x00 (N.to_nat k).
Definition working (w : world) : world :=
  mkWorld (w_loc w) (w_stat w) (w_read w) (w_write w) (w_create w) (w_remove w) (w_dir w) (w_room w)
    (fun i => mended (w_rnd w i)) (w_elapsed w) (w_clk1 w) (w_clk2 w) (w_hashes w) (w_build w) (w_fuel w).
(** only failed attempts to make a header are left out *)
Inductive mends : list entry -> list entry -> Prop :=
| mends_nil : mends [] []
| mends_keep w f o r f' tr tr' : mends tr tr' -> mends (mkEntry w f o r f' :: tr) (mkEntry (working w) f o r f' :: tr')
| mends_drop w f pw ds t tr tr' : mends tr tr' -> mends (mkEntry w f (OHeader pw ds t) (RErr FAIL ERR) f :: tr) tr'.
(** a generator that never delivers *)
Definition dead (w : world) : Prop := forall i k, lenN (w_rnd w i k) <> k.
