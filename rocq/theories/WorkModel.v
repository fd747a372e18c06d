(** The work of a password check: the functions of PwModel, ChModel and ApiModel that compute chain hashes, with a
    record of the digests computed and of the readings of the timers, in order.

    Citations: src/pwfunc.cpp, src/chainhash_modes.cpp, src/api.cpp.  A digest is recorded with its input
    ([hash->hash(..)]), a reading with the milliseconds that [timer.peekTime()] returns.  Digests outside the chain
    hashes (encryption of the data) and logging are not recorded. *)
From Coq Require Import Strings.String.
From Verif Require Import Base BytesModel MiscModel CipherModel PwModel ChModel HeaderModel FileModel ApiModel.
Open Scope N_scope.
Open Scope list_scope.

Inductive event := EvHash (x : bytes) | EvClock (t : N).
Definition logged (A : Type) : Type := (list event * outcome A)%type.
(** code that neither hashes nor reads a timer *)
Definition quiet {A} (m : outcome A) : logged A := ([], m).
Definition then_ {A B} (m : logged A) (k : A -> logged B) : logged B :=
  match snd m with
  | Ret x => let r := k x in (fst m ++ fst r, snd r)
  | Throw e => (fst m, Throw e)
  | Crash c => (fst m, Crash c)
  | OutOfFuel => (fst m, OutOfFuel)
  end.
Notation "x <=- m ;; k" := (then_ m (fun x => k)) (at level 61, m at next level, right associativity).
(** the same for results that are an error code or a value *)
Definition then_ok {A B} (m : logged (errcode + A)) (k : A -> logged (errcode + B)) : logged (errcode + B) :=
  r <=- m ;; match r with inl c => quiet (dfail c) | inr x => k x end.
Notation "x <=~ m ;; k" := (then_ok m (fun x => k)) (at level 61, m at next level, right associativity).
Definition noexcept_w {A} (m : logged A) : logged A := (fst m, noexcept (snd m)).
Definition lift_w {A} (m : logged A) : logged (errcode + A) := (fst m, lift (snd m)).
(** a digest and a reading *)
Definition hash_w (h : hashfn) (x : bytes) (extra : N) : logged Bytes := ([EvHash x], do_hash h x extra).
Definition peek (t : N) : logged N := ([EvClock t], Ret t).

Section Work.
Variable h : hashfn.
Variable clk : nat -> N.

(** the loops of pwfunc.cpp 42-139 *)
Fixpoint string_loop_w (sf : option (N -> bytes)) (extra timeout : N) (k : nat) (i : N) (peeks : nat) (start : N) (ret : Bytes) : logged chres :=
  match k with
  | O => quiet (Ret (Done ret))
  | S k' =>
      let start' := w64 (start + 1) in
      ret1 <=- quiet (add_salt sf start' ret) ;;
      ret2 <=- hash_w h (bdata ret1) extra ;;
      if negb (timeout =? 0) && (i mod TIMEOUT_ITERATIONS =? 0) then
        now <=- peek (clk peeks) ;;
        if timeout <=? now then quiet (Ret TimedOut)
        else string_loop_w sf extra timeout k' (w64 (i + 1)) (S peeks) start' ret2
      else string_loop_w sf extra timeout k' (w64 (i + 1)) peeks start' ret2
  end.
Definition string_chain_w (sf : option (N -> bytes)) (extra iters start timeout : N) (pw : bytes) : logged chres :=
  noexcept_w (
    ret <=- hash_w h (pw ++ salt_text sf start) extra ;;
    string_loop_w sf extra timeout (N.to_nat (iters - 1)) 1 0 start ret).
(** pwfunc.cpp 42-57 *)
Definition chainhash_sw (pw : bytes) (iters timeout : N) := string_chain_w None 0 iters 0 timeout pw.
(** pwfunc.cpp 59-76 *)
Definition chainhashWithConstantSalt_sw (pw : bytes) (iters : N) (salt : bytes) (timeout : N) :=
  string_chain_w (Some (fun _ => salt)) (lenN salt) iters 0 timeout pw.
(** pwfunc.cpp 78-96 *)
Definition chainhashWithCountSalt_sw (pw : bytes) (iters start timeout : N) := string_chain_w (Some to_string) 20 iters start timeout pw.
(** pwfunc.cpp 98-118 *)
Definition chainhashWithCountAndConstantSalt_sw (pw : bytes) (iters start : N) (salt : bytes) (timeout : N) :=
  string_chain_w (Some (fun s => salt ++ to_string s)) (lenN salt + 20) iters start timeout pw.
(** pwfunc.cpp 120-139 *)
Definition chainhashWithQuadraticCountSalt_sw (pw : bytes) (iters start a b c timeout : N) :=
  string_chain_w (Some (fun s => to_string (quad a b c s))) 20 iters start timeout pw.

(** the loops of pwfunc.cpp 141-235 *)
Fixpoint bytes_loop_w (sf : option (N -> bytes)) (extra timeout : N) (k : nat) (i : N) (peeks : nat) (start : N) (ret : Bytes) : logged chres :=
  match k with
  | O => quiet (Ret (Done ret))
  | S k' =>
      ret1 <=- quiet (add_salt sf start ret) ;;
      ret2 <=- hash_w h (bdata ret1) extra ;;
      let start' := w64 (start + 1) in
      if negb (timeout =? 0) && (i mod TIMEOUT_ITERATIONS =? 0) then
        now <=- peek (clk peeks) ;;
        if timeout <=? now then quiet (Ret TimedOut)
        else bytes_loop_w sf extra timeout k' (w64 (i + 1)) (S peeks) start' ret2
      else bytes_loop_w sf extra timeout k' (w64 (i + 1)) peeks start' ret2
  end.
Definition bytes_chain_w (sf : option (N -> bytes)) (cp extra iters start timeout : N) (data : Bytes) : logged chres :=
  noexcept_w (bytes_loop_w sf extra timeout (N.to_nat iters) 0 0 start (copyExtra data cp)).
(** pwfunc.cpp 141-156 *)
Definition chainhash_bw (data : Bytes) (iters timeout : N) := bytes_chain_w None 0 0 iters 0 timeout data.
(** pwfunc.cpp 158-175 *)
Definition chainhashWithConstantSalt_bw (data : Bytes) (iters : N) (salt : bytes) (timeout : N) :=
  bytes_chain_w (Some (fun _ => salt)) (lenN salt) (lenN salt) iters 0 timeout data.
(** pwfunc.cpp 177-195 *)
Definition chainhashWithCountSalt_bw (data : Bytes) (iters start timeout : N) := bytes_chain_w (Some to_string) 20 20 iters start timeout data.
(** pwfunc.cpp 197-215 *)
Definition chainhashWithCountAndConstantSalt_bw (data : Bytes) (iters start : N) (salt : bytes) (timeout : N) :=
  bytes_chain_w (Some (fun s => salt ++ to_string s)) (lenN salt + 20) (lenN salt + 20) iters start timeout data.
(** pwfunc.cpp 217-235 *)
Definition chainhashWithQuadraticCountSalt_bw (data : Bytes) (iters start a b c timeout : N) :=
  bytes_chain_w (Some (fun s => to_string (quad a b c s))) 20 20 iters start timeout data.

(** performChainHash on Bytes: chainhash_modes.cpp 61-93 *)
Definition performChainHash_bw (c : chainhash) (data : Bytes) (timeout : N) : logged chres :=
  mode <=- quiet (ch_getMode c) ;;
  match mode with
  | 1 => it <=- quiet (ch_getIters c) ;; chainhash_bw data it timeout
  | 2 => s <=- quiet (partOf c "S") ;; it <=- quiet (ch_getIters c) ;;
         chainhashWithConstantSalt_bw data it (bytesToString s) timeout
  | 3 => n <=- quiet (partNum c "SN") ;; it <=- quiet (ch_getIters c) ;;
         chainhashWithCountSalt_bw data it n timeout
  | 4 => n <=- quiet (partNum c "SN") ;; s <=- quiet (partOf c "S") ;; it <=- quiet (ch_getIters c) ;;
         chainhashWithCountAndConstantSalt_bw data it n (bytesToString s) timeout
  | 5 => n <=- quiet (partNum c "SN") ;; x <=- quiet (partNum c "A") ;; y <=- quiet (partNum c "B") ;; z <=- quiet (partNum c "C") ;;
         it <=- quiet (ch_getIters c) ;; chainhashWithQuadraticCountSalt_bw data it n x y z timeout
  | _ => quiet (Throw InvalidArgument)
  end.
(** performChainHash on a string: chainhash_modes.cpp 95-127 *)
Definition performChainHash_sw (c : chainhash) (data : bytes) (timeout : N) : logged chres :=
  mode <=- quiet (ch_getMode c) ;;
  match mode with
  | 1 => it <=- quiet (ch_getIters c) ;; chainhash_sw data it timeout
  | 2 => s <=- quiet (partOf c "S") ;; it <=- quiet (ch_getIters c) ;;
         chainhashWithConstantSalt_sw data it (bytesToString s) timeout
  | 3 => n <=- quiet (partNum c "SN") ;; it <=- quiet (ch_getIters c) ;;
         chainhashWithCountSalt_sw data it n timeout
  | 4 => n <=- quiet (partNum c "SN") ;; s <=- quiet (partOf c "S") ;; it <=- quiet (ch_getIters c) ;;
         chainhashWithCountAndConstantSalt_sw data it n (bytesToString s) timeout
  | 5 => n <=- quiet (partNum c "SN") ;; x <=- quiet (partNum c "A") ;; y <=- quiet (partNum c "B") ;; z <=- quiet (partNum c "C") ;;
         it <=- quiet (ch_getIters c) ;; chainhashWithQuadraticCountSalt_sw data it n x y z timeout
  | _ => quiet (Throw InvalidArgument)
  end.
End Work.

(** the try block of FILE_SELECTED::verifyPassword: api.cpp 437-486 *)
Definition checkPassword_w (w : world) (d : dheader) (pw : bytes) (timeout : N) : logged (errcode + Bytes) :=
  p <=~ quiet (lift (getDataHeaderParts d)) ;;
  hm <=~ quiet (lift (p_getHashMode p)) ;;
  h <=~ quiet (lift (getHash (w_hashes w) hm)) ;;
  r1 <=~ lift_w (performChainHash_sw h (w_clk1 w) (p_ch1 p) pw timeout) ;;
  match r1 with
  | TimedOut => quiet (dfail ERR_TIMEOUT)
  | Done k =>
      now <=~ lift_w (peek (w64 (w_elapsed w))) ;;
      let new_timeout := sub64 timeout now in
      if negb (timeout =? 0) && (new_timeout =? 0) then quiet (dfail ERR_TIMEOUT)
      else
        r2 <=~ lift_w (performChainHash_bw h (w_clk2 w) (p_ch2 p) k new_timeout) ;;
        match r2 with
        | TimedOut => quiet (dfail ERR_TIMEOUT)
        | Done v =>
            pv <=~ quiet (lift (p_getValid p)) ;;
            if eqBytes v pv then quiet (dret (copyBytes k)) else quiet (dfail ERR_PASSWORD_INVALID)
        end
  end.
(** FILE_SELECTED::verifyPassword: api.cpp 431-493 (noexcept) *)
Definition verifyPassword_w (w : world) (a : api) (pw : bytes) (timeout : N) : logged (api * reply) :=
  noexcept_w (
    d <=- quiet (ptr (a_dh a)) ;;
    r <=- (let m := checkPassword_w w d pw timeout in (fst m, catch_std ERR (snd m))) ;;
    match r with
    | inl c => quiet (Ret (a, failed c))
    | inr k => quiet (Ret (mkApi PASSWORD_VERIFIED (a_mode a) (a_fdata a) k (a_enc a) (a_dh a) (a_file a), ROk))
    end).

(** _createDataHeaderIters: api.cpp 29-129 (noexcept) *)
Definition createHeaderIters_w (w : world) (mode : N) (pw : bytes) (ds : dhsettings) (timeout : N) : logged (errcode + (dheader * Bytes)) :=
  noexcept_w (
    if negb (set_isComplete ds) then quiet (dfail ERR_DATAHEADERSETTINGS_INCOMPLETE)
    else
      fm <=~ quiet (lift (set_get (s_fmode ds))) ;;
      if negb (fm =? mode) then quiet (dfail ERR_FILEMODE_INVALID)
      else
        cs <=~ quiet (try_ (any_std ERR) (newChains w ds)) ;;
        p <=~ quiet (lift (p_setFileDataMode fm (mkParts None None None None (s_dec ds) (s_enc ds) (fst cs) (snd cs)))) ;;
        hm <=~ quiet (lift (set_get (s_hmode ds))) ;;
        p <=~ quiet (lift (p_setHashMode hm p)) ;;
        h <=~ quiet (lift (getHash (w_hashes w) hm)) ;;
        r1 <=~ lift_w (performChainHash_sw h (w_clk1 w) (p_ch1 p) pw timeout) ;;
        match r1 with
        | TimedOut => quiet (dfail ERR_TIMEOUT)
        | Done k =>
            now <=~ lift_w (peek (w64 (w_elapsed w))) ;;
            t <=~ quiet (if timeout =? 0 then dret 0
                         else if timeout <=? now then dfail ERR_TIMEOUT
                         else dret (sub64 timeout now)) ;;
            r2 <=~ lift_w (performChainHash_bw h (w_clk2 w) (p_ch2 p) k t) ;;
            match r2 with
            | TimedOut => quiet (dfail ERR_TIMEOUT)
            | Done v =>
                p <=~ quiet (lift (p_setValid v p)) ;;
                salt <=~ quiet (lift (fillrandom (w_rnd w 2) (mkBytes [] (hsize h)))) ;;
                p <=~ quiet (lift (p_setSalt salt p)) ;;
                d <=~ quiet (setHeaderParts (w_rnd w 3) p) ;;
                quiet (dret (d, copyBytes k))
            end
        end).

(** a call of the API object; calls other than verifyPassword and createDataHeader with iterations are not recorded *)
Definition step_w (w : world) (a : api) (f : fs) (o : op) : list event * (fs * outcome (api * reply)) :=
  match o, a_state a with
  | OVerify pw t, FILE_SELECTED => let m := verifyPassword_w w a pw t in (fst m, (f, snd m))
  | OHeader pw ds t, EMPTY_FILE_SELECTED =>
      if negb (set_isComplete ds) then ([], step w a f o)
      else let m := createHeaderIters_w w (a_mode a) pw ds t in (fst m, (f, noexcept (headerEmpty a (snd m))))
  | OHeader pw ds t, DECRYPTED =>
      if negb (set_isComplete ds) then ([], step w a f o)
      else let m := createHeaderIters_w w (a_mode a) pw ds t in (fst m, (f, noexcept (headerDecrypted a (snd m))))
  | _, _ => ([], step w a f o)
  end.
