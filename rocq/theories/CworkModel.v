(** The work of encryptData and getDecryptedData: the functions of CipherModel and ApiModel that compute digests
    outside the chain hashes, with a record of the digests, in order (events of WorkModel).

    Citations: include/blockchain.h, src/blockchain*.cpp, src/block*.cpp, src/api.cpp.  A digest is recorded with its
    input ([hash->hash(..)]).  These functions read no timer.  [calcHeaderBytes] is called without a password hash here
    (api.cpp 594) and computes no digest then (dataheader.cpp 185); it is not recorded. *)
From Coq Require Import Strings.String.
From Verif Require Import Base BytesModel MiscModel CipherModel PwModel ChModel HeaderModel FileModel ApiModel WorkModel.
Open Scope N_scope.
Open Scope list_scope.

(** SaltIterator::next: blockchain.h 69-95 *)
Definition si_next_w (si : saltiter) (last_block_hash : Bytes) : logged (Bytes * saltiter) :=
  let h := si_obj si in
  lbh <=- quiet (if si_first si
                 then setBytes (repeat x00 (N.to_nat (hsize h))) last_block_hash
                 else Ret last_block_hash) ;;
  if negb (getLen lbh =? hsize h) then quiet (Throw InvalidArgument)
  else if negb (si_ready si) then quiet (Throw RuntimeError)
  else
    t1 <=- quiet (plusBytes (si_hash si) (si_salt si)) ;;
    t2 <=- quiet (plusBytes t1 lbh) ;;
    hash' <=- hash_w h (bdata t2) 0 ;;
    t3 <=- quiet (plusBytes hash' (si_salt si)) ;;
    t4 <=- quiet (plusBytes t3 lbh) ;;
    salt' <=- hash_w h (bdata t4) 0 ;;
    t5 <=- quiet (plusBytes hash' salt') ;;
    r <=- hash_w h (bdata t5) 0 ;;
    quiet (Ret (r, mkSI (si_ready si) false hash' salt' h)).

(** EncryptBlock::addData: block_encrypt.cpp 5-25; DecryptBlock::addData: block_decrypt.cpp 5-25 *)
Definition blk_addData_w (k : kind) (d : Bytes) (b : block) : logged block :=
  if blk_free b <? getLen d then quiet (Throw LengthError)
  else
    data1 <=- quiet (addcopyToBytes d (blk_data b)) ;;
    let b1 := mkBlock (blk_len b) data1 (blk_salt b) (blk_dec_hash b) (blk_obj b) in
    if blk_free b1 =? 0 then
      if negb (getLen (blk_dec_hash b1) =? 0) then quiet (Ret b1)
      else
        match k with
        | Enc =>
            dh <=- hash_w (blk_obj b) (bdata data1) 0 ;;
            data2 <=- quiet (plusBytes data1 (blk_salt b)) ;;
            quiet (Ret (mkBlock (blk_len b) data2 (blk_salt b) dh (blk_obj b)))
        | Dec =>
            data2 <=- quiet (minusBytes data1 (blk_salt b)) ;;
            dh <=- hash_w (blk_obj b) (bdata data2) 0 ;;
            quiet (Ret (mkBlock (blk_len b) data2 (blk_salt b) dh (blk_obj b)))
        end
    else quiet (Ret b1).

(** addBlock: blockchain_encrypt.cpp 5-29, blockchain_decrypt.cpp 5-29 *)
Definition addBlock_w (c : chain) : logged (bool * chain) :=
  if negb (c_free c =? 0) then quiet (Ret (false, c))
  else
    x <=- match c_cur c with
          | Some b =>
              bh <=- quiet (blk_getHash b) ;;
              n <=- si_next_w (c_si c) bh ;;
              r <=- quiet (blk_getResult (c_kind c) b) ;;
              match c_res c with
              | None => quiet (Crash Undefined)
              | Some res => res' <=- quiet (addcopyToBytes r res) ;; quiet (Ret (fst n, snd n, Some res'))
              end
          | None =>
              n <=- si_next_w (c_si c) next_default ;;
              quiet (Ret (fst n, snd n, c_res c))
          end ;;
    nb <=- quiet (new_block (si_obj (snd (fst x))) (fst (fst x))) ;;
    quiet (Ret (true, mkChain (c_kind c) (Some nb) (snd x) (snd (fst x)) (c_hs c) (c_height c))).

(** loop of addData(const Bytes&) and addData(unique_ptr<Bytes>&&): blockchain.cpp 18-29, 60-71 *)
Fixpoint addData_loop_w (fuel : nat) (data : Bytes) (written : N) (c : chain) : logged chain :=
  match fuel with
  | O => quiet OutOfFuel
  | S f =>
      let e := Z.to_N ((Z.of_N written + piece c (getLen data) written) mod Z.of_N two64)%Z in
      part <=- quiet (copySubBytes written e data) ;;
      let written' := w64 (written + getLen part) in
      match c_cur c with
      | None => quiet (Crash Undefined)
      | Some b =>
          b' <=- blk_addData_w (c_kind c) part b ;;
          if written' <? getLen data then
            x <=- addBlock_w (set_cur c b') ;;
            addData_loop_w f data written' (snd x)
          else quiet (Ret (set_cur c b'))
      end
  end.
(** loop of addData(ifstream&&, stream_len): blockchain.cpp 37-52 *)
Fixpoint addStream_loop_w (fuel : nat) (s : bytes) (total written : N) (c : chain) : logged chain :=
  match fuel with
  | O => quiet OutOfFuel
  | S f =>
      part0 <=- quiet (newBytes (piece c total written)) ;;
      match readExact (bmax part0) s with
      | None => quiet (Throw RuntimeError)
      | Some (got, s') =>
          let part := mkBytes got (bmax part0) in
          let written' := w64 (written + getLen part) in
          match c_cur c with
          | None => quiet (Crash Undefined)
          | Some b =>
              b' <=- blk_addData_w (c_kind c) part b ;;
              if written' <? total then
                x <=- addBlock_w (set_cur c b') ;;
                addStream_loop_w f s' total written' (snd x)
              else quiet (Ret (set_cur c b'))
          end
      end
  end.
(** common start of the overloads: blockchain.cpp 15-16, 34-35, 57-58 *)
Definition addData_start_w (c : chain) (n : N) : logged chain :=
  match c_res c with
  | None => quiet (Crash Undefined)
  | Some r =>
      let c1 := mkChain (c_kind c) (c_cur c) (Some (addSize n r)) (c_si c) (c_hs c) (c_height c) in
      match c_cur c1 with
      | None => x <=- addBlock_w c1 ;; quiet (Ret (snd x))
      | Some _ => quiet (Ret c1)
      end
  end.
(** addData(unique_ptr<Bytes>&&) and addData(ifstream&&, stream_len): blockchain.cpp 56-73, 33-54 *)
Definition addData_w (fuel : nat) (data : Bytes) (c : chain) : logged chain :=
  c1 <=- addData_start_w c (getLen data) ;; addData_loop_w fuel data 0 c1.
Definition addStream_w (fuel : nat) (s : bytes) (total : N) (c : chain) : logged chain :=
  c1 <=- addData_start_w c total ;; addStream_loop_w fuel s total 0 c1.

(** PASSWORD_VERIFIED::getDecryptedData: api.cpp 550-571 (noexcept) *)
Definition try_w {A} (f : exn -> option errcode) (m : logged A) : logged (errcode + A) := (fst m, try_ f (snd m)).
Definition decryptBody_w (w : world) (a : api) (f : fs) : logged Bytes :=
  d <=- quiet (ptr (a_dh a)) ;;
  p <=- quiet (getDataHeaderParts d) ;; hm <=- quiet (p_getHashMode p) ;; h <=- quiet (getHash (w_hashes w) hm) ;;
  s <=- quiet (p_getSalt p) ;;
  c <=- quiet (new_chain Dec h (a_key a) s) ;;
  x <=- quiet (ptr (a_file a)) ;;
  c <=- addStream_w (w_fuel w) (fh_dataStream w f x) (fh_dataSize x) c ;;
  r <=- quiet (getResult c) ;; quiet (Ret (fst r)).
Definition getDecryptedData_w (w : world) (a : api) (f : fs) : logged (api * reply) :=
  noexcept_w (
    r <=- try_w (any_std ERR) (decryptBody_w w a f) ;;
    quiet (match r with
           | inl c => Ret (a, failed c)
           | inr res => Ret (mkApi DECRYPTED (a_mode a) None (a_key a) (a_enc a) (a_dh a) (a_file a), RData (mkFD (Some (a_mode a)) (Some res)))
           end)).
(** DECRYPTED::encryptData: api.cpp 573-613 (noexcept) *)
Definition encryptBody_w (w : world) (key : Bytes) (data : Bytes) (d : dheader) : logged Bytes :=
  p <=- quiet (getDataHeaderParts d) ;; hm <=- quiet (p_getHashMode p) ;; h <=- quiet (getHash (w_hashes w) hm) ;;
  s <=- quiet (p_getSalt p) ;;
  c <=- quiet (new_chain Enc h key s) ;;
  c <=- addData_w (w_fuel w) data c ;;
  r <=- quiet (getResult c) ;; quiet (Ret (fst r)).
Definition encryptData_w (w : world) (a : api) (x : option filedata) : logged (api * reply) :=
  noexcept_w (
    x <=- quiet (ptr x) ;;
    match fd_mode x with
    | None => quiet (Ret (a, failed ERR_FILEDATASTRUCT_INCOMPLETE))
    | Some m =>
        if negb (m =? a_mode a) then quiet (Ret (a, failed ERR_FILEMODE_INVALID))
        else
          data <=- quiet (ptr (fd_data x)) ;;
          d <=- quiet (ptr (a_dh a)) ;;
          r <=- quiet (try_ (any_std ERR) (setDataSize (getLen data) d)) ;;
          match r with
          | inl c => quiet (Ret (a, failed c))
          | inr d1 =>
              let '(d2, r) := calcHeaderBytes (w_hashes w) (w_clk1 w) (mkBytes [] 0) d1 in
              r <=- try_w (any_std ERR) (_ <=- quiet r ;; encryptBody_w w (a_key a) data d2) ;;
              quiet (match r with
                     | inl c => Ret (mkApi (a_state a) (a_mode a) (a_fdata a) (a_key a) (a_enc a) (Some d2) (a_file a), failed c)
                     | inr res => Ret (mkApi ENCRYPTED (a_mode a) (Some (mkFD (Some m) None)) (a_key a) (Some res) (Some d2) (a_file a), ROk)
                     end)
          end
    end).

(** a call of the API object with all the digests it computes; the calls that are not mentioned here or in [step_w] compute none *)
Definition step_c (w : world) (a : api) (f : fs) (o : op) : list event * (fs * outcome (api * reply)) :=
  match o, a_state a with
  | ODecrypt, PASSWORD_VERIFIED => let m := getDecryptedData_w w a f in (fst m, (f, snd m))
  | OEncrypt x, DECRYPTED => let m := encryptData_w w a x in (fst m, (f, snd m))
  | _, _ => step_w w a f o
  end.
