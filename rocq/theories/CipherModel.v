(** Model of the block cipher: SaltIterator, Block, BlockChain, BlockChainStream.
    Sources: include/blockchain.h, src/blockchain*.cpp, src/block*.cpp,
    include/blockchain_stream.h, src/blockchain_stream*.cpp, include/hash.h. *)
From Verif Require Import Base BytesModel.

(** A [Hash] object: its digest size and digest function (include/hash.h 5-17).
    The digest functions of OpenSSL are not modelled; their output length is a
    hypothesis of the theorems. *)
Record hashfn := mkHash { hsize : N; hfun : bytes -> bytes }.

(** sha256::hash (both overloads): src/sha256.cpp 7-20 (same code in sha384/sha512):
    [extra_space] is a u_int32_t and [getHashSize() + extra_space] is computed in u_int32_t;
    the digest is written into a buffer of that size. *)
Definition do_hash (h : hashfn) (x : bytes) (extra : N) : outcome Bytes :=
  let cap := w32 (hsize h + w32 extra) in
  if cap <? hsize h then Crash Undefined       (* digest written past the buffer *)
  else Ret (mkBytes (hfun h x) cap).

(** ** SaltIterator: include/blockchain.h 30-96 *)
Record saltiter := mkSI {
  si_ready : bool; si_first : bool; si_hash : Bytes; si_salt : Bytes; si_obj : hashfn }.

(** init: blockchain.h 50-68 (non-null hash object) *)
Definition si_init (pwhash enc_salt : Bytes) (h : hashfn) : outcome saltiter :=
  if negb (getLen pwhash =? hsize h) then Throw InvalidArgument
  else if negb (getLen enc_salt =? hsize h) then Throw InvalidArgument
  else Ret (mkSI true true (copyBytes pwhash) (copyBytes enc_salt) h).

(** next: blockchain.h 69-95.  The argument is the value of [last_block_hash]
    (the default argument there is [Bytes(255)]). *)
Definition si_next (si : saltiter) (last_block_hash : Bytes) : outcome (Bytes * saltiter) :=
  let h := si_obj si in
  lbh <- (if si_first si
          then setBytes (repeat x00 (N.to_nat (hsize h))) last_block_hash
          else Ret last_block_hash) ;;
  if negb (getLen lbh =? hsize h) then Throw InvalidArgument
  else if negb (si_ready si) then Throw RuntimeError
  else
    t1 <- plusBytes (si_hash si) (si_salt si) ;;
    t2 <- plusBytes t1 lbh ;;
    hash' <- do_hash h (bdata t2) 0 ;;
    t3 <- plusBytes hash' (si_salt si) ;;
    t4 <- plusBytes t3 lbh ;;
    salt' <- do_hash h (bdata t4) 0 ;;
    t5 <- plusBytes hash' salt' ;;
    r <- do_hash h (bdata t5) 0 ;;
    Ret (r, mkSI (si_ready si) false hash' salt' h).

(** default argument of [next]: blockchain.h 69 *)
Definition next_default : Bytes := mkBytes [] 255.

(** ** Block: src/block.cpp, include/block.h *)
Inductive kind := Enc | Dec.

Record block := mkBlock {
  blk_len : N; blk_data : Bytes; blk_salt : Bytes; blk_dec_hash : Bytes; blk_obj : hashfn }.

(** Block::Block: block.cpp 8-20 *)
Definition new_block (h : hashfn) (salt : Bytes) : outcome block :=
  if hsize h =? 0 then Throw InvalidArgument
  else if negb (getLen salt =? hsize h) then Throw LengthError
  else Ret (mkBlock (hsize h) (mkBytes [] (hsize h)) (copyBytes salt) (mkBytes [] (hsize h)) h).

(** Block::getFreeSpace: block.cpp 22-25 *)
Definition blk_free (b : block) : N := sub64 (blk_len b) (getLen (blk_data b)).

(** Block::getHash: block.cpp 27-41 *)
Definition blk_getHash (b : block) : outcome Bytes :=
  if negb (blk_free b =? 0) then Throw LengthError
  else if getLen (blk_dec_hash b) =? 0 then Throw LengthError
  else Ret (copyBytes (blk_dec_hash b)).

(** EncryptBlock::addData: block_encrypt.cpp 5-25; DecryptBlock::addData: block_decrypt.cpp 5-25 *)
Definition blk_addData (k : kind) (d : Bytes) (b : block) : outcome block :=
  if blk_free b <? getLen d then Throw LengthError
  else
    data1 <- addcopyToBytes d (blk_data b) ;;
    let b1 := mkBlock (blk_len b) data1 (blk_salt b) (blk_dec_hash b) (blk_obj b) in
    if blk_free b1 =? 0 then
      if negb (getLen (blk_dec_hash b1) =? 0) then Ret b1
      else
        match k with
        | Enc =>
            dh <- do_hash (blk_obj b) (bdata data1) 0 ;;
            data2 <- plusBytes data1 (blk_salt b) ;;
            Ret (mkBlock (blk_len b) data2 (blk_salt b) dh (blk_obj b))
        | Dec =>
            data2 <- minusBytes data1 (blk_salt b) ;;
            dh <- do_hash (blk_obj b) (bdata data2) 0 ;;
            Ret (mkBlock (blk_len b) data2 (blk_salt b) dh (blk_obj b))
        end
    else Ret b1.

(** EncryptBlock::getResult: block_encrypt.cpp 27-36; DecryptBlock::getResult: block_decrypt.cpp 27-36 (noexcept) *)
Definition blk_getResult (k : kind) (b : block) : outcome Bytes :=
  noexcept
    (if negb (blk_free b =? 0) then
       s <- copySubBytes 0 (getLen (blk_data b)) (blk_salt b) ;;
       match k with
       | Enc => plusBytes (blk_data b) s
       | Dec => minusBytes (blk_data b) s
       end
     else Ret (copyBytes (blk_data b))).

(** ** BlockChain: src/blockchain.cpp, include/blockchain.h 97-128 *)
Record chain := mkChain {
  c_kind : kind;                 (* EncryptBlockChain or DecryptBlockChain *)
  c_cur : option block;          (* current_block, None = nullptr *)
  c_res : option Bytes;          (* result, None = moved out *)
  c_si : saltiter;
  c_hs : N;                      (* hash_size *)
  c_height : N }.                (* chain_height, initialised to 0 *)

(** BlockChain::BlockChain: blockchain.cpp 7-12 *)
Definition new_chain (k : kind) (h : hashfn) (pwhash enc_salt : Bytes) : outcome chain :=
  si <- si_init pwhash enc_salt h ;;
  Ret (mkChain k None (Some (mkBytes [] 0)) si (hsize h) 0).

(** getFreeSpaceInLastBlock: blockchain.cpp 82-88 (returns unsigned char) *)
Definition c_free (c : chain) : N :=
  match c_cur c with Some b => w8 (blk_free b) | None => 0 end.

(** addBlock: blockchain_encrypt.cpp 5-29, blockchain_decrypt.cpp 5-29 *)
Definition addBlock (c : chain) : outcome (bool * chain) :=
  if negb (c_free c =? 0) then Ret (false, c)
  else
    '(salt, si, res) <-
       match c_cur c with
       | Some b =>
           bh <- blk_getHash b ;;
           '(salt, si) <- si_next (c_si c) bh ;;
           r <- blk_getResult (c_kind c) b ;;
           match c_res c with
           | None => Crash Undefined
           | Some res => res' <- addcopyToBytes r res ;; Ret (salt, si, Some res')
           end
       | None =>
           '(salt, si) <- si_next (c_si c) next_default ;;
           Ret (salt, si, c_res c)
       end ;;
    nb <- new_block (si_obj si) salt ;;
    Ret (true, mkChain (c_kind c) (Some nb) res si (c_hs c) (c_height c)).

(** the size of the next piece: [std::min<int>(getFreeSpaceInLastBlock(), total - written)] *)
Definition piece (c : chain) (total written : N) : Z :=
  Z.min (Z.of_N (c_free c)) (to_int32 (sub64 total written)).

(** body common to the loops of the three addData overloads after the piece was taken:
    blockchain.cpp 22-28, 45-51, 64-70 *)
Definition set_cur (c : chain) (b : block) : chain :=
  mkChain (c_kind c) (Some b) (c_res c) (c_si c) (c_hs c) (c_height c).

(** loop of addData(const Bytes&) and addData(unique_ptr<Bytes>&&): blockchain.cpp 18-29, 60-71 *)
Fixpoint addData_loop (fuel : nat) (data : Bytes) (written : N) (c : chain) : outcome chain :=
  match fuel with
  | O => OutOfFuel
  | S f =>
      let e := Z.to_N ((Z.of_N written + piece c (getLen data) written) mod Z.of_N two64)%Z in
      part <- copySubBytes written e data ;;
      let written' := w64 (written + getLen part) in
      match c_cur c with
      | None => Crash Undefined
      | Some b =>
          b' <- blk_addData (c_kind c) part b ;;
          if written' <? getLen data then
            '(_, c') <- addBlock (set_cur c b') ;;
            addData_loop f data written' c'
          else Ret (set_cur c b')
      end
  end.

(** common start of the overloads: result->addSize, first block: blockchain.cpp 15-16, 34-35, 57-58 *)
Definition addData_start (c : chain) (n : N) : outcome chain :=
  match c_res c with
  | None => Crash Undefined
  | Some r =>
      let c1 := mkChain (c_kind c) (c_cur c) (Some (addSize n r)) (c_si c) (c_hs c) (c_height c) in
      match c_cur c1 with
      | None => '(_, c2) <- addBlock c1 ;; Ret c2
      | Some _ => Ret c1
      end
  end.

Definition addData (fuel : nat) (data : Bytes) (c : chain) : outcome chain :=
  c1 <- addData_start c (getLen data) ;;
  addData_loop fuel data 0 c1.

(** A stream seen as the bytes not yet read.  [readExact] is the net effect of
    [readData] (utility.cpp 81-103): the loop itself is in MiscModel.v. *)
Definition readExact (n : N) (s : bytes) : option (bytes * bytes) :=
  if n <=? lenN s then Some (takeN n s, dropN n s) else None.

(** loop of addData(ifstream&&, stream_len): blockchain.cpp 37-52 *)
Fixpoint addStream_loop (fuel : nat) (s : bytes) (total written : N) (c : chain) : outcome chain :=
  match fuel with
  | O => OutOfFuel
  | S f =>
      part0 <- newBytes (piece c total written) ;;
      match readExact (bmax part0) s with
      | None => Throw RuntimeError
      | Some (got, s') =>
          let part := mkBytes got (bmax part0) in
          let written' := w64 (written + getLen part) in
          match c_cur c with
          | None => Crash Undefined
          | Some b =>
              b' <- blk_addData (c_kind c) part b ;;
              if written' <? total then
                '(_, c') <- addBlock (set_cur c b') ;;
                addStream_loop f s' total written' c'
              else Ret (set_cur c b')
          end
      end
  end.

Definition addStream (fuel : nat) (s : bytes) (total : N) (c : chain) : outcome chain :=
  c1 <- addData_start c total ;;
  addStream_loop fuel s total 0 c1.

(** getResult: blockchain.cpp 75-80; the result is moved out of the chain *)
Definition getResult (c : chain) : outcome (Bytes * chain) :=
  match c_cur c with
  | None => Crash Undefined
  | Some b =>
      r <- blk_getResult (c_kind c) b ;;
      match c_res c with
      | None => Crash Undefined
      | Some res =>
          res' <- addcopyToBytes r res ;;
          Ret (res', mkChain (c_kind c) (c_cur c) None (c_si c) (c_hs c) (c_height c))
      end
  end.

(** getHeight, getDataSize: blockchain.h 125-128 *)
Definition getHeight (c : chain) : N := c_height c.
Definition getDataSize (c : chain) : N := sub64 (w64 (c_height c * c_hs c)) (c_free c).

(** One call of an overload; [fuel] rounds allowed. *)
Inductive chunk :=
| ByRef (d : bytes)               (* addData(const Bytes&) *)
| ByPtr (d : bytes)               (* addData(std::unique_ptr<Bytes>&&) *)
| ByStream (d rest : bytes).      (* addData(ifstream&&, len) with [len = lenN d] and the stream holding [d ++ rest] *)

Definition chunk_data (x : chunk) : bytes :=
  match x with ByRef d => d | ByPtr d => d | ByStream d _ => d end.

Definition addChunk (fuel : nat) (x : chunk) (c : chain) : outcome chain :=
  match x with
  | ByRef d => addData fuel (fromArray d) c
  | ByPtr d => addData fuel (fromArray d) c
  | ByStream d rest => addStream fuel (d ++ rest) (lenN d) c
  end.

Fixpoint addChunks (fuel : nat) (xs : list chunk) (c : chain) : outcome chain :=
  match xs with
  | [] => Ret c
  | x :: r => c' <- addChunk fuel x c ;; addChunks fuel r c'
  end.

(** construct a chain, feed it, take the result *)
Definition run_chain (fuel : nat) (k : kind) (h : hashfn) (pwhash enc_salt : Bytes) (xs : list chunk) : outcome bytes :=
  c <- new_chain k h pwhash enc_salt ;;
  c' <- addChunks fuel xs c ;;
  '(r, _) <- getResult c' ;;
  Ret (bdata r).

(** ** BlockChainStream: include/blockchain_stream.h, src/blockchain_stream.cpp,
    src/blockchain_stream_encrypt.cpp 5-28 (decrypt is the same with DecryptBlock) *)
Record schain := mkSChain { s_kind : kind; s_cur : option block; s_si : saltiter; s_hs : N }.

(** BlockChainStream::BlockChainStream: blockchain_stream.cpp 3-6 *)
Definition new_schain (k : kind) (h : hashfn) (pwhash enc_salt : Bytes) : outcome schain :=
  si <- si_init pwhash enc_salt h ;; Ret (mkSChain k None si (hsize h)).

(** default argument of its [next]: blockchain_stream.h 72 *)
Definition stream_next_default : Bytes := mkBytes [] 0.

Definition s_free (c : schain) : N :=
  match s_cur c with Some b => blk_free b | None => 0 end.

(** setBlock: blockchain_stream_encrypt.cpp 5-28 (noexcept) *)
Definition setBlock (c : schain) : outcome (bool * schain) :=
  noexcept
    (if negb (s_free c =? 0) then Ret (false, c)
     else
       '(salt, si) <-
          match s_cur c with
          | Some b => bh <- blk_getHash b ;; si_next (s_si c) bh
          | None => si_next (s_si c) stream_next_default
          end ;;
       nb <- new_block (si_obj si) salt ;;
       Ret (true, mkSChain (s_kind c) (Some nb) si (s_hs c))).

(** enc_stream: blockchain_stream.cpp 8-37 (noexcept).  [reads] are the results
    of the successive readsome calls, [more] says whether peek() <> EOF after each.
    The result is the list of bytes written to [out]; a partially filled block makes
    [copySubBytes(written, hash_size)] throw. *)
Fixpoint enc_stream_loop (bd : build) (inp : list (bytes * bool)) (out : bytes) (c : schain) : outcome (bytes * schain) :=
  match inp with
  | [] => OutOfFuel
  | (got, more) :: r =>
      let written := sub64 (s_hs c) (s_free c) in
      match s_cur c with
      | None => Crash Undefined
      | Some b =>
          b' <- blk_addData (s_kind c) (fromArray got) b ;;
          res <- blk_getResult (s_kind c) b' ;;
          o <- copySubBytes written (s_hs c) res ;;
          let c1 := mkSChain (s_kind c) (Some b') (s_si c) (s_hs c) in
          if more then
            assertC bd (s_free c1 =? 0)
              ('(_, c2) <- setBlock c1 ;; enc_stream_loop bd r (out ++ bdata o) c2)
          else Ret (out ++ bdata o, c1)
      end
  end.

Definition enc_stream (bd : build) (inp : list (bytes * bool)) (c : schain) : outcome (bytes * schain) :=
  noexcept
    (c1 <- (match s_cur c with
            | None => '(_, c1) <- setBlock c ;; Ret c1
            | Some _ => if s_free c =? 0 then '(_, c1) <- setBlock c ;; Ret c1 else Ret c
            end) ;;
     enc_stream_loop bd inp [] c1).
