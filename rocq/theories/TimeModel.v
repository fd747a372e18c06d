(** The part of _createDataHeaderTime that comes after the statement at which the function always dies.
    No run reaches it; it is modelled to see what would happen if that statement were mended. *)
From Verif Require Import Base BytesModel CipherModel ChModel HeaderModel FileModel ApiModel.
(** getChainHashData()->getLen() of a time-based chain hash: chainhash_modes.h 283-290, chainhash_data.cpp 70-73 *)
Definition ct_dataLen (c : chtimed) : outcome N := p <- ct_getData c ;; x <- deref p ;; Ret (cd_len x).
(** the chain hashes of a new header, the try block of _createDataHeaderTime: api.cpp 156-169 *)
Definition newChainsTimed (w : world) (ds : dhsettings) : outcome (chtimed * chtimed) :=
  m1 <- set_get (s_ch1 ds) ;; f1 <- newFormat m1 ;;
  m2 <- set_get (s_ch2 ds) ;; f2 <- newFormat m2 ;;
  d1 <- cd_generate (w_rnd w 0) (newChd f1) ;;
  d2 <- cd_generate (w_rnd w 1) (newChd f2) ;;
  t1 <- set_get (s_n1 ds) ;; x1 <- newChainHashTimed m1 t1 (Some d1) ;; c1 <- ct_assign ct_default x1 ;;
  t2 <- set_get (s_n2 ds) ;; x2 <- newChainHashTimed m2 t2 (Some d2) ;; c2 <- ct_assign ct_default x2 ;;
  l1 <- ct_dataLen c1 ;; l2 <- ct_dataLen c2 ;;
  if negb (l1 =? cd_len d1) || negb (l2 =? cd_len d2) then Throw LogicError else Ret (c1, c2).
(** _createDataHeaderTime from line 142 on: api.cpp 142-221 (noexcept), as though line 140 had made a helper.
    [clks1] and [clks2] are the clocks of the two chain hashes.  performChainHash is not noexcept and has no
    failed result of its own, so the branches of 185-194 and 201-210 are never taken. *)
Definition headerTimeRest (w : world) (clks1 clks2 : nat -> nat -> N) (fuel : nat) (mode : N) (pw : bytes) (ds : dhsettings)
  : dres (dheader * Bytes) :=
  noexcept (
    fm <~ lift (set_get (s_fmode ds)) ;;
    if negb (fm =? mode) then dfail ERR_FILEMODE_INVALID
    else
      '(c1, c2) <~ try_ (any_std ERR) (newChainsTimed w ds) ;;
      p <~ lift (p_setFileDataMode fm (mkParts None None None None (s_dec ds) (s_enc ds) ch_default ch_default)) ;;
      hm <~ lift (set_get (s_hmode ds)) ;;
      p <~ lift (p_setHashMode hm p) ;;
      h <~ lift (getHash (w_hashes w) hm) ;;
      '(x1, k) <~ lift (performTimed_s h clks1 fuel c1 pw) ;;
      a1 <~ lift (ch_assign ch_default x1) ;;
      '(x2, v) <~ lift (performTimed_b h clks2 fuel c2 k) ;;
      a2 <~ lift (ch_assign ch_default x2) ;;
      p <~ lift (p_setValid v (mkParts (p_hmode p) (p_fmode p) (p_valid p) (p_salt p) (p_dec p) (p_enc p) a1 a2)) ;;
      salt <~ lift (fillrandom (w_rnd w 2) (mkBytes [] (hsize h))) ;;
      p <~ lift (p_setSalt salt p) ;;
      d <~ setHeaderParts (w_rnd w 3) p ;;
      dret (d, copyBytes k)).
