(** The project's own header tests, run on the model: tests/dataheader_unittest.cpp and
    tests/filehandler_unittest.cpp.  The loops over random choices of the tests run here over all hash
    modes and all pairs of chain hash modes; random bytes are [rand i n]; the digests are those of Sha2.v.
    A test returns the labels (line numbers) of the checks that failed. *)
From Coq Require Import Strings.String.
From Verif Require Import Base BytesModel CipherModel PwModel ChModel MiscModel HeaderModel FileModel Sha2 TestLib.
Open Scope N_scope.

Definition no_clock : nat -> N := fun _ => 0.
(** the tests of a list of cases, one after the other *)
Fixpoint all_of {A} (t : A -> outcome (list N)) (l : list A) : outcome (list N) :=
  match l with [] => Ret [] | x :: r => a <- t x ;; b <- all_of t r ;; Ret (a ++ b)%list end.
Definition expect_eq (label a b : N) (rest : outcome (list N)) : outcome (list N) := expect label (a =? b) rest.
(** calcHeaderBytes as a statement: the new object, and the check that it did not throw *)
Definition calc (pwhash : Bytes) (d : dheader) : outcome dheader :=
  let '(d', r) := calcHeaderBytes sha2 no_clock pwhash d in _ <- r ;; Ret d'.

(** dataheader_unittest.cpp 12-38 *)
Definition header_constructor : outcome (list N) :=
  a <- all_of (fun m =>
         d <- newDataHeader (rand 1) m ;; expect_eq 27 (d_hsize d) (hash_size_of m) (Ret [])) [1; 2; 3] ;;
  b <- all_of (fun m => expect 24 (throws InvalidArgument (newDataHeader (rand 1) m)) (Ret []))
         [0; 4; 255; 256; 257; 4294967295; 4294967041; 4294967040] ;;
  Ret (a ++ b)%list.
Example header_constructor_passes : header_constructor = Ret [].
Proof. vm_compute. reflexivity. Qed.

(** dataheader_unittest.cpp 40-69; the standard hash mode is any *)
Definition header_file_mode : outcome (list N) :=
  d <- newDataHeader (rand 1) 1 ;;
  _ <- d_setFileDataMode 1 d ;;
  all_of (fun m => expect 53 (throws InvalidArgument (d_setFileDataMode m d)) (Ret []))
    [0; 2; 255; 256; 257; 4294967295; 4294967041; 4294967040].
Example header_file_mode_passes : header_file_mode = Ret [].
Proof. vm_compute. reflexivity. Qed.

(** dataheader_unittest.cpp 71-161 *)
Definition header_chain_hash (hm m iters : N) : outcome (list N) :=
  c <- cd_generate (rand 1) (newChd m) ;;
  expect 109 (cd_completedFormat m c) (
  ch <- newChainHash m iters (Some c) ;;
  h <- getHash sha2 hm ;;
  dh0 <- newDataHeader (rand 2) hm ;;
  let hsb := mkBytes (rand 3 (hsize h)) (hsize h) in
  dh <- setChainHash1 ch dh0 ;;
  l <- getHeaderLength dh ;;
  expect 130 (throws LogicError (getDataHeaderParts dh)) (
  expect_eq 131 0 l (
  expect 132 (throws LogicError (getHeaderBytes dh)) (
  expect 133 (throws LogicError (calc hsb dh)) (
  dh2 <- setChainHash2 ch dh0 ;;
  l <- getHeaderLength dh2 ;;
  expect 139 (throws LogicError (getDataHeaderParts dh2)) (
  expect_eq 140 0 l (
  expect 141 (throws LogicError (getHeaderBytes dh2)) (
  expect 142 (throws LogicError (calc hsb dh2)) (
  dh2 <- setChainHash1 ch dh2 ;;
  l <- getHeaderLength dh2 ;;
  expect 148 (throws LogicError (getDataHeaderParts dh2)) (
  expect_eq 149 (40 + 2 * hsize h + 2 * cd_len c) l (
  expect 150 (throws LogicError (getHeaderBytes dh2)) (
  expect 151 (throws LogicError (calc hsb dh2)) (
  expect 153 (throws InvalidArgument (newChainHash (m + two32 - 255) iters (Some c))) (
  expect 154 (throws InvalidArgument (newChainHash (m + two32 - 256) iters (Some c))) (
  expect 155 (throws InvalidArgument (newChainHash 0 iters (Some c))) (
  expect 156 (throws InvalidArgument (newChainHash (two32 - 1) iters (Some c))) (
  Ret []))))))))))))))))).
Definition modes : list (N * N) :=
  list_prod [1; 2; 3] [1; 2; 3; 4; 5].
Example header_chain_hash_passes : all_of (fun p => header_chain_hash (fst p) (snd p) 123456) modes = Ret [].
Proof. vm_cast_no_check (@eq_refl (outcome (list N)) (Ret [])). Qed.

(** dataheader_unittest.cpp 163-196 *)
Definition header_valid (hm : N) : outcome (list N) :=
  dh <- newDataHeader (rand 1) hm ;;
  h <- getHash sha2 hm ;;
  let tmp := mkBytes (rand 2 (hsize h)) (hsize h) in
  a <- (dh' <- setValidPasswordHashBytes tmp dh ;;
        l <- getHeaderLength dh' ;;
        expect 180 (throws LogicError (getDataHeaderParts dh')) (
        expect_eq 181 0 l (
        expect 182 (throws LogicError (getHeaderBytes dh')) (
        expect 183 (throws LogicError (calc tmp dh')) (Ret []))))) ;;
  b <- all_of (fun k => let i := N.of_nat k in
         if i =? hsize h then Ret []
         else expect 190 (throws InvalidArgument (setValidPasswordHashBytes (mkBytes (rand 3 i) i) dh)) (Ret [])) (seq 0 512) ;;
  Ret (a ++ b)%list.
Example header_valid_passes : all_of header_valid [1; 2; 3] = Ret [].
Proof. vm_cast_no_check (@eq_refl (outcome (list N)) (Ret [])). Qed.

(** dataheader_unittest.cpp 198-347 *)
Definition byte_of (b : Bytes) (from : N) : outcome N := x <- copySubBytes from (from + 1) b ;; at_ x 0.
Definition long_of (b : Bytes) (from : N) : outcome N := x <- copySubBytes from (from + 8) b ;; toLong x.
Definition header_calc (hm m1 m2 iters1 iters2 : N) : outcome (list N) :=
  dh <- newDataHeader (rand 1) hm ;;
  h <- getHash sha2 hm ;;
  let hs := hsize h in
  chd1 <- cd_generate (rand 2) (newChd m1) ;;
  chd2 <- cd_generate (rand 3) (newChd m2) ;;
  expect 243 (cd_completedFormat m1 chd1) (
  expect 244 (cd_completedFormat m2 chd2) (
  ch1 <- newChainHash m1 iters1 (Some chd1) ;;
  ch2 <- newChainHash m2 iters2 (Some chd2) ;;
  let hsb := mkBytes (rand 4 hs) hs in
  expect 252 (throws LogicError (calc hsb dh)) (
  dh <- d_setFileDataMode 1 dh ;;
  expect 257 (throws LogicError (calc hsb dh)) (
  dh <- setChainHash1 ch1 dh ;;
  expect 261 (throws LogicError (calc hsb dh)) (
  dh <- setChainHash2 ch2 dh ;;
  expect 265 (throws LogicError (calc hsb dh)) (
  r1 <- performChainHash_s h no_clock ch1 (str "qwertyuiopasdfgh") 0 ;;
  phash <- match r1 with Done b => Ret b | TimedOut => Throw LogicError end ;;
  r2 <- performChainHash_b h no_clock ch2 phash 0 ;;
  pval <- match r2 with Done b => Ret b | TimedOut => Throw LogicError end ;;
  dh2 <- setValidPasswordHashBytes (mkBytes (rand 5 hs) hs) dh ;;
  expect 280 (throws LogicError (calc (mkBytes (rand 6 hs) hs) dh2)) (
  dh3 <- setValidPasswordHashBytes pval dh ;;
  expect 285 (throws LogicError (calc (mkBytes (rand 7 hs) hs) dh2)) (
  dh4 <- setValidPasswordHashBytes (mkBytes (rand 8 hs) hs) dh ;;
  expect 290 (throws LogicError (calc phash dh4)) (
  let dh0 := dh in
  dh <- setValidPasswordHashBytes pval dh ;;
  expect 294 (throws LogicError (calc phash dh)) (
  dh <- setFileSize 100000 dh ;;
  dh <- calc phash dh ;;
  expect 304 (throws LogicError (getHeaderBytes dh2)) (
  expect 305 (throws LogicError (getHeaderBytes dh3)) (
  expect 306 (throws LogicError (getHeaderBytes dh4)) (
  hb <- getHeaderBytes dh ;;
  dp <- getDataHeaderParts dh ;;
  let l1 := cd_len chd1 in let l2 := cd_len chd2 in
  let total := 40 + 2 * hs + l1 + l2 in
  n <- getHeaderLength dh ;; n2 <- getHeaderLength dh2 ;; n3 <- getHeaderLength dh3 ;; n4 <- getHeaderLength dh4 ;;
  expect_eq 309 total n (expect_eq 310 total n2 (expect_eq 311 total n3 (expect_eq 312 total n4 (
  v <- p_getHashMode dp ;; expect_eq 315 hm v (
  v <- p_getFileDataMode dp ;; expect_eq 316 1 v (
  v <- ch_getMode (p_ch1 dp) ;; expect_eq 317 m1 v (
  v <- ch_getMode (p_ch2 dp) ;; expect_eq 318 m2 v (
  v <- ch_getIters (p_ch1 dp) ;; expect_eq 319 iters1 v (
  v <- ch_getIters (p_ch2 dp) ;; expect_eq 320 iters2 v (
  v <- ch_dataLen (p_ch1 dp) ;; expect_eq 321 l1 v (
  v <- ch_dataLen (p_ch2 dp) ;; expect_eq 322 l2 v (
  x <- ch_getData (p_ch1 dp) ;; x <- deref x ;; expect 323 (cd_eqb chd1 x) (
  x <- ch_getData (p_ch2 dp) ;; x <- deref x ;; expect 324 (cd_eqb chd2 x) (
  x <- p_getValid dp ;; expect 325 (eqBytes pval x) (
  expect_eq 328 total (getLen hb) (
  v <- long_of hb 0 ;; expect_eq 329 100000 v (
  v <- long_of hb 8 ;; expect_eq 330 (getLen hb) v (
  v <- byte_of hb 16 ;; expect_eq 331 1 v (
  v <- byte_of hb 17 ;; expect_eq 332 hm v (
  v <- byte_of hb 18 ;; expect_eq 333 0 v (
  v <- byte_of hb 19 ;; expect_eq 334 m1 v (
  v <- long_of hb 20 ;; expect_eq 335 iters1 v (
  v <- byte_of hb 28 ;; expect_eq 336 l1 v (
  x <- getDataBlock chd1 ;; y <- copySubBytes 29 (29 + l1) hb ;; expect 337 (eqBytes x y) (
  v <- byte_of hb (29 + l1) ;; expect_eq 338 m2 v (
  v <- long_of hb (30 + l1) ;; expect_eq 339 iters2 v (
  v <- byte_of hb (38 + l1) ;; expect_eq 340 l2 v (
  x <- getDataBlock chd2 ;; y <- copySubBytes (39 + l1) (39 + l1 + l2) hb ;; expect 341 (eqBytes x y) (
  y <- copySubBytes (39 + l1 + l2) (39 + l1 + l2 + hs) hb ;; expect 342 (eqBytes pval y) (
  x <- p_getSalt dp ;; y <- copySubBytes (39 + l1 + l2 + hs) (39 + l1 + l2 + 2 * hs) hb ;; expect 343 (eqBytes x y) (
  v <- byte_of hb (39 + l1 + l2 + 2 * hs) ;; expect_eq 344 0 v (
  dh5 <- newDataHeader (rand 9) hm ;;
  dh5 <- setChainHash1 ch1 dh5 ;; dh5 <- setChainHash2 ch2 dh5 ;;
  let dh6 := dh5 in
  dh5 <- d_setFileDataMode 1 dh5 ;;
  expect 354 (throws LogicError (calc (mkBytes (rand 10 hs) hs) dh5)) (
  dh6 <- setValidPasswordHashBytes pval dh6 ;;
  expect 356 (throws LogicError (calc phash dh6)) (
  Ret []))))))))))))))))))))))))))))))))))))))))))))))).
(** every chain hash mode as the first and as the second one, with every hash mode *)
Definition cases : list (N * (N * N)) :=
  map (fun p => (fst p, (snd p, (snd p + 2 * fst p) mod 5 + 1))) modes.
(** Evaluated whenever this file is compiled, which fails if a check does.  The Example is about the value that came
    out and so no theorem about the model; a proof takes [coqchk] too long.  One case is proved. *)
Definition header_calc_evaluated := Eval vm_compute in all_of (fun c => header_calc (fst c) (fst (snd c)) (snd (snd c)) 3 2) cases.
Example header_calc_value : header_calc_evaluated = Ret [].
Proof. reflexivity. Qed.
Example header_calc_passes : header_calc 1 4 3 1 1 = Ret [].
Proof. vm_cast_no_check (@eq_refl (outcome (list N)) (Ret [])). Qed.

(** DataHeaderGen::generateDH: tests/dataheader_generator.h 36-94; the lengths of the plain blocks and the
    number of encrypted ones are arguments, as are the chain hash modes and the lengths of their data *)
Fixpoint gen_plain (i : N) (l : list N) : bytes :=
  match l with [] => [] | n :: r => (rand (100 + i) 1 ++ [n2b n] ++ rand (200 + i) n ++ gen_plain (i + 1) r)%list end.
Fixpoint gen_enc (k : nat) : bytes :=
  match k with O => [] | S k' => (rand (300 + N.of_nat k) 257 ++ gen_enc k')%list end.
Definition generateDH (hm : N) (plain : list N) (encs : nat) (m1 l1 m2 l2 : N) : bytes :=
  let body := ([n2b 1; n2b hm; n2b (N.of_nat (length plain))] ++ gen_plain 0 plain
               ++ [n2b m1] ++ repeat x00 5 ++ rand 1 3 ++ [n2b l1] ++ rand 2 l1
               ++ [n2b m2] ++ repeat x00 5 ++ rand 3 3 ++ [n2b l2] ++ rand 4 l2
               ++ rand 5 (2 * hash_size_of hm) ++ [n2b (N.of_nat encs)] ++ gen_enc encs)%list in
  let len := be8 (16 + lenN body) in (len ++ len ++ body)%list.

(** dataheader_unittest.cpp 348-384 *)
Fixpoint add_plain (k : nat) (d : dheader) : outcome dheader :=
  match k with
  | O => Ret d
  | S k' => let i := N.of_nat k in let n := i * 37 mod 255 + 1 in
            b <- newDataBlock (i * 59 mod 256) (mkBytes (rand i n) n) ;; d' <- addDataBlock b d ;; add_plain k' d'
  end.
Fixpoint add_enc (k : nat) (d : dheader) : outcome dheader :=
  match k with
  | O => Ret d
  | S k' => let i := N.of_nat k in
            b <- createEncBlock (i * 59 mod 256) (mkBytes (rand i 255) 255) (i * 83 mod 256) ;;
            d' <- addEncDataBlock b d ;; add_enc k' d'
  end.
(** returnMove of an ErrorStruct *)
Definition move {A} (r : dres A) : outcome A := x <- r ;; match x with inr a => Ret a | inl _ => Throw RuntimeError end.
Definition header_blocks (c : N * N * (nat * nat)) : outcome (list N) :=
  let '(hm, m, (plain, encs)) := c in
  dh <- move (decode_mem Debug (rand 1) (let l := generateDH hm [] 0 m 0 m 0 in mkBytes l (lenN l))) ;;
  dh <- add_plain plain dh ;;
  dh <- add_enc encs dh ;;
  dh <- setFileSize 100000 dh ;;
  dh <- calc_plain dh ;;
  header <- getHeaderBytes dh ;;
  dh2 <- move (decode_mem Debug (rand 2) header) ;;
  dh2 <- calc_plain dh2 ;;
  b <- getHeaderBytes dh2 ;;
  expect 382 (eqBytes header b) (Ret []).
Example header_blocks_passes :
  all_of header_blocks [(1, 1, (0, 0)%nat); (1, 2, (1, 0)%nat); (2, 1, (0, 1)%nat); (2, 2, (3, 2)%nat)] = Ret [].
Proof. vm_cast_no_check (@eq_refl (outcome (list N)) (Ret [])). Qed.
(** only evaluated, as above *)
Definition header_blocks_evaluated := Eval vm_compute in all_of header_blocks [(3, 1, (255, 0)%nat); (3, 2, (40, 200)%nat)].
Example header_blocks_value : header_blocks_evaluated = Ret [].
Proof. reflexivity. Qed.

(** ** tests/filehandler_unittest.cpp on a file system that does everything it is asked to *)
Definition disk : world :=
  mkWorld (fun p => lenN p) (fun _ => true) (fun _ => true) (fun _ => true) (fun _ => true) (fun _ => true)
          (fun _ => Entries []) 1000000 (fun i => rand (N.of_nat i)) 0 no_clock no_clock sha2 Debug 100.
Definition no_files : fs := fun _ => None.
Definition a_path : path := str "qwertyuiop.enc".
Definition is_yes (r : dres unit) : bool := match r with Ret (inr tt) => true | _ => false end.
Definition is_no {A} (r : dres A) : bool := match r with Ret (inl _) => true | _ => false end.
Definition named (h : handler) : bool := eqb_bytes (fh_path h) a_path.

(** 10-18 *)
Definition file_statics : outcome (list N) :=
  let '(f, r) := fh_createFile disk no_files a_path in
  expect 11 (eqb_bytes enc_extension (str ".enc")) (
  expect 14 (is_yes (isValidPath disk no_files a_path false)) (
  expect 15 (is_yes r) (
  expect 16 (is_yes (isValidPath disk f a_path true)) (Ret [])))).
Example file_statics_passes : file_statics = Ret [].
Proof. vm_compute. reflexivity. Qed.

(** 20-69, up to update(), which the model runs in the constructor only (54: a handler made anew) *)
Definition file_empty : outcome (list N) :=
  let tmp := mkBytes (rand 1 10) 10 in
  let f := fst (fh_createFile disk no_files a_path) in
  h <- newFileHandler disk f a_path ;;
  expect 28 (named h) (
  expect 29 (fh_empty h) (
  expect_eq 32 (fh_hsize h) 0 (
  expect_eq 33 (fh_fsize h) 0 (
  expect 34 (throws LengthError (fh_getFirstBytes disk f 1 h)) (
  let '(h, f, r) := fh_getWriteStreamIfEmpty disk f h in
  expect 37 (is_yes r) (
  let f := write_stream disk f a_path (bdata tmp) in
  expect 41 (fh_empty h) (
  expect_eq 42 (fh_hsize h) 0 (
  expect_eq 43 (fh_fsize h) 0 (
  x <- fh_getFirstBytes disk f 1 h ;; y <- copySubBytes 0 1 tmp ;;
  expect 44 (eqBytes x y) (
  expect 47 (eqb_bytes (stream_of disk f a_path) (bdata tmp)) (
  expect 50 (eqb_bytes (fh_dataStream disk f h) (bdata tmp)) (
  x <- fh_getAllBytes disk f h ;; expect_eq 51 (getLen x) 10 (
  expect 54 (throws LogicError (newFileHandler disk f a_path)) (
  let '(h, f, r) := fh_getWriteStream disk f h in
  expect 62 (is_yes r) (
  h <- newFileHandler disk f a_path ;;
  expect_eq 64 (fh_hsize h) 0 (
  expect_eq 65 (fh_fsize h) 0 (
  expect 66 (throws LengthError (fh_getFirstBytes disk f 1 h)) (
  expect 67 (fh_empty h) (Ret []))))))))))))))))))).
Example file_empty_passes : file_empty = Ret [].
Proof. vm_compute. reflexivity. Qed.

(** 71-105 and 150-185 *)
Definition file_filled (smallest : bool) (tmp : bytes) : outcome (list N) :=
  let f : fs := upd no_files (w_loc disk a_path) (Some tmp) in
  h <- newFileHandler disk f a_path ;;
  expect 86 (named h) (
  expect 87 (negb (fh_empty h)) (
  expect 90 (if smallest then fh_hsize h =? MIN_DATAHEADER_LEN else MIN_DATAHEADER_LEN <? fh_hsize h) (
  expect_eq 91 (fh_fsize h) (fh_hsize h) (
  x <- fh_getFirstBytes disk f 1 h ;; y <- copySubBytes 0 1 (mkBytes tmp (lenN tmp)) ;;
  expect 92 (eqBytes x y) (
  expect 95 (eqb_bytes (stream_of disk f a_path) tmp) (
  expect 98 (eqb_bytes (fh_dataStream disk f h) []) (
  x <- fh_getAllBytes disk f h ;; expect_eq 99 (getLen x) (fh_hsize h) (
  dh <- move (fh_getDataHeader disk f 0 h) ;;
  b <- getHeaderBytes dh ;; expect 101 (eqb_bytes (bdata b) tmp) (
  n <- getHeaderLength dh ;; expect_eq 102 n (fh_hsize h) (
  expect 103 (match d_fsize dh with Some n => n =? fh_hsize h | None => false end) (Ret []))))))))))).
Example file_filled_passes :
  (a <- file_filled true (generateDH 1 [] 0 1 0 2 0) ;;
   b <- file_filled true (generateDH 1 [] 0 2 0 1 0) ;;
   c <- file_filled false (generateDH 3 (map (fun k => N.of_nat k + 1) (seq 0 189)) 54 2 154 2 1) ;;
   d <- file_filled false (generateDH 3 (map (fun k => 255 - N.of_nat k) (seq 0 189)) 54 4 154 2 1) ;;
   Ret (a ++ b ++ c ++ d)%list) = Ret [].
Proof. vm_cast_no_check (@eq_refl (outcome (list N)) (Ret [])). Qed.

(** 107-148 *)
Definition file_header : outcome (list N) :=
  let tmp := mkBytes (rand 1 64) 64 in
  let f := fst (fh_createFile disk no_files a_path) in
  p <- p_setHashMode 3 parts_empty ;; p <- p_setFileDataMode 1 p ;; p <- p_setSalt tmp p ;; p <- p_setValid tmp p ;;
  c1 <- cd_generate (rand 2) (newChd 4) ;; c2 <- cd_generate (rand 3) (newChd 5) ;;
  ch1 <- newChainHash 4 1000 (Some c1) ;; ch2 <- newChainHash 5 1000 (Some c2) ;;
  let p := p_setCh2 ch2 (p_setCh1 ch1 p) in
  expect 126 (p_isComplete 64 p) (
  dh <- move (setHeaderParts (rand 4) p) ;;
  n <- getHeaderLength dh ;;
  dh <- setFileSize n dh ;;
  dh <- calc_plain dh ;;
  hb <- getHeaderBytes dh ;;
  h <- newFileHandler disk f a_path ;;
  let '(h, f, r) := fh_getWriteStreamIfEmpty disk f h in
  expect 131 (is_yes r) (
  let f := write_stream disk f a_path (bdata hb) in
  h <- newFileHandler disk f a_path ;;
  expect_eq 135 (fh_hsize h) n (
  expect_eq 136 (fh_fsize h) n (
  x <- fh_getFirstBytes disk f 1 h ;; y <- copySubBytes 0 1 hb ;;
  expect 137 (eqBytes x y) (
  expect 140 (eqb_bytes (stream_of disk f a_path) (bdata hb)) (
  expect 143 (eqb_bytes (fh_dataStream disk f h) []) (
  x <- fh_getAllBytes disk f h ;; expect_eq 144 (getLen x) n (
  expect 145 (is_yes (fh_isDataHeader disk f 0 1 h)) (
  dh2 <- move (fh_getDataHeader disk f 0 h) ;;
  b <- getHeaderBytes dh2 ;; expect 146 (eqBytes b hb) (Ret [])))))))))).
Example file_header_passes : file_header = Ret [].
Proof. vm_cast_no_check (@eq_refl (outcome (list N)) (Ret [])). Qed.
