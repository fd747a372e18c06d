(** The project's own unit tests, run on the model: tests/utility_unittest.cpp, tests/format_unittest.cpp, tests/chainhashdata_unittest.cpp, tests/block_unittest.cpp.
    Each [EXPECT_...] of the test that the model can express is a check here, labelled with its line number; a test
    returns the list of the labels that failed.  Random bytes are [rand i n], the i-th request of the test. *)
From Coq Require Import Strings.String.
From Verif Require Import Base BytesModel CipherModel PwModel ChModel MiscModel Sha2 TestLib.
Open Scope N_scope.

(** utility_unittest.cpp 9-37: 11 checks *)
Definition utility_endswith : outcome (list N) :=
  s1 <- Ret (str "isdahfaksjdfas asdf asdf sadffsaasdfkoö-.:fp9pfdas ") ;;
  e1 <- Ret (str "isdahfaksjdfas asdf asdf sadffsaasdfkoö-.:fp9pfdas ") ;;
  e2 <- Ret (str "") ;;
  e3 <- Ret (str " ") ;;
  e4 <- Ret (str "pfdas ") ;;
  e5 <- Ret (str " pfdas ") ;;
  tmp1 <- Ret (endsWith s1 e1) ;;
  expect 16 (tmp1) (
  tmp2 <- Ret (endsWith s1 e2) ;;
  expect 17 (tmp2) (
  tmp3 <- Ret (endsWith s1 e3) ;;
  expect 18 (tmp3) (
  tmp4 <- Ret (endsWith s1 e4) ;;
  expect 19 (tmp4) (
  tmp5 <- Ret (endsWith s1 e5) ;;
  expect 20 (negb tmp5) (
  s2 <- Ret (str "") ;;
  e21 <- Ret (str "") ;;
  e22 <- Ret (str " ") ;;
  e23 <- Ret [x0a] ;;
  tmp6 <- Ret (endsWith s2 e21) ;;
  expect 26 (tmp6) (
  tmp7 <- Ret (endsWith s2 e22) ;;
  expect 27 (negb tmp7) (
  tmp8 <- Ret (endsWith s2 e23) ;;
  expect 28 (negb tmp8) (
  s3 <- Ret (str "moi.n") ;;
  e31 <- Ret (str "moi.n") ;;
  e32 <- Ret (str " ") ;;
  e33 <- Ret (str " moi.n") ;;
  tmp9 <- Ret (endsWith s3 e31) ;;
  expect 34 (tmp9) (
  tmp10 <- Ret (endsWith s3 e32) ;;
  expect 35 (negb tmp10) (
  tmp11 <- Ret (endsWith s3 e33) ;;
  expect 36 (negb tmp11) (
  Ret []))))))))))).
Example utility_endswith_passes : utility_endswith = Ret [].
Proof. vm_compute. reflexivity. Qed.

(** utility_unittest.cpp 39-53: 1 checks *)
Definition utility_stringToBytes : outcome (list N) :=
  b1 <- newBytes (10) ;;
  s1 <- Ret (str "moin") ;;
  b2 <- newBytes (4) ;;
  b2 <- addByte (n2b 109) b2 ;;
  b2 <- addByte (n2b 111) b2 ;;
  b2 <- addByte (n2b 105) b2 ;;
  b2 <- addByte (n2b 110) b2 ;;
  tmp1 <- Ret b2 ;;
  tmp2 <- Ret (stringToBytes s1) ;;
  expect 52 (eqBytes tmp1 tmp2) (
  Ret []).
Example utility_stringToBytes_passes : utility_stringToBytes = Ret [].
Proof. vm_compute. reflexivity. Qed.

(** utility_unittest.cpp 55-69: 1 checks *)
Definition utility_bytesTostr : outcome (list N) :=
  b1 <- newBytes (10) ;;
  b2 <- newBytes (4) ;;
  b2 <- addByte (n2b 109) b2 ;;
  b2 <- addByte (n2b 111) b2 ;;
  b2 <- addByte (n2b 105) b2 ;;
  b2 <- addByte (n2b 110) b2 ;;
  s1 <- Ret (str "moin") ;;
  tmp1 <- Ret s1 ;;
  tmp2 <- Ret (bytesToString b2) ;;
  expect 68 (eqb_bytes tmp1 tmp2) (
  Ret []).
Example utility_bytesTostr_passes : utility_bytesTostr = Ret [].
Proof. vm_compute. reflexivity. Qed.

(** utility_unittest.cpp 71-94: 11 checks *)
Definition utility_getLongLen : outcome (list N) :=
  l1 <- Ret 0 ;;
  l2 <- Ret 1 ;;
  l3 <- Ret 18446744073709551615 ;;
  l4 <- Ret 18446744073709551614 ;;
  l5 <- Ret 72057594037927935 ;;
  l6 <- Ret 72057594037927934 ;;
  l7 <- Ret 72057594037927936 ;;
  l8 <- Ret 256 ;;
  l9 <- Ret 255 ;;
  l10 <- Ret 4294967296 ;;
  l11 <- Ret 4294967295 ;;
  tmp1 <- Ret 0 ;;
  tmp2 <- getLongLen l1 ;;
  expect 83 (N.eqb tmp1 tmp2) (
  tmp3 <- Ret 1 ;;
  tmp4 <- getLongLen l2 ;;
  expect 84 (N.eqb tmp3 tmp4) (
  tmp5 <- Ret 8 ;;
  tmp6 <- getLongLen l3 ;;
  expect 85 (N.eqb tmp5 tmp6) (
  tmp7 <- Ret 8 ;;
  tmp8 <- getLongLen l4 ;;
  expect 86 (N.eqb tmp7 tmp8) (
  tmp9 <- Ret 7 ;;
  tmp10 <- getLongLen l5 ;;
  expect 87 (N.eqb tmp9 tmp10) (
  tmp11 <- Ret 7 ;;
  tmp12 <- getLongLen l6 ;;
  expect 88 (N.eqb tmp11 tmp12) (
  tmp13 <- Ret 8 ;;
  tmp14 <- getLongLen l7 ;;
  expect 89 (N.eqb tmp13 tmp14) (
  tmp15 <- Ret 2 ;;
  tmp16 <- getLongLen l8 ;;
  expect 90 (N.eqb tmp15 tmp16) (
  tmp17 <- Ret 1 ;;
  tmp18 <- getLongLen l9 ;;
  expect 91 (N.eqb tmp17 tmp18) (
  tmp19 <- Ret 5 ;;
  tmp20 <- getLongLen l10 ;;
  expect 92 (N.eqb tmp19 tmp20) (
  tmp21 <- Ret 4 ;;
  tmp22 <- getLongLen l11 ;;
  expect 93 (N.eqb tmp21 tmp22) (
  Ret []))))))))))).
Example utility_getLongLen_passes : utility_getLongLen = Ret [].
Proof. vm_compute. reflexivity. Qed.

(** utility_unittest.cpp 96-171: 42 checks *)
Definition utility_isValidNumber : outcome (list N) :=
  s1 <- Ret (str "0") ;;
  s2 <- Ret (str "") ;;
  s3 <- Ret (str "102131231421") ;;
  s4 <- Ret (str "-131") ;;
  s5 <- Ret (str "0.0") ;;
  s6 <- Ret (str "0,0") ;;
  s7 <- Ret (str ".5") ;;
  s8 <- Ret (str "0.") ;;
  s9 <- Ret (str "-1-23") ;;
  s10 <- Ret (str "0.5") ;;
  s11 <- Ret (str "00000") ;;
  s12 <- Ret (str "-0000") ;;
  s13 <- Ret (str "0000.0") ;;
  s14 <- Ret (str "1 5") ;;
  s15 <- Ret (str " 15") ;;
  s16 <- Ret (str "15 ") ;;
  tmp1 <- isValidNumber s1 false 0 18446744073709551615 ;;
  expect 114 (tmp1) (
  tmp2 <- isValidNumber s1 true 0 18446744073709551615 ;;
  expect 115 (tmp2) (
  tmp3 <- isValidNumber s1 true 0 1 ;;
  expect 116 (tmp3) (
  tmp4 <- isValidNumber s1 true 0 0 ;;
  expect 117 (tmp4) (
  tmp5 <- isValidNumber s1 true 1 18446744073709551615 ;;
  expect 118 (negb tmp5) (
  tmp6 <- isValidNumber s2 false 0 18446744073709551615 ;;
  expect 120 (negb tmp6) (
  tmp7 <- isValidNumber s2 true 0 18446744073709551615 ;;
  expect 121 (tmp7) (
  tmp8 <- isValidNumber s2 true 0 1 ;;
  expect 122 (tmp8) (
  tmp9 <- isValidNumber s2 false 0 256 ;;
  expect 123 (negb tmp9) (
  tmp10 <- isValidNumber s3 false 0 18446744073709551615 ;;
  expect 125 (tmp10) (
  tmp11 <- isValidNumber s3 true 0 18446744073709551615 ;;
  expect 126 (tmp11) (
  tmp12 <- isValidNumber s3 true 0 102131231421 ;;
  expect 127 (tmp12) (
  tmp13 <- isValidNumber s3 true 0 102131231420 ;;
  expect 128 (negb tmp13) (
  tmp14 <- isValidNumber s4 false 0 18446744073709551615 ;;
  expect 130 (negb tmp14) (
  tmp15 <- isValidNumber s4 true 0 18446744073709551615 ;;
  expect 131 (negb tmp15) (
  tmp16 <- isValidNumber s5 false 0 18446744073709551615 ;;
  expect 133 (negb tmp16) (
  tmp17 <- isValidNumber s5 true 0 18446744073709551615 ;;
  expect 134 (negb tmp17) (
  tmp18 <- isValidNumber s6 false 0 18446744073709551615 ;;
  expect 136 (negb tmp18) (
  tmp19 <- isValidNumber s6 true 0 18446744073709551615 ;;
  expect 137 (negb tmp19) (
  tmp20 <- isValidNumber s7 false 0 18446744073709551615 ;;
  expect 139 (negb tmp20) (
  tmp21 <- isValidNumber s7 true 0 18446744073709551615 ;;
  expect 140 (negb tmp21) (
  tmp22 <- isValidNumber s8 false 0 18446744073709551615 ;;
  expect 142 (negb tmp22) (
  tmp23 <- isValidNumber s8 true 0 18446744073709551615 ;;
  expect 143 (negb tmp23) (
  tmp24 <- isValidNumber s9 false 0 18446744073709551615 ;;
  expect 145 (negb tmp24) (
  tmp25 <- isValidNumber s9 true 0 18446744073709551615 ;;
  expect 146 (negb tmp25) (
  tmp26 <- isValidNumber s10 false 0 18446744073709551615 ;;
  expect 148 (negb tmp26) (
  tmp27 <- isValidNumber s10 true 0 18446744073709551615 ;;
  expect 149 (negb tmp27) (
  tmp28 <- isValidNumber s11 false 0 18446744073709551615 ;;
  expect 151 (tmp28) (
  tmp29 <- isValidNumber s11 true 0 18446744073709551615 ;;
  expect 152 (tmp29) (
  tmp30 <- isValidNumber s11 true 0 1 ;;
  expect 153 (tmp30) (
  tmp31 <- isValidNumber s11 true 0 0 ;;
  expect 154 (tmp31) (
  tmp32 <- isValidNumber s11 true 1 18446744073709551615 ;;
  expect 155 (negb tmp32) (
  tmp33 <- isValidNumber s12 false 0 18446744073709551615 ;;
  expect 157 (negb tmp33) (
  tmp34 <- isValidNumber s12 true 0 18446744073709551615 ;;
  expect 158 (negb tmp34) (
  tmp35 <- isValidNumber s13 false 0 18446744073709551615 ;;
  expect 160 (negb tmp35) (
  tmp36 <- isValidNumber s13 true 0 18446744073709551615 ;;
  expect 161 (negb tmp36) (
  tmp37 <- isValidNumber s14 false 0 18446744073709551615 ;;
  expect 163 (negb tmp37) (
  tmp38 <- isValidNumber s14 true 0 18446744073709551615 ;;
  expect 164 (negb tmp38) (
  tmp39 <- isValidNumber s15 false 0 18446744073709551615 ;;
  expect 166 (negb tmp39) (
  tmp40 <- isValidNumber s15 true 0 18446744073709551615 ;;
  expect 167 (negb tmp40) (
  tmp41 <- isValidNumber s16 false 0 18446744073709551615 ;;
  expect 169 (negb tmp41) (
  tmp42 <- isValidNumber s16 true 0 18446744073709551615 ;;
  expect 170 (negb tmp42) (
  Ret [])))))))))))))))))))))))))))))))))))))))))).
Example utility_isValidNumber_passes : utility_isValidNumber = Ret [].
Proof. vm_compute. reflexivity. Qed.

(** format_unittest.cpp 14-20: 4 checks *)
Definition format_constructor : outcome (list N) :=
  expect 16 (throws InvalidArgument (newFormat 0)) (
  expect 17 (throws InvalidArgument (newFormat 4294967295)) (
  expect 18 (throws InvalidArgument (newFormat 4294967041)) (
  expect 19 (throws InvalidArgument (newFormat 6)) (
  Ret [])))).
Example format_constructor_passes : format_constructor = Ret [].
Proof. vm_compute. reflexivity. Qed.

(** format_unittest.cpp 22-34: 5 checks *)
Definition format_getChainHashMode : outcome (list N) :=
  f <- newFormat 1 ;;
  tmp1 <- Ret 1 ;;
  tmp2 <- Ret f ;;
  expect 25 (N.eqb tmp1 tmp2) (
  f2 <- newFormat 2 ;;
  tmp3 <- Ret 2 ;;
  tmp4 <- Ret f2 ;;
  expect 27 (N.eqb tmp3 tmp4) (
  f3 <- newFormat 3 ;;
  tmp5 <- Ret 3 ;;
  tmp6 <- Ret f3 ;;
  expect 29 (N.eqb tmp5 tmp6) (
  f4 <- newFormat 4 ;;
  tmp7 <- Ret 4 ;;
  tmp8 <- Ret f4 ;;
  expect 31 (N.eqb tmp7 tmp8) (
  f5 <- newFormat 5 ;;
  tmp9 <- Ret 5 ;;
  tmp10 <- Ret f5 ;;
  expect 33 (N.eqb tmp9 tmp10) (
  Ret []))))).
Example format_getChainHashMode_passes : format_getChainHashMode = Ret [].
Proof. vm_compute. reflexivity. Qed.

(** format_unittest.cpp 36-76: 1 checks *)
Definition format_getNameLenList : outcome (list N) :=
  f <- newFormat 1 ;;
  tmp1 <- Ret 0 ;;
  tmp2 <- Ret (lenN (nameLens f)) ;;
  expect 39 (N.eqb tmp1 tmp2) (
  f2 <- newFormat 2 ;;
  f3 <- newFormat 3 ;;
  f4 <- newFormat 4 ;;
  f5 <- newFormat 5 ;;
  Ret []).
Example format_getNameLenList_passes : format_getNameLenList = Ret [].
Proof. vm_compute. reflexivity. Qed.

(** format_unittest.cpp 78-99: 9 checks *)
Definition format_operatorEquals : outcome (list N) :=
  f <- newFormat 1 ;;
  f2 <- newFormat 1 ;;
  tmp1 <- Ret (format_eqb f f2) ;;
  expect 82 (tmp1) (
  f3 <- newFormat 2 ;;
  tmp2 <- Ret (format_eqb f f3) ;;
  expect 84 (negb tmp2) (
  f4 <- newFormat 3 ;;
  tmp3 <- Ret (format_eqb f f4) ;;
  expect 86 (negb tmp3) (
  f5 <- newFormat 4 ;;
  tmp4 <- Ret (format_eqb f f5) ;;
  expect 88 (negb tmp4) (
  f6 <- newFormat 5 ;;
  tmp5 <- Ret (format_eqb f f6) ;;
  expect 90 (negb tmp5) (
  f7 <- newFormat 2 ;;
  tmp6 <- Ret (format_eqb f3 f7) ;;
  expect 92 (tmp6) (
  f8 <- newFormat 3 ;;
  tmp7 <- Ret (format_eqb f4 f8) ;;
  expect 94 (tmp7) (
  f9 <- newFormat 4 ;;
  tmp8 <- Ret (format_eqb f5 f9) ;;
  expect 96 (tmp8) (
  f10 <- newFormat 5 ;;
  tmp9 <- Ret (format_eqb f6 f10) ;;
  expect 98 (tmp9) (
  Ret []))))))))).
Example format_operatorEquals_passes : format_operatorEquals = Ret [].
Proof. vm_compute. reflexivity. Qed.

(** chainhashdata_unittest.cpp 18-90: 39 checks *)
Definition chd_isComplete : outcome (list N) :=
  chd <- (x <- newFormat 5 ;; Ret (newChd x)) ;;
  tmp1 <- Ret (cd_complete chd) ;;
  expect 21 (negb tmp1) (
  tmp2 <- Ret (cd_completedFormat 5 chd) ;;
  expect 22 (negb tmp2) (
  tmp3 <- Ret (cd_completedFormat 1 chd) ;;
  expect 23 (negb tmp3) (
  b <- newBytes (8) ;;
  b <- fillrandom (rand 1) b ;;
  chd <- (x <- Ret b ;; cd_addBytes Debug x chd) ;;
  tmp4 <- Ret (cd_complete chd) ;;
  expect 27 (negb tmp4) (
  tmp5 <- Ret (cd_completedFormat 5 chd) ;;
  expect 28 (negb tmp5) (
  tmp6 <- Ret (cd_completedFormat 1 chd) ;;
  expect 29 (negb tmp6) (
  b2 <- newBytes (8) ;;
  b2 <- fillrandom (rand 2) b2 ;;
  chd <- (x <- Ret b2 ;; cd_addBytes Debug x chd) ;;
  tmp7 <- Ret (cd_complete chd) ;;
  expect 33 (negb tmp7) (
  tmp8 <- Ret (cd_completedFormat 5 chd) ;;
  expect 34 (negb tmp8) (
  tmp9 <- Ret (cd_completedFormat 1 chd) ;;
  expect 35 (negb tmp9) (
  b3 <- newBytes (8) ;;
  b3 <- fillrandom (rand 3) b3 ;;
  chd <- (x <- Ret b3 ;; cd_addBytes Debug x chd) ;;
  tmp10 <- Ret (cd_complete chd) ;;
  expect 39 (negb tmp10) (
  tmp11 <- Ret (cd_completedFormat 5 chd) ;;
  expect 40 (negb tmp11) (
  tmp12 <- Ret (cd_completedFormat 1 chd) ;;
  expect 41 (negb tmp12) (
  b4 <- newBytes (8) ;;
  b4 <- fillrandom (rand 4) b4 ;;
  chd <- (x <- Ret b4 ;; cd_addBytes Debug x chd) ;;
  tmp13 <- Ret (cd_complete chd) ;;
  expect 45 (tmp13) (
  tmp14 <- Ret (cd_completedFormat 5 chd) ;;
  expect 46 (tmp14) (
  tmp15 <- Ret (cd_completedFormat 1 chd) ;;
  expect 47 (negb tmp15) (
  chd2 <- (x <- newFormat 1 ;; Ret (newChd x)) ;;
  tmp16 <- Ret (cd_complete chd2) ;;
  expect 50 (tmp16) (
  tmp17 <- Ret (cd_completedFormat 2 chd2) ;;
  expect 51 (negb tmp17) (
  tmp18 <- Ret (cd_completedFormat 1 chd2) ;;
  expect 52 (tmp18) (
  chd3 <- (x <- newFormat 2 ;; Ret (newChd x)) ;;
  tmp19 <- Ret (cd_complete chd3) ;;
  expect 55 (negb tmp19) (
  tmp20 <- Ret (cd_completedFormat 4 chd3) ;;
  expect 56 (negb tmp20) (
  tmp21 <- Ret (cd_completedFormat 2 chd3) ;;
  expect 57 (negb tmp21) (
  chd3 <- (x <- newBytes (0) ;; cd_addBytes Debug x chd3) ;;
  tmp22 <- Ret (cd_complete chd3) ;;
  expect 59 (tmp22) (
  tmp23 <- Ret (cd_completedFormat 4 chd3) ;;
  expect 60 (negb tmp23) (
  tmp24 <- Ret (cd_completedFormat 2 chd3) ;;
  expect 61 (tmp24) (
  chd4 <- (x <- newFormat 4 ;; Ret (newChd x)) ;;
  tmp25 <- Ret (cd_complete chd4) ;;
  expect 64 (negb tmp25) (
  tmp26 <- Ret (cd_completedFormat 4 chd4) ;;
  expect 65 (negb tmp26) (
  tmp27 <- Ret (cd_completedFormat 3 chd4) ;;
  expect 66 (negb tmp27) (
  startnum <- newBytes (8) ;;
  startnum <- fillrandom (rand 5) startnum ;;
  chd4 <- (x <- Ret startnum ;; cd_addBytes Debug x chd4) ;;
  tmp28 <- Ret (cd_complete chd4) ;;
  expect 70 (negb tmp28) (
  tmp29 <- Ret (cd_completedFormat 4 chd4) ;;
  expect 71 (negb tmp29) (
  tmp30 <- Ret (cd_completedFormat 3 chd4) ;;
  expect 72 (negb tmp30) (
  b5 <- newBytes (247) ;;
  b5 <- fillrandom (rand 6) b5 ;;
  chd4 <- (x <- Ret b5 ;; cd_addBytes Debug x chd4) ;;
  tmp31 <- Ret (cd_complete chd4) ;;
  expect 76 (tmp31) (
  tmp32 <- Ret (cd_completedFormat 4 chd4) ;;
  expect 77 (tmp32) (
  tmp33 <- Ret (cd_completedFormat 3 chd4) ;;
  expect 78 (negb tmp33) (
  chd5 <- (x <- newFormat 3 ;; Ret (newChd x)) ;;
  tmp34 <- Ret (cd_complete chd5) ;;
  expect 81 (negb tmp34) (
  tmp35 <- Ret (cd_completedFormat 3 chd5) ;;
  expect 82 (negb tmp35) (
  tmp36 <- Ret (cd_completedFormat 5 chd5) ;;
  expect 83 (negb tmp36) (
  startnum2 <- newBytes (8) ;;
  startnum2 <- fillrandom (rand 7) startnum2 ;;
  chd5 <- (x <- Ret startnum2 ;; cd_addBytes Debug x chd5) ;;
  tmp37 <- Ret (cd_complete chd5) ;;
  expect 87 (tmp37) (
  tmp38 <- Ret (cd_completedFormat 3 chd5) ;;
  expect 88 (tmp38) (
  tmp39 <- Ret (cd_completedFormat 5 chd5) ;;
  expect 89 (negb tmp39) (
  Ret []))))))))))))))))))))))))))))))))))))))).
Example chd_isComplete_passes : chd_isComplete = Ret [].
Proof. vm_compute. reflexivity. Qed.

(** chainhashdata_unittest.cpp 92-138: 13 checks *)
Definition chd_getPartsNumber : outcome (list N) :=
  chd <- (x <- newFormat 1 ;; Ret (newChd x)) ;;
  tmp1 <- Ret 0 ;;
  tmp2 <- Ret (cd_ind chd) ;;
  expect 95 (N.eqb tmp1 tmp2) (
  chd2 <- (x <- newFormat 2 ;; Ret (newChd x)) ;;
  tmp3 <- Ret 0 ;;
  tmp4 <- Ret (cd_ind chd2) ;;
  expect 98 (N.eqb tmp3 tmp4) (
  b <- newBytes (255) ;;
  b <- fillrandom (rand 1) b ;;
  chd2 <- (x <- Ret b ;; cd_addBytes Debug x chd2) ;;
  tmp5 <- Ret 1 ;;
  tmp6 <- Ret (cd_ind chd2) ;;
  expect 102 (N.eqb tmp5 tmp6) (
  chd3 <- (x <- newFormat 4 ;; Ret (newChd x)) ;;
  tmp7 <- Ret 0 ;;
  tmp8 <- Ret (cd_ind chd3) ;;
  expect 105 (N.eqb tmp7 tmp8) (
  startnum <- newBytes (8) ;;
  startnum <- fillrandom (rand 2) startnum ;;
  chd3 <- (x <- Ret startnum ;; cd_addBytes Debug x chd3) ;;
  tmp9 <- Ret 1 ;;
  tmp10 <- Ret (cd_ind chd3) ;;
  expect 109 (N.eqb tmp9 tmp10) (
  chd3 <- (x <- newBytes (0) ;; cd_addBytes Debug x chd3) ;;
  tmp11 <- Ret 2 ;;
  tmp12 <- Ret (cd_ind chd3) ;;
  expect 111 (N.eqb tmp11 tmp12) (
  chd4 <- (x <- newFormat 3 ;; Ret (newChd x)) ;;
  tmp13 <- Ret 0 ;;
  tmp14 <- Ret (cd_ind chd4) ;;
  expect 114 (N.eqb tmp13 tmp14) (
  startnum2 <- newBytes (8) ;;
  startnum2 <- fillrandom (rand 3) startnum2 ;;
  chd4 <- (x <- Ret startnum2 ;; cd_addBytes Debug x chd4) ;;
  tmp15 <- Ret 1 ;;
  tmp16 <- Ret (cd_ind chd4) ;;
  expect 118 (N.eqb tmp15 tmp16) (
  chd5 <- (x <- newFormat 5 ;; Ret (newChd x)) ;;
  tmp17 <- Ret 0 ;;
  tmp18 <- Ret (cd_ind chd5) ;;
  expect 121 (N.eqb tmp17 tmp18) (
  startnum3 <- newBytes (8) ;;
  startnum3 <- fillrandom (rand 4) startnum3 ;;
  chd5 <- (x <- Ret startnum3 ;; cd_addBytes Debug x chd5) ;;
  tmp19 <- Ret 1 ;;
  tmp20 <- Ret (cd_ind chd5) ;;
  expect 125 (N.eqb tmp19 tmp20) (
  a <- newBytes (8) ;;
  a <- fillrandom (rand 5) a ;;
  chd5 <- (x <- Ret a ;; cd_addBytes Debug x chd5) ;;
  tmp21 <- Ret 2 ;;
  tmp22 <- Ret (cd_ind chd5) ;;
  expect 129 (N.eqb tmp21 tmp22) (
  b2 <- newBytes (8) ;;
  b2 <- fillrandom (rand 6) b2 ;;
  chd5 <- (x <- Ret b2 ;; cd_addBytes Debug x chd5) ;;
  tmp23 <- Ret 3 ;;
  tmp24 <- Ret (cd_ind chd5) ;;
  expect 133 (N.eqb tmp23 tmp24) (
  c <- newBytes (8) ;;
  c <- fillrandom (rand 7) c ;;
  chd5 <- (x <- Ret c ;; cd_addBytes Debug x chd5) ;;
  tmp25 <- Ret 4 ;;
  tmp26 <- Ret (cd_ind chd5) ;;
  expect 137 (N.eqb tmp25 tmp26) (
  Ret []))))))))))))).
Example chd_getPartsNumber_passes : chd_getPartsNumber = Ret [].
Proof. vm_compute. reflexivity. Qed.

(** chainhashdata_unittest.cpp 140-225: 23 checks *)
Definition chd_getDataBlock : outcome (list N) :=
  chd <- (x <- newFormat 1 ;; Ret (newChd x)) ;;
  tmp1 <- newBytes (13) ;;
  tmp2 <- getDataBlock chd ;;
  expect 143 (eqBytes tmp1 tmp2) (
  chd2 <- (x <- newFormat 2 ;; Ret (newChd x)) ;;
  chd3 <- (x <- newFormat 2 ;; Ret (newChd x)) ;;
  expect 147 (throws LogicError (getDataBlock chd2)) (
  expect 148 (throws LogicError (getDataBlock chd3)) (
  b <- newBytes (255) ;;
  b <- fillrandom (rand 1) b ;;
  chd2 <- (x <- Ret b ;; cd_addBytes Debug x chd2) ;;
  tmp3 <- Ret b ;;
  tmp4 <- getDataBlock chd2 ;;
  expect 152 (eqBytes tmp3 tmp4) (
  chd3 <- (x <- newBytes (24) ;; cd_addBytes Debug x chd3) ;;
  tmp5 <- newBytes (11) ;;
  tmp6 <- getDataBlock chd3 ;;
  expect 154 (eqBytes tmp5 tmp6) (
  chd4 <- (x <- newFormat 4 ;; Ret (newChd x)) ;;
  chd5 <- (x <- newFormat 4 ;; Ret (newChd x)) ;;
  expect 158 (throws LogicError (getDataBlock chd4)) (
  expect 159 (throws LogicError (getDataBlock chd5)) (
  startnum <- newBytes (255) ;;
  startnum2 <- newBytes (8) ;;
  startnum <- addrandom (rand 2) 8 startnum ;;
  startnum2 <- fillrandom (rand 3) startnum2 ;;
  chd4 <- (x <- Ret startnum ;; cd_addBytes Debug x chd4) ;;
  chd5 <- (x <- Ret startnum2 ;; cd_addBytes Debug x chd5) ;;
  expect 166 (throws LogicError (getDataBlock chd4)) (
  expect 167 (throws LogicError (getDataBlock chd5)) (
  b2 <- newBytes (247) ;;
  b2 <- fillrandom (rand 4) b2 ;;
  chd4 <- (x <- Ret b2 ;; cd_addBytes Debug x chd4) ;;
  chd5 <- (x <- newBytes (11) ;; cd_addBytes Debug x chd5) ;;
  startnum <- addcopyToBytes b2 startnum ;;
  tmp7 <- Ret startnum ;;
  tmp8 <- getDataBlock chd4 ;;
  expect 173 (eqBytes tmp7 tmp8) (
  tmp9 <- Ret startnum2 ;;
  tmp10 <- getDataBlock chd5 ;;
  expect 174 (eqBytes tmp9 tmp10) (
  chd6 <- (x <- newFormat 3 ;; Ret (newChd x)) ;;
  expect 177 (throws LogicError (getDataBlock chd6)) (
  startnum3 <- newBytes (8) ;;
  startnum3 <- fillrandom (rand 5) startnum3 ;;
  chd6 <- (x <- Ret startnum3 ;; cd_addBytes Debug x chd6) ;;
  tmp11 <- Ret startnum3 ;;
  tmp12 <- getDataBlock chd6 ;;
  expect 181 (eqBytes tmp11 tmp12) (
  chd7 <- (x <- newFormat 5 ;; Ret (newChd x)) ;;
  chd8 <- (x <- newFormat 5 ;; Ret (newChd x)) ;;
  expect 185 (throws LogicError (getDataBlock chd7)) (
  expect 186 (throws LogicError (getDataBlock chd8)) (
  startnum4 <- newBytes (32) ;;
  startnum5 <- newBytes (32) ;;
  startnum4 <- addrandom (rand 6) 8 startnum4 ;;
  startnum5 <- addrandom (rand 7) 8 startnum5 ;;
  chd7 <- (x <- Ret startnum4 ;; cd_addBytes Debug x chd7) ;;
  chd8 <- (x <- Ret startnum5 ;; cd_addBytes Debug x chd8) ;;
  expect 193 (throws LogicError (getDataBlock chd7)) (
  expect 194 (throws LogicError (getDataBlock chd8)) (
  b3 <- newBytes (8) ;;
  b4 <- newBytes (8) ;;
  b5 <- newBytes (8) ;;
  b6 <- newBytes (8) ;;
  b7 <- newBytes (8) ;;
  b8 <- newBytes (8) ;;
  b3 <- fillrandom (rand 8) b3 ;;
  b4 <- fillrandom (rand 9) b4 ;;
  b5 <- fillrandom (rand 10) b5 ;;
  b6 <- fillrandom (rand 11) b6 ;;
  b7 <- fillrandom (rand 12) b7 ;;
  b8 <- fillrandom (rand 13) b8 ;;
  chd7 <- (x <- Ret b3 ;; cd_addBytes Debug x chd7) ;;
  chd8 <- (x <- Ret b4 ;; cd_addBytes Debug x chd8) ;;
  expect 209 (throws LogicError (getDataBlock chd7)) (
  expect 210 (throws LogicError (getDataBlock chd8)) (
  startnum4 <- addcopyToBytes b3 startnum4 ;;
  startnum5 <- addcopyToBytes b4 startnum5 ;;
  chd7 <- (x <- Ret b5 ;; cd_addBytes Debug x chd7) ;;
  chd8 <- (x <- Ret b6 ;; cd_addBytes Debug x chd8) ;;
  expect 215 (throws LogicError (getDataBlock chd7)) (
  expect 216 (throws LogicError (getDataBlock chd8)) (
  startnum4 <- addcopyToBytes b5 startnum4 ;;
  startnum5 <- addcopyToBytes b6 startnum5 ;;
  chd7 <- (x <- Ret b7 ;; cd_addBytes Debug x chd7) ;;
  chd8 <- (x <- Ret b8 ;; cd_addBytes Debug x chd8) ;;
  startnum4 <- addcopyToBytes b7 startnum4 ;;
  startnum5 <- addcopyToBytes b8 startnum5 ;;
  tmp13 <- Ret startnum4 ;;
  tmp14 <- getDataBlock chd7 ;;
  expect 223 (eqBytes tmp13 tmp14) (
  tmp15 <- Ret startnum5 ;;
  tmp16 <- getDataBlock chd8 ;;
  expect 224 (eqBytes tmp15 tmp16) (
  Ret []))))))))))))))))))))))).
Example chd_getDataBlock_passes : chd_getDataBlock = Ret [].
Proof. vm_compute. reflexivity. Qed.

(** chainhashdata_unittest.cpp 227-333: 55 checks *)
Definition chd_getPart : outcome (list N) :=
  chd <- (x <- newFormat 1 ;; Ret (newChd x)) ;;
  expect 230 (throws InvalidArgument (getPart chd (str "S"))) (
  chd2 <- (x <- newFormat 2 ;; Ret (newChd x)) ;;
  expect 233 (throws InvalidArgument (getPart chd2 (str "S"))) (
  b <- newBytes (255) ;;
  b <- fillrandom (rand 1) b ;;
  chd2 <- (x <- Ret b ;; cd_addBytes Debug x chd2) ;;
  tmp1 <- Ret b ;;
  tmp2 <- getPart chd2 (str "S") ;;
  expect 237 (eqBytes tmp1 tmp2) (
  expect 238 (throws InvalidArgument (getPart chd2 (str "A"))) (
  chd3 <- (x <- newFormat 4 ;; Ret (newChd x)) ;;
  chd4 <- (x <- newFormat 4 ;; Ret (newChd x)) ;;
  expect 242 (throws InvalidArgument (getPart chd3 (str "S"))) (
  expect 243 (throws InvalidArgument (getPart chd3 (str "SN"))) (
  startnum <- newBytes (8) ;;
  startnum <- fillrandom (rand 2) startnum ;;
  chd3 <- (x <- Ret startnum ;; cd_addBytes Debug x chd3) ;;
  chd4 <- (x <- Ret startnum ;; cd_addBytes Debug x chd4) ;;
  tmp3 <- Ret startnum ;;
  tmp4 <- getPart chd3 (str "SN") ;;
  expect 248 (eqBytes tmp3 tmp4) (
  expect 249 (throws InvalidArgument (getPart chd3 (str "S"))) (
  b2 <- newBytes (247) ;;
  b2 <- fillrandom (rand 3) b2 ;;
  chd3 <- (x <- Ret b2 ;; cd_addBytes Debug x chd3) ;;
  chd4 <- (x <- newBytes (14) ;; cd_addBytes Debug x chd4) ;;
  tmp5 <- Ret b2 ;;
  tmp6 <- getPart chd3 (str "S") ;;
  expect 254 (eqBytes tmp5 tmp6) (
  tmp7 <- newBytes (0) ;;
  tmp8 <- getPart chd4 (str "S") ;;
  expect 255 (eqBytes tmp7 tmp8) (
  tmp9 <- Ret startnum ;;
  tmp10 <- getPart chd3 (str "SN") ;;
  expect 256 (eqBytes tmp9 tmp10) (
  tmp11 <- Ret startnum ;;
  tmp12 <- getPart chd4 (str "SN") ;;
  expect 257 (eqBytes tmp11 tmp12) (
  expect 258 (throws InvalidArgument (getPart chd3 (str "A"))) (
  expect 259 (throws InvalidArgument (getPart chd4 (str "A"))) (
  chd5 <- (x <- newFormat 3 ;; Ret (newChd x)) ;;
  expect 262 (throws InvalidArgument (getPart chd5 (str "SN"))) (
  startnum2 <- newBytes (8) ;;
  startnum2 <- fillrandom (rand 4) startnum2 ;;
  chd5 <- (x <- Ret startnum2 ;; cd_addBytes Debug x chd5) ;;
  tmp13 <- Ret startnum2 ;;
  tmp14 <- getPart chd5 (str "SN") ;;
  expect 266 (eqBytes tmp13 tmp14) (
  expect 267 (throws InvalidArgument (getPart chd5 (str "S"))) (
  chd6 <- (x <- newFormat 5 ;; Ret (newChd x)) ;;
  chd7 <- (x <- newFormat 5 ;; Ret (newChd x)) ;;
  expect 271 (throws InvalidArgument (getPart chd6 (str "SN"))) (
  expect 272 (throws InvalidArgument (getPart chd6 (str "A"))) (
  expect 273 (throws InvalidArgument (getPart chd6 (str "B"))) (
  expect 274 (throws InvalidArgument (getPart chd6 (str "C"))) (
  startnum3 <- newBytes (8) ;;
  startnum4 <- newBytes (8) ;;
  startnum3 <- fillrandom (rand 5) startnum3 ;;
  startnum4 <- fillrandom (rand 6) startnum4 ;;
  chd6 <- (x <- Ret startnum3 ;; cd_addBytes Debug x chd6) ;;
  chd7 <- (x <- Ret startnum4 ;; cd_addBytes Debug x chd7) ;;
  tmp15 <- Ret startnum3 ;;
  tmp16 <- getPart chd6 (str "SN") ;;
  expect 281 (eqBytes tmp15 tmp16) (
  tmp17 <- Ret startnum4 ;;
  tmp18 <- getPart chd7 (str "SN") ;;
  expect 282 (eqBytes tmp17 tmp18) (
  expect 283 (throws InvalidArgument (getPart chd6 (str "A"))) (
  expect 284 (throws InvalidArgument (getPart chd7 (str "A"))) (
  expect 285 (throws InvalidArgument (getPart chd6 (str "B"))) (
  expect 286 (throws InvalidArgument (getPart chd7 (str "B"))) (
  expect 287 (throws InvalidArgument (getPart chd6 (str "C"))) (
  expect 288 (throws InvalidArgument (getPart chd7 (str "C"))) (
  b3 <- newBytes (8) ;;
  b4 <- newBytes (8) ;;
  b3 <- fillrandom (rand 7) b3 ;;
  b4 <- fillrandom (rand 8) b4 ;;
  chd6 <- (x <- Ret b3 ;; cd_addBytes Debug x chd6) ;;
  chd7 <- (x <- Ret b4 ;; cd_addBytes Debug x chd7) ;;
  tmp19 <- Ret startnum3 ;;
  tmp20 <- getPart chd6 (str "SN") ;;
  expect 295 (eqBytes tmp19 tmp20) (
  tmp21 <- Ret startnum4 ;;
  tmp22 <- getPart chd7 (str "SN") ;;
  expect 296 (eqBytes tmp21 tmp22) (
  tmp23 <- Ret b3 ;;
  tmp24 <- getPart chd6 (str "A") ;;
  expect 297 (eqBytes tmp23 tmp24) (
  tmp25 <- Ret b4 ;;
  tmp26 <- getPart chd7 (str "A") ;;
  expect 298 (eqBytes tmp25 tmp26) (
  expect 299 (throws InvalidArgument (getPart chd6 (str "B"))) (
  expect 300 (throws InvalidArgument (getPart chd7 (str "B"))) (
  expect 301 (throws InvalidArgument (getPart chd6 (str "C"))) (
  expect 302 (throws InvalidArgument (getPart chd7 (str "C"))) (
  b5 <- newBytes (8) ;;
  b6 <- newBytes (8) ;;
  b5 <- fillrandom (rand 9) b5 ;;
  b6 <- fillrandom (rand 10) b6 ;;
  chd6 <- (x <- Ret b5 ;; cd_addBytes Debug x chd6) ;;
  chd7 <- (x <- Ret b6 ;; cd_addBytes Debug x chd7) ;;
  tmp27 <- Ret startnum3 ;;
  tmp28 <- getPart chd6 (str "SN") ;;
  expect 309 (eqBytes tmp27 tmp28) (
  tmp29 <- Ret startnum4 ;;
  tmp30 <- getPart chd7 (str "SN") ;;
  expect 310 (eqBytes tmp29 tmp30) (
  tmp31 <- Ret b3 ;;
  tmp32 <- getPart chd6 (str "A") ;;
  expect 311 (eqBytes tmp31 tmp32) (
  tmp33 <- Ret b4 ;;
  tmp34 <- getPart chd7 (str "A") ;;
  expect 312 (eqBytes tmp33 tmp34) (
  tmp35 <- Ret b5 ;;
  tmp36 <- getPart chd6 (str "B") ;;
  expect 313 (eqBytes tmp35 tmp36) (
  tmp37 <- Ret b6 ;;
  tmp38 <- getPart chd7 (str "B") ;;
  expect 314 (eqBytes tmp37 tmp38) (
  expect 315 (throws InvalidArgument (getPart chd6 (str "C"))) (
  expect 316 (throws InvalidArgument (getPart chd7 (str "C"))) (
  b7 <- newBytes (8) ;;
  b8 <- newBytes (8) ;;
  b7 <- fillrandom (rand 11) b7 ;;
  b8 <- fillrandom (rand 12) b8 ;;
  chd6 <- (x <- Ret b7 ;; cd_addBytes Debug x chd6) ;;
  chd7 <- (x <- Ret b8 ;; cd_addBytes Debug x chd7) ;;
  tmp39 <- Ret startnum3 ;;
  tmp40 <- getPart chd6 (str "SN") ;;
  expect 323 (eqBytes tmp39 tmp40) (
  tmp41 <- Ret startnum4 ;;
  tmp42 <- getPart chd7 (str "SN") ;;
  expect 324 (eqBytes tmp41 tmp42) (
  tmp43 <- Ret b3 ;;
  tmp44 <- getPart chd6 (str "A") ;;
  expect 325 (eqBytes tmp43 tmp44) (
  tmp45 <- Ret b4 ;;
  tmp46 <- getPart chd7 (str "A") ;;
  expect 326 (eqBytes tmp45 tmp46) (
  tmp47 <- Ret b5 ;;
  tmp48 <- getPart chd6 (str "B") ;;
  expect 327 (eqBytes tmp47 tmp48) (
  tmp49 <- Ret b6 ;;
  tmp50 <- getPart chd7 (str "B") ;;
  expect 328 (eqBytes tmp49 tmp50) (
  tmp51 <- Ret b7 ;;
  tmp52 <- getPart chd6 (str "C") ;;
  expect 329 (eqBytes tmp51 tmp52) (
  tmp53 <- Ret b8 ;;
  tmp54 <- getPart chd7 (str "C") ;;
  expect 330 (eqBytes tmp53 tmp54) (
  expect 331 (throws InvalidArgument (getPart chd6 (str "D"))) (
  expect 332 (throws InvalidArgument (getPart chd7 (str "D"))) (
  Ret []))))))))))))))))))))))))))))))))))))))))))))))))))))))).
Example chd_getPart_passes : chd_getPart = Ret [].
Proof. vm_compute. reflexivity. Qed.

(** chainhashdata_unittest.cpp 335-390: 18 checks *)
Definition chd_getLen : outcome (list N) :=
  chd <- (x <- newFormat 1 ;; Ret (newChd x)) ;;
  tmp1 <- Ret 0 ;;
  tmp2 <- Ret (cd_len chd) ;;
  expect 339 (N.eqb tmp1 tmp2) (
  chd2 <- (x <- newFormat 2 ;; Ret (newChd x)) ;;
  chd3 <- (x <- newFormat 2 ;; Ret (newChd x)) ;;
  tmp3 <- Ret 0 ;;
  tmp4 <- Ret (cd_len chd2) ;;
  expect 343 (N.eqb tmp3 tmp4) (
  tmp5 <- Ret 0 ;;
  tmp6 <- Ret (cd_len chd3) ;;
  expect 344 (N.eqb tmp5 tmp6) (
  b <- newBytes (255) ;;
  b <- fillrandom (rand 1) b ;;
  chd2 <- (x <- Ret b ;; cd_addBytes Debug x chd2) ;;
  chd3 <- (x <- newBytes (12) ;; cd_addBytes Debug x chd3) ;;
  tmp7 <- Ret 255 ;;
  tmp8 <- Ret (cd_len chd2) ;;
  expect 349 (N.eqb tmp7 tmp8) (
  tmp9 <- Ret 0 ;;
  tmp10 <- Ret (cd_len chd3) ;;
  expect 350 (N.eqb tmp9 tmp10) (
  chd4 <- (x <- newFormat 4 ;; Ret (newChd x)) ;;
  chd5 <- (x <- newFormat 4 ;; Ret (newChd x)) ;;
  tmp11 <- Ret 0 ;;
  tmp12 <- Ret (cd_len chd4) ;;
  expect 354 (N.eqb tmp11 tmp12) (
  tmp13 <- Ret 0 ;;
  tmp14 <- Ret (cd_len chd5) ;;
  expect 355 (N.eqb tmp13 tmp14) (
  startnum <- newBytes (8) ;;
  startnum2 <- newBytes (8) ;;
  startnum <- fillrandom (rand 2) startnum ;;
  startnum2 <- fillrandom (rand 3) startnum2 ;;
  chd4 <- (x <- Ret startnum ;; cd_addBytes Debug x chd4) ;;
  chd5 <- (x <- Ret startnum2 ;; cd_addBytes Debug x chd5) ;;
  tmp15 <- Ret 8 ;;
  tmp16 <- Ret (cd_len chd4) ;;
  expect 362 (N.eqb tmp15 tmp16) (
  tmp17 <- Ret 8 ;;
  tmp18 <- Ret (cd_len chd5) ;;
  expect 363 (N.eqb tmp17 tmp18) (
  b2 <- newBytes (247) ;;
  b2 <- fillrandom (rand 4) b2 ;;
  chd4 <- (x <- Ret b2 ;; cd_addBytes Debug x chd4) ;;
  chd5 <- (x <- newBytes (0) ;; cd_addBytes Debug x chd5) ;;
  tmp19 <- Ret 255 ;;
  tmp20 <- Ret (cd_len chd4) ;;
  expect 368 (N.eqb tmp19 tmp20) (
  tmp21 <- Ret 8 ;;
  tmp22 <- Ret (cd_len chd5) ;;
  expect 369 (N.eqb tmp21 tmp22) (
  chd6 <- (x <- newFormat 3 ;; Ret (newChd x)) ;;
  tmp23 <- Ret 0 ;;
  tmp24 <- Ret (cd_len chd6) ;;
  expect 372 (N.eqb tmp23 tmp24) (
  startnum3 <- newBytes (8) ;;
  startnum3 <- fillrandom (rand 5) startnum3 ;;
  chd6 <- (x <- Ret startnum3 ;; cd_addBytes Debug x chd6) ;;
  tmp25 <- Ret 8 ;;
  tmp26 <- Ret (cd_len chd6) ;;
  expect 376 (N.eqb tmp25 tmp26) (
  chd7 <- (x <- newFormat 5 ;; Ret (newChd x)) ;;
  tmp27 <- Ret 0 ;;
  tmp28 <- Ret (cd_len chd7) ;;
  expect 379 (N.eqb tmp27 tmp28) (
  startnum4 <- newBytes (8) ;;
  startnum4 <- fillrandom (rand 6) startnum4 ;;
  chd7 <- (x <- Ret startnum4 ;; cd_addBytes Debug x chd7) ;;
  tmp29 <- Ret 8 ;;
  tmp30 <- Ret (cd_len chd7) ;;
  expect 383 (N.eqb tmp29 tmp30) (
  chd7 <- (x <- Ret startnum4 ;; cd_addBytes Debug x chd7) ;;
  tmp31 <- Ret 16 ;;
  tmp32 <- Ret (cd_len chd7) ;;
  expect 385 (N.eqb tmp31 tmp32) (
  chd7 <- (x <- Ret startnum4 ;; cd_addBytes Debug x chd7) ;;
  tmp33 <- Ret 24 ;;
  tmp34 <- Ret (cd_len chd7) ;;
  expect 387 (N.eqb tmp33 tmp34) (
  chd7 <- (x <- Ret startnum4 ;; cd_addBytes Debug x chd7) ;;
  tmp35 <- Ret 32 ;;
  tmp36 <- Ret (cd_len chd7) ;;
  expect 389 (N.eqb tmp35 tmp36) (
  Ret [])))))))))))))))))).
Example chd_getLen_passes : chd_getLen = Ret [].
Proof. vm_compute. reflexivity. Qed.

(** chainhashdata_unittest.cpp 392-475: 49 checks *)
Definition chd_addBytes : outcome (list N) :=
  chd <- (x <- newFormat 1 ;; Ret (newChd x)) ;;
  b255 <- newBytes (255) ;;
  b256 <- newBytes (256) ;;
  b248 <- newBytes (248) ;;
  b247 <- newBytes (247) ;;
  b100 <- newBytes (100) ;;
  b8 <- newBytes (8) ;;
  b4 <- newBytes (4) ;;
  b255 <- fillrandom (rand 1) b255 ;;
  b256 <- fillrandom (rand 2) b256 ;;
  b248 <- fillrandom (rand 3) b248 ;;
  b247 <- fillrandom (rand 4) b247 ;;
  b100 <- fillrandom (rand 5) b100 ;;
  b8 <- fillrandom (rand 6) b8 ;;
  b4 <- fillrandom (rand 7) b4 ;;
  expect 410 (throws LogicError ((x <- newBytes (1) ;; cd_addBytes Debug x chd))) (
  expect 411 (throws LogicError ((x <- Ret b255 ;; cd_addBytes Debug x chd))) (
  expect 412 (throws LogicError ((x <- Ret b8 ;; cd_addBytes Debug x chd))) (
  chd2 <- (x <- newFormat 2 ;; Ret (newChd x)) ;;
  chd3 <- (x <- newFormat 2 ;; Ret (newChd x)) ;;
  chd4 <- (x <- newFormat 2 ;; Ret (newChd x)) ;;
  chd2 <- (x <- newBytes (12) ;; cd_addBytes Debug x chd2) ;;
  expect 417 (true) (
  chd3 <- (x <- Ret b255 ;; cd_addBytes Debug x chd3) ;;
  expect 418 (true) (
  expect 419 (throws LogicError ((x <- Ret b256 ;; cd_addBytes Debug x chd4))) (
  expect 421 (throws LogicError ((x <- Ret b8 ;; cd_addBytes Debug x chd2))) (
  expect 422 (throws LogicError ((x <- newBytes (0) ;; cd_addBytes Debug x chd2))) (
  expect 423 (throws LogicError ((x <- newBytes (0) ;; cd_addBytes Debug x chd3))) (
  chd5 <- (x <- newFormat 4 ;; Ret (newChd x)) ;;
  chd6 <- (x <- newFormat 4 ;; Ret (newChd x)) ;;
  chd7 <- (x <- newFormat 4 ;; Ret (newChd x)) ;;
  chd5 <- (x <- Ret b8 ;; cd_addBytes Debug x chd5) ;;
  expect 428 (true) (
  expect 429 (throws LogicError ((x <- newBytes (1) ;; cd_addBytes Debug x chd6))) (
  expect 430 (throws LogicError ((x <- Ret b4 ;; cd_addBytes Debug x chd6))) (
  expect 431 (throws LogicError ((x <- Ret b255 ;; cd_addBytes Debug x chd7))) (
  chd6 <- (x <- Ret b8 ;; cd_addBytes Debug x chd6) ;;
  expect 432 (true) (
  chd7 <- (x <- Ret b8 ;; cd_addBytes Debug x chd7) ;;
  expect 433 (true) (
  expect 434 (throws LogicError ((x <- Ret b248 ;; cd_addBytes Debug x chd5))) (
  expect 435 (throws LogicError ((x <- Ret b255 ;; cd_addBytes Debug x chd6))) (
  chd5 <- (x <- newBytes (0) ;; cd_addBytes Debug x chd5) ;;
  expect 436 (true) (
  chd6 <- (x <- Ret b247 ;; cd_addBytes Debug x chd6) ;;
  expect 437 (true) (
  chd7 <- (x <- Ret b100 ;; cd_addBytes Debug x chd7) ;;
  expect 438 (true) (
  expect 440 (throws LogicError ((x <- Ret b8 ;; cd_addBytes Debug x chd5))) (
  expect 441 (throws LogicError ((x <- newBytes (0) ;; cd_addBytes Debug x chd6))) (
  expect 442 (throws LogicError ((x <- Ret b255 ;; cd_addBytes Debug x chd7))) (
  chd8 <- (x <- newFormat 3 ;; Ret (newChd x)) ;;
  expect 445 (throws LogicError ((x <- newBytes (238) ;; cd_addBytes Debug x chd8))) (
  expect 446 (throws LogicError ((x <- Ret b4 ;; cd_addBytes Debug x chd8))) (
  expect 447 (throws LogicError ((x <- Ret b255 ;; cd_addBytes Debug x chd8))) (
  chd8 <- (x <- Ret b8 ;; cd_addBytes Debug x chd8) ;;
  expect 448 (true) (
  expect 450 (throws LogicError ((x <- Ret b8 ;; cd_addBytes Debug x chd8))) (
  expect 451 (throws LogicError ((x <- newBytes (0) ;; cd_addBytes Debug x chd8))) (
  chd9 <- (x <- newFormat 5 ;; Ret (newChd x)) ;;
  expect 454 (throws LogicError ((x <- newBytes (0) ;; cd_addBytes Debug x chd9))) (
  expect 455 (throws LogicError ((x <- Ret b4 ;; cd_addBytes Debug x chd9))) (
  expect 456 (throws LogicError ((x <- Ret b255 ;; cd_addBytes Debug x chd9))) (
  chd9 <- (x <- Ret b8 ;; cd_addBytes Debug x chd9) ;;
  expect 457 (true) (
  expect 458 (throws LogicError ((x <- newBytes (76) ;; cd_addBytes Debug x chd9))) (
  expect 459 (throws LogicError ((x <- Ret b4 ;; cd_addBytes Debug x chd9))) (
  expect 460 (throws LogicError ((x <- Ret b255 ;; cd_addBytes Debug x chd9))) (
  chd9 <- (x <- Ret b8 ;; cd_addBytes Debug x chd9) ;;
  expect 461 (true) (
  expect 462 (throws LogicError ((x <- newBytes (0) ;; cd_addBytes Debug x chd9))) (
  expect 463 (throws LogicError ((x <- Ret b4 ;; cd_addBytes Debug x chd9))) (
  expect 464 (throws LogicError ((x <- Ret b255 ;; cd_addBytes Debug x chd9))) (
  chd9 <- (x <- Ret b8 ;; cd_addBytes Debug x chd9) ;;
  expect 465 (true) (
  expect 466 (throws LogicError ((x <- newBytes (1) ;; cd_addBytes Debug x chd9))) (
  expect 467 (throws LogicError ((x <- Ret b4 ;; cd_addBytes Debug x chd9))) (
  expect 468 (throws LogicError ((x <- Ret b255 ;; cd_addBytes Debug x chd9))) (
  chd9 <- (x <- Ret b8 ;; cd_addBytes Debug x chd9) ;;
  expect 469 (true) (
  expect 471 (throws LogicError ((x <- newBytes (0) ;; cd_addBytes Debug x chd9))) (
  expect 472 (throws LogicError ((x <- Ret b4 ;; cd_addBytes Debug x chd9))) (
  expect 473 (throws LogicError ((x <- Ret b255 ;; cd_addBytes Debug x chd9))) (
  expect 474 (throws LogicError ((x <- Ret b8 ;; cd_addBytes Debug x chd9))) (
  Ret []))))))))))))))))))))))))))))))))))))))))))))))))).
Example chd_addBytes_passes : chd_addBytes = Ret [].
Proof. vm_compute. reflexivity. Qed.

(** chainhashdata_unittest.cpp 477-633: 75 checks *)
Definition chd_operator : outcome (list N) :=
  chd <- (x <- newFormat 1 ;; Ret (newChd x)) ;;
  chd2 <- (x <- newFormat 1 ;; Ret (newChd x)) ;;
  chd3 <- (x <- newFormat 1 ;; Ret (newChd x)) ;;
  tmp1 <- Ret (cd_eqb chd chd2) ;;
  expect 483 (tmp1) (
  tmp2 <- Ret (cd_eqb chd2 chd) ;;
  expect 484 (tmp2) (
  tmp3 <- Ret (cd_eqb chd chd) ;;
  expect 485 (tmp3) (
  tmp4 <- Ret (cd_eqb chd chd3) ;;
  expect 486 (tmp4) (
  tmp5 <- Ret (cd_eqb chd3 chd2) ;;
  expect 487 (tmp5) (
  chd4 <- (x <- newFormat 2 ;; Ret (newChd x)) ;;
  chd5 <- (x <- newFormat 2 ;; Ret (newChd x)) ;;
  chd6 <- (x <- newFormat 2 ;; Ret (newChd x)) ;;
  tmp6 <- Ret (cd_eqb chd4 chd5) ;;
  expect 492 (negb tmp6) (
  tmp7 <- Ret (cd_eqb chd5 chd6) ;;
  expect 493 (negb tmp7) (
  tmp8 <- Ret (cd_eqb chd6 chd6) ;;
  expect 494 (negb tmp8) (
  b1 <- newBytes (0) ;;
  b2 <- newBytes (255) ;;
  b1 <- fillrandom (rand 1) b1 ;;
  b2 <- fillrandom (rand 2) b2 ;;
  chd4 <- (x <- Ret b1 ;; cd_addBytes Debug x chd4) ;;
  chd5 <- (x <- Ret b2 ;; cd_addBytes Debug x chd5) ;;
  tmp9 <- Ret (cd_eqb chd4 chd5) ;;
  expect 501 (negb tmp9) (
  tmp10 <- Ret (cd_eqb chd5 chd6) ;;
  expect 502 (negb tmp10) (
  tmp11 <- Ret (cd_eqb chd6 chd6) ;;
  expect 503 (negb tmp11) (
  tmp12 <- Ret (cd_eqb chd4 chd4) ;;
  expect 504 (tmp12) (
  tmp13 <- Ret (cd_eqb chd5 chd5) ;;
  expect 505 (tmp13) (
  chd6 <- (x <- Ret b2 ;; cd_addBytes Debug x chd6) ;;
  tmp14 <- Ret (cd_eqb chd4 chd5) ;;
  expect 507 (negb tmp14) (
  tmp15 <- Ret (cd_eqb chd4 chd6) ;;
  expect 508 (negb tmp15) (
  tmp16 <- Ret (cd_eqb chd5 chd6) ;;
  expect 509 (tmp16) (
  tmp17 <- Ret (cd_eqb chd6 chd6) ;;
  expect 510 (tmp17) (
  chd7 <- (x <- newFormat 4 ;; Ret (newChd x)) ;;
  chd8 <- (x <- newFormat 4 ;; Ret (newChd x)) ;;
  chd9 <- (x <- newFormat 4 ;; Ret (newChd x)) ;;
  chd10 <- (x <- newFormat 4 ;; Ret (newChd x)) ;;
  chd11 <- (x <- newFormat 4 ;; Ret (newChd x)) ;;
  tmp18 <- Ret (cd_eqb chd7 chd8) ;;
  expect 517 (negb tmp18) (
  tmp19 <- Ret (cd_eqb chd8 chd9) ;;
  expect 518 (negb tmp19) (
  tmp20 <- Ret (cd_eqb chd9 chd9) ;;
  expect 519 (negb tmp20) (
  startnum <- newBytes (8) ;;
  startnum2 <- newBytes (8) ;;
  startnum <- fillrandom (rand 3) startnum ;;
  startnum2 <- fillrandom (rand 4) startnum2 ;;
  chd7 <- (x <- Ret startnum ;; cd_addBytes Debug x chd7) ;;
  chd8 <- (x <- Ret startnum ;; cd_addBytes Debug x chd8) ;;
  chd9 <- (x <- Ret startnum2 ;; cd_addBytes Debug x chd9) ;;
  chd10 <- (x <- Ret startnum2 ;; cd_addBytes Debug x chd10) ;;
  chd11 <- (x <- Ret startnum ;; cd_addBytes Debug x chd11) ;;
  tmp21 <- Ret (cd_eqb chd7 chd8) ;;
  expect 529 (negb tmp21) (
  tmp22 <- Ret (cd_eqb chd8 chd9) ;;
  expect 530 (negb tmp22) (
  tmp23 <- Ret (cd_eqb chd9 chd9) ;;
  expect 531 (negb tmp23) (
  tmp24 <- Ret (cd_eqb chd9 chd10) ;;
  expect 532 (negb tmp24) (
  b3 <- newBytes (0) ;;
  b4 <- newBytes (247) ;;
  b3 <- fillrandom (rand 5) b3 ;;
  b4 <- fillrandom (rand 6) b4 ;;
  chd7 <- (x <- Ret b3 ;; cd_addBytes Debug x chd7) ;;
  tmp25 <- Ret (cd_eqb chd7 chd7) ;;
  expect 538 (tmp25) (
  tmp26 <- Ret (cd_eqb chd7 chd8) ;;
  expect 539 (negb tmp26) (
  chd8 <- (x <- Ret b3 ;; cd_addBytes Debug x chd8) ;;
  tmp27 <- Ret (cd_eqb chd8 chd8) ;;
  expect 541 (tmp27) (
  tmp28 <- Ret (cd_eqb chd7 chd8) ;;
  expect 542 (tmp28) (
  chd11 <- (x <- Ret b4 ;; cd_addBytes Debug x chd11) ;;
  tmp29 <- Ret (cd_eqb chd7 chd11) ;;
  expect 544 (negb tmp29) (
  tmp30 <- Ret (cd_eqb chd8 chd11) ;;
  expect 545 (negb tmp30) (
  tmp31 <- Ret (cd_eqb chd11 chd11) ;;
  expect 546 (tmp31) (
  chd10 <- (x <- Ret b4 ;; cd_addBytes Debug x chd10) ;;
  tmp32 <- Ret (cd_eqb chd10 chd10) ;;
  expect 548 (tmp32) (
  tmp33 <- Ret (cd_eqb chd10 chd11) ;;
  expect 549 (negb tmp33) (
  tmp34 <- Ret (cd_eqb chd9 chd10) ;;
  expect 550 (negb tmp34) (
  chd9 <- (x <- Ret b4 ;; cd_addBytes Debug x chd9) ;;
  tmp35 <- Ret (cd_eqb chd9 chd9) ;;
  expect 552 (tmp35) (
  tmp36 <- Ret (cd_eqb chd9 chd10) ;;
  expect 553 (tmp36) (
  tmp37 <- Ret (cd_eqb chd9 chd11) ;;
  expect 554 (negb tmp37) (
  tmp38 <- Ret (cd_eqb chd10 chd11) ;;
  expect 555 (negb tmp38) (
  chd12 <- (x <- newFormat 3 ;; Ret (newChd x)) ;;
  chd13 <- (x <- newFormat 3 ;; Ret (newChd x)) ;;
  chd14 <- (x <- newFormat 3 ;; Ret (newChd x)) ;;
  startnum3 <- newBytes (8) ;;
  startnum3 <- fillrandom (rand 7) startnum3 ;;
  tmp39 <- Ret (cd_eqb chd12 chd13) ;;
  expect 562 (negb tmp39) (
  tmp40 <- Ret (cd_eqb chd13 chd14) ;;
  expect 563 (negb tmp40) (
  tmp41 <- Ret (cd_eqb chd14 chd14) ;;
  expect 564 (negb tmp41) (
  chd12 <- (x <- Ret startnum3 ;; cd_addBytes Debug x chd12) ;;
  chd13 <- (x <- Ret startnum3 ;; cd_addBytes Debug x chd13) ;;
  b8 <- newBytes (8) ;;
  b8 <- fillrandom (rand 8) b8 ;;
  chd14 <- (x <- Ret b8 ;; cd_addBytes Debug x chd14) ;;
  tmp42 <- Ret (cd_eqb chd14 chd12) ;;
  expect 570 (negb tmp42) (
  tmp43 <- Ret (cd_eqb chd14 chd13) ;;
  expect 571 (negb tmp43) (
  tmp44 <- Ret (cd_eqb chd12 chd12) ;;
  expect 572 (tmp44) (
  tmp45 <- Ret (cd_eqb chd13 chd13) ;;
  expect 573 (tmp45) (
  tmp46 <- Ret (cd_eqb chd12 chd13) ;;
  expect 574 (tmp46) (
  tmp47 <- Ret (cd_eqb chd14 chd14) ;;
  expect 575 (tmp47) (
  chd15 <- (x <- newFormat 5 ;; Ret (newChd x)) ;;
  chd16 <- (x <- newFormat 5 ;; Ret (newChd x)) ;;
  chd17 <- (x <- newFormat 5 ;; Ret (newChd x)) ;;
  chd18 <- (x <- newFormat 5 ;; Ret (newChd x)) ;;
  startnum4 <- newBytes (8) ;;
  startnum4 <- fillrandom (rand 9) startnum4 ;;
  tmp48 <- Ret (cd_eqb chd15 chd16) ;;
  expect 583 (negb tmp48) (
  tmp49 <- Ret (cd_eqb chd16 chd17) ;;
  expect 584 (negb tmp49) (
  tmp50 <- Ret (cd_eqb chd17 chd17) ;;
  expect 585 (negb tmp50) (
  tmp51 <- Ret (cd_eqb chd18 chd18) ;;
  expect 586 (negb tmp51) (
  tmp52 <- Ret (cd_eqb chd15 chd18) ;;
  expect 587 (negb tmp52) (
  chd15 <- (x <- Ret startnum4 ;; cd_addBytes Debug x chd15) ;;
  chd16 <- (x <- Ret startnum4 ;; cd_addBytes Debug x chd16) ;;
  chd17 <- (x <- Ret startnum4 ;; cd_addBytes Debug x chd17) ;;
  chd18 <- (x <- Ret b8 ;; cd_addBytes Debug x chd18) ;;
  tmp53 <- Ret (cd_eqb chd15 chd16) ;;
  expect 592 (negb tmp53) (
  tmp54 <- Ret (cd_eqb chd16 chd17) ;;
  expect 593 (negb tmp54) (
  tmp55 <- Ret (cd_eqb chd17 chd17) ;;
  expect 594 (negb tmp55) (
  tmp56 <- Ret (cd_eqb chd18 chd18) ;;
  expect 595 (negb tmp56) (
  tmp57 <- Ret (cd_eqb chd15 chd18) ;;
  expect 596 (negb tmp57) (
  b5 <- newBytes (8) ;;
  b6 <- newBytes (8) ;;
  b7 <- newBytes (8) ;;
  b5 <- fillrandom (rand 10) b5 ;;
  b6 <- fillrandom (rand 11) b6 ;;
  b7 <- fillrandom (rand 12) b7 ;;
  chd15 <- (x <- Ret b5 ;; cd_addBytes Debug x chd15) ;;
  chd16 <- (x <- Ret b5 ;; cd_addBytes Debug x chd16) ;;
  chd17 <- (x <- Ret b5 ;; cd_addBytes Debug x chd17) ;;
  chd18 <- (x <- Ret b5 ;; cd_addBytes Debug x chd18) ;;
  tmp58 <- Ret (cd_eqb chd15 chd16) ;;
  expect 607 (negb tmp58) (
  tmp59 <- Ret (cd_eqb chd16 chd17) ;;
  expect 608 (negb tmp59) (
  tmp60 <- Ret (cd_eqb chd17 chd17) ;;
  expect 609 (negb tmp60) (
  tmp61 <- Ret (cd_eqb chd18 chd18) ;;
  expect 610 (negb tmp61) (
  tmp62 <- Ret (cd_eqb chd15 chd18) ;;
  expect 611 (negb tmp62) (
  chd15 <- (x <- Ret b6 ;; cd_addBytes Debug x chd15) ;;
  chd16 <- (x <- Ret b6 ;; cd_addBytes Debug x chd16) ;;
  chd17 <- (x <- Ret b6 ;; cd_addBytes Debug x chd17) ;;
  chd18 <- (x <- Ret b6 ;; cd_addBytes Debug x chd18) ;;
  tmp63 <- Ret (cd_eqb chd15 chd16) ;;
  expect 616 (negb tmp63) (
  tmp64 <- Ret (cd_eqb chd16 chd17) ;;
  expect 617 (negb tmp64) (
  tmp65 <- Ret (cd_eqb chd17 chd17) ;;
  expect 618 (negb tmp65) (
  tmp66 <- Ret (cd_eqb chd18 chd18) ;;
  expect 619 (negb tmp66) (
  tmp67 <- Ret (cd_eqb chd15 chd18) ;;
  expect 620 (negb tmp67) (
  chd15 <- (x <- Ret b8 ;; cd_addBytes Debug x chd15) ;;
  chd16 <- (x <- Ret b7 ;; cd_addBytes Debug x chd16) ;;
  chd17 <- (x <- Ret b7 ;; cd_addBytes Debug x chd17) ;;
  chd18 <- (x <- Ret b7 ;; cd_addBytes Debug x chd18) ;;
  tmp68 <- Ret (cd_eqb chd15 chd16) ;;
  expect 625 (negb tmp68) (
  tmp69 <- Ret (cd_eqb chd16 chd17) ;;
  expect 626 (tmp69) (
  tmp70 <- Ret (cd_eqb chd17 chd17) ;;
  expect 627 (tmp70) (
  tmp71 <- Ret (cd_eqb chd18 chd18) ;;
  expect 628 (tmp71) (
  tmp72 <- Ret (cd_eqb chd15 chd18) ;;
  expect 629 (negb tmp72) (
  tmp73 <- Ret (cd_eqb chd16 chd16) ;;
  expect 630 (tmp73) (
  tmp74 <- Ret (cd_eqb chd15 chd15) ;;
  expect 631 (tmp74) (
  tmp75 <- Ret (cd_eqb chd16 chd18) ;;
  expect 632 (negb tmp75) (
  Ret []))))))))))))))))))))))))))))))))))))))))))))))))))))))))))))))))))))))))))).
Example chd_operator_passes : chd_operator = Ret [].
Proof. vm_compute. reflexivity. Qed.

(** block_unittest.cpp 9-88: 37 checks *)
Definition block_DecryptBlock : outcome (list N) :=
  hash <- getHash sha2 1 ;;
  hash2 <- getHash sha2 2 ;;
  hash3 <- getHash sha2 3 ;;
  salt <- newBytes (32) ;;
  salt <- fillrandom (rand 1) salt ;;
  block <- (x <- Ret salt ;; new_block hash x) ;;
  tmp1 <- Ret (blk_free block) ;;
  tmp2 <- Ret 32 ;;
  expect 17 (N.eqb tmp1 tmp2) (
  expect 18 (throws LengthError (blk_getHash block)) (
  tmp3 <- newBytes (10) ;;
  tmp4 <- blk_getResult Dec block ;;
  expect 19 (eqBytes tmp3 tmp4) (
  block <- (x <- newBytes (10) ;; blk_addData Dec x block) ;;
  tmp5 <- Ret (blk_free block) ;;
  tmp6 <- Ret 32 ;;
  expect 22 (N.eqb tmp5 tmp6) (
  expect 23 (throws LengthError (blk_getHash block)) (
  tmp7 <- newBytes (10) ;;
  tmp8 <- blk_getResult Dec block ;;
  expect 24 (eqBytes tmp7 tmp8) (
  b <- newBytes (10) ;;
  b <- fillrandom (rand 2) b ;;
  block <- (x <- Ret b ;; blk_addData Dec x block) ;;
  tmp9 <- Ret (blk_free block) ;;
  tmp10 <- Ret 22 ;;
  expect 30 (N.eqb tmp9 tmp10) (
  expect 31 (throws LengthError (blk_getHash block)) (
  tmp11 <- (x <- Ret b ;; y <- copySubBytes 0 10 salt ;; minusBytes x y) ;;
  tmp12 <- blk_getResult Dec block ;;
  expect 32 (eqBytes tmp11 tmp12) (
  b2 <- newBytes (21) ;;
  b3 <- newBytes (100) ;;
  b2 <- fillrandom (rand 3) b2 ;;
  b3 <- copyToBytes b b3 ;;
  b3 <- addcopyToBytes b2 b3 ;;
  block <- (x <- Ret b2 ;; blk_addData Dec x block) ;;
  tmp13 <- Ret (blk_free block) ;;
  tmp14 <- Ret 1 ;;
  expect 40 (N.eqb tmp13 tmp14) (
  expect 41 (throws LengthError (blk_getHash block)) (
  tmp15 <- (x <- Ret b3 ;; y <- copySubBytes 0 31 salt ;; minusBytes x y) ;;
  tmp16 <- blk_getResult Dec block ;;
  expect 42 (eqBytes tmp15 tmp16) (
  b4 <- newBytes (1) ;;
  b4 <- fillrandom (rand 4) b4 ;;
  b3 <- addcopyToBytes b4 b3 ;;
  block <- (x <- Ret b4 ;; blk_addData Dec x block) ;;
  tmp17 <- Ret (blk_free block) ;;
  tmp18 <- Ret 0 ;;
  expect 48 (N.eqb tmp17 tmp18) (
  tmp19 <- (x <- (x <- Ret b3 ;; y <- Ret salt ;; minusBytes x y) ;; do_hash hash (bdata x) 0) ;;
  tmp20 <- blk_getHash block ;;
  expect 49 (eqBytes tmp19 tmp20) (
  tmp21 <- (x <- Ret b3 ;; y <- Ret salt ;; minusBytes x y) ;;
  tmp22 <- blk_getResult Dec block ;;
  expect 50 (eqBytes tmp21 tmp22) (
  block <- (x <- newBytes (10) ;; blk_addData Dec x block) ;;
  expect 52 (true) (
  tmp23 <- Ret (blk_free block) ;;
  tmp24 <- Ret 0 ;;
  expect 53 (N.eqb tmp23 tmp24) (
  tmp25 <- (x <- (x <- Ret b3 ;; y <- Ret salt ;; minusBytes x y) ;; do_hash hash (bdata x) 0) ;;
  tmp26 <- blk_getHash block ;;
  expect 54 (eqBytes tmp25 tmp26) (
  tmp27 <- (x <- Ret b3 ;; y <- Ret salt ;; minusBytes x y) ;;
  tmp28 <- blk_getResult Dec block ;;
  expect 55 (eqBytes tmp27 tmp28) (
  expect 57 (throws LengthError ((x <- Ret b4 ;; blk_addData Dec x block))) (
  block2 <- (x <- Ret salt ;; new_block hash x) ;;
  b3 <- addcopyToBytes b4 b3 ;;
  expect 61 (throws LengthError ((x <- Ret b3 ;; blk_addData Dec x block2))) (
  expect 64 (throws LengthError ((x <- newBytes (32) ;; new_block hash x))) (
  expect 65 (throws LengthError ((x <- newBytes (0) ;; new_block hash x))) (
  expect 66 (throws LengthError ((x <- Ret b3 ;; new_block hash x))) (
  expect 67 (throws LengthError ((x <- Ret b2 ;; new_block hash x))) (
  expect 68 (throws LengthError ((x <- Ret salt ;; new_block hash2 x))) (
  expect 69 (throws LengthError ((x <- Ret salt ;; new_block hash3 x))) (
  expect 70 (throws LengthError ((x <- Ret b3 ;; new_block hash2 x))) (
  expect 71 (throws LengthError ((x <- Ret b3 ;; new_block hash3 x))) (
  b5 <- newBytes (65) ;;
  b5 <- addrandom (rand 5) 15 b5 ;;
  b3 <- addcopyToBytes b5 b3 ;;
  block11 <- (x <- Ret b3 ;; new_block hash2 x) ;;
  expect 75 (true) (
  block11 <- (x <- Ret b3 ;; new_block hash2 x) ;;
  tmp29 <- Ret (blk_free block11) ;;
  tmp30 <- Ret 48 ;;
  expect 77 (N.eqb tmp29 tmp30) (
  expect 78 (throws LengthError ((x <- Ret b3 ;; new_block hash3 x))) (
  b3 <- addcopyToBytes b4 b3 ;;
  expect 80 (throws LengthError ((x <- Ret b3 ;; new_block hash2 x))) (
  b3 <- addcopyToBytes b5 b3 ;;
  expect 82 (throws LengthError ((x <- Ret b3 ;; new_block hash2 x))) (
  block15 <- (x <- Ret b3 ;; new_block hash3 x) ;;
  expect 83 (true) (
  block15 <- (x <- Ret b3 ;; new_block hash3 x) ;;
  tmp31 <- Ret (blk_free block15) ;;
  tmp32 <- Ret 64 ;;
  expect 85 (N.eqb tmp31 tmp32) (
  b3 <- addcopyToBytes b5 b3 ;;
  expect 87 (throws LengthError ((x <- Ret b3 ;; new_block hash3 x))) (
  Ret []))))))))))))))))))))))))))))))))))))).
Example block_DecryptBlock_passes : block_DecryptBlock = Ret [].
Proof. vm_compute. reflexivity. Qed.

(** block_unittest.cpp 90-169: 37 checks *)
Definition block_EncryptBlock : outcome (list N) :=
  hash <- getHash sha2 1 ;;
  hash2 <- getHash sha2 2 ;;
  hash3 <- getHash sha2 3 ;;
  salt <- newBytes (32) ;;
  salt <- fillrandom (rand 1) salt ;;
  block <- (x <- Ret salt ;; new_block hash x) ;;
  tmp1 <- Ret (blk_free block) ;;
  tmp2 <- Ret 32 ;;
  expect 98 (N.eqb tmp1 tmp2) (
  expect 99 (throws LengthError (blk_getHash block)) (
  tmp3 <- newBytes (10) ;;
  tmp4 <- blk_getResult Enc block ;;
  expect 100 (eqBytes tmp3 tmp4) (
  block <- (x <- newBytes (10) ;; blk_addData Enc x block) ;;
  tmp5 <- Ret (blk_free block) ;;
  tmp6 <- Ret 32 ;;
  expect 103 (N.eqb tmp5 tmp6) (
  expect 104 (throws LengthError (blk_getHash block)) (
  tmp7 <- newBytes (10) ;;
  tmp8 <- blk_getResult Enc block ;;
  expect 105 (eqBytes tmp7 tmp8) (
  b <- newBytes (10) ;;
  b <- fillrandom (rand 2) b ;;
  block <- (x <- Ret b ;; blk_addData Enc x block) ;;
  tmp9 <- Ret (blk_free block) ;;
  tmp10 <- Ret 22 ;;
  expect 111 (N.eqb tmp9 tmp10) (
  expect 112 (throws LengthError (blk_getHash block)) (
  tmp11 <- (x <- Ret b ;; y <- copySubBytes 0 10 salt ;; plusBytes x y) ;;
  tmp12 <- blk_getResult Enc block ;;
  expect 113 (eqBytes tmp11 tmp12) (
  b2 <- newBytes (21) ;;
  b3 <- newBytes (100) ;;
  b2 <- fillrandom (rand 3) b2 ;;
  b3 <- copyToBytes b b3 ;;
  b3 <- addcopyToBytes b2 b3 ;;
  block <- (x <- Ret b2 ;; blk_addData Enc x block) ;;
  tmp13 <- Ret (blk_free block) ;;
  tmp14 <- Ret 1 ;;
  expect 121 (N.eqb tmp13 tmp14) (
  expect 122 (throws LengthError (blk_getHash block)) (
  tmp15 <- (x <- Ret b3 ;; y <- copySubBytes 0 31 salt ;; plusBytes x y) ;;
  tmp16 <- blk_getResult Enc block ;;
  expect 123 (eqBytes tmp15 tmp16) (
  b4 <- newBytes (1) ;;
  b4 <- fillrandom (rand 4) b4 ;;
  b3 <- addcopyToBytes b4 b3 ;;
  block <- (x <- Ret b4 ;; blk_addData Enc x block) ;;
  tmp17 <- Ret (blk_free block) ;;
  tmp18 <- Ret 0 ;;
  expect 129 (N.eqb tmp17 tmp18) (
  tmp19 <- (x <- Ret b3 ;; do_hash hash (bdata x) 0) ;;
  tmp20 <- blk_getHash block ;;
  expect 130 (eqBytes tmp19 tmp20) (
  tmp21 <- (x <- Ret b3 ;; y <- Ret salt ;; plusBytes x y) ;;
  tmp22 <- blk_getResult Enc block ;;
  expect 131 (eqBytes tmp21 tmp22) (
  block <- (x <- newBytes (10) ;; blk_addData Enc x block) ;;
  expect 133 (true) (
  tmp23 <- Ret (blk_free block) ;;
  tmp24 <- Ret 0 ;;
  expect 134 (N.eqb tmp23 tmp24) (
  tmp25 <- (x <- Ret b3 ;; do_hash hash (bdata x) 0) ;;
  tmp26 <- blk_getHash block ;;
  expect 135 (eqBytes tmp25 tmp26) (
  tmp27 <- (x <- Ret b3 ;; y <- Ret salt ;; plusBytes x y) ;;
  tmp28 <- blk_getResult Enc block ;;
  expect 136 (eqBytes tmp27 tmp28) (
  expect 138 (throws LengthError ((x <- Ret b4 ;; blk_addData Enc x block))) (
  block2 <- (x <- Ret salt ;; new_block hash x) ;;
  b3 <- addcopyToBytes b4 b3 ;;
  expect 142 (throws LengthError ((x <- Ret b3 ;; blk_addData Enc x block2))) (
  expect 145 (throws LengthError ((x <- newBytes (32) ;; new_block hash x))) (
  expect 146 (throws LengthError ((x <- newBytes (0) ;; new_block hash x))) (
  expect 147 (throws LengthError ((x <- Ret b3 ;; new_block hash x))) (
  expect 148 (throws LengthError ((x <- Ret b2 ;; new_block hash x))) (
  expect 149 (throws LengthError ((x <- Ret salt ;; new_block hash2 x))) (
  expect 150 (throws LengthError ((x <- Ret salt ;; new_block hash3 x))) (
  expect 151 (throws LengthError ((x <- Ret b3 ;; new_block hash2 x))) (
  expect 152 (throws LengthError ((x <- Ret b3 ;; new_block hash3 x))) (
  b5 <- newBytes (65) ;;
  b5 <- addrandom (rand 5) 15 b5 ;;
  b3 <- addcopyToBytes b5 b3 ;;
  block11 <- (x <- Ret b3 ;; new_block hash2 x) ;;
  expect 156 (true) (
  block11 <- (x <- Ret b3 ;; new_block hash2 x) ;;
  tmp29 <- Ret (blk_free block11) ;;
  tmp30 <- Ret 48 ;;
  expect 158 (N.eqb tmp29 tmp30) (
  expect 159 (throws LengthError ((x <- Ret b3 ;; new_block hash3 x))) (
  b3 <- addcopyToBytes b4 b3 ;;
  expect 161 (throws LengthError ((x <- Ret b3 ;; new_block hash2 x))) (
  b3 <- addcopyToBytes b5 b3 ;;
  expect 163 (throws LengthError ((x <- Ret b3 ;; new_block hash2 x))) (
  block15 <- (x <- Ret b3 ;; new_block hash3 x) ;;
  expect 164 (true) (
  block15 <- (x <- Ret b3 ;; new_block hash3 x) ;;
  tmp31 <- Ret (blk_free block15) ;;
  tmp32 <- Ret 64 ;;
  expect 166 (N.eqb tmp31 tmp32) (
  b3 <- addcopyToBytes b5 b3 ;;
  expect 168 (throws LengthError ((x <- Ret b3 ;; new_block hash3 x))) (
  Ret []))))))))))))))))))))))))))))))))))))).
Example block_EncryptBlock_passes : block_EncryptBlock = Ret [].
Proof. vm_compute. reflexivity. Qed.

