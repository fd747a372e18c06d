(** The project's own unit tests, run on the model: tests/bytes_unittest.cpp.
    Each [EXPECT_...] of the test that the model can express is a check here, labelled with its line number; a test
    returns the list of the labels that failed.  Random bytes are [rand i n], the i-th request of the test. *)
From Coq Require Import Strings.String.
From Verif Require Import Base BytesModel CipherModel PwModel ChModel MiscModel PtrModel Sha2 TestLib.
Open Scope N_scope.

(** bytes_unittest.cpp 8-20: 7 checks *)
Definition bytes_constructor : outcome (list N) :=
  b1 <- newBytes (10) ;;
  tmp1 <- Ret 0 ;;
  tmp2 <- Ret (getLen b1) ;;
  expect 10 (N.eqb tmp1 tmp2) (
  tmp3 <- Ret 10 ;;
  tmp4 <- Ret (bmax b1) ;;
  expect 11 (N.eqb tmp3 tmp4) (
  b2 <- newBytes (0) ;;
  tmp5 <- Ret 0 ;;
  tmp6 <- Ret (getLen b2) ;;
  expect 13 (N.eqb tmp5 tmp6) (
  tmp7 <- Ret 0 ;;
  tmp8 <- Ret (bmax b2) ;;
  expect 14 (N.eqb tmp7 tmp8) (
  b3 <- newBytes (1000) ;;
  tmp9 <- Ret 0 ;;
  tmp10 <- Ret (getLen b3) ;;
  expect 16 (N.eqb tmp9 tmp10) (
  tmp11 <- Ret 1000 ;;
  tmp12 <- Ret (bmax b3) ;;
  expect 17 (N.eqb tmp11 tmp12) (
  expect 19 (throws InvalidArgument (newBytes (-1))) (
  Ret []))))))).
Example bytes_constructor_passes : bytes_constructor = Ret [].
Proof. vm_compute. reflexivity. Qed.

(** bytes_unittest.cpp 22-87: 28 checks *)
Definition bytes_fillrandom : outcome (list N) :=
  b1 <- newBytes (10) ;;
  b1 <- fillrandom (rand 1) b1 ;;
  tmp1 <- Ret 10 ;;
  tmp2 <- Ret (getLen b1) ;;
  expect 26 (N.eqb tmp1 tmp2) (
  tmp3 <- Ret 10 ;;
  tmp4 <- Ret (bmax b1) ;;
  expect 27 (N.eqb tmp3 tmp4) (
  b2 <- newBytes (0) ;;
  b2 <- fillrandom (rand 2) b2 ;;
  tmp5 <- Ret 0 ;;
  tmp6 <- Ret (getLen b2) ;;
  expect 30 (N.eqb tmp5 tmp6) (
  tmp7 <- Ret 0 ;;
  tmp8 <- Ret (bmax b2) ;;
  expect 31 (N.eqb tmp7 tmp8) (
  b3 <- newBytes (1000) ;;
  b3 <- fillrandom (rand 3) b3 ;;
  tmp9 <- Ret 1000 ;;
  tmp10 <- Ret (getLen b3) ;;
  expect 34 (N.eqb tmp9 tmp10) (
  tmp11 <- Ret 1000 ;;
  tmp12 <- Ret (bmax b3) ;;
  expect 35 (N.eqb tmp11 tmp12) (
  b4 <- newBytes (100) ;;
  b4 <- addByte (n2b 173) b4 ;;
  b4 <- fillrandom (rand 4) b4 ;;
  tmp13 <- Ret 100 ;;
  tmp14 <- Ret (getLen b4) ;;
  expect 40 (N.eqb tmp13 tmp14) (
  tmp15 <- Ret 100 ;;
  tmp16 <- Ret (bmax b4) ;;
  expect 41 (N.eqb tmp15 tmp16) (
  tmp17 <- Ret 173 ;;
  tmp18 <- at_ b4 0 ;;
  expect 42 (N.eqb tmp17 tmp18) (
  b5 <- newBytes (100) ;;
  b5 <- addrandom (rand 5) 10 b5 ;;
  b6 <- newBytes (100) ;;
  b6 <- copyToBytes b5 b6 ;;
  b5 <- fillrandom (rand 6) b5 ;;
  tmp19 <- Ret 100 ;;
  tmp20 <- Ret (getLen b5) ;;
  expect 49 (N.eqb tmp19 tmp20) (
  tmp21 <- Ret 100 ;;
  tmp22 <- Ret (bmax b5) ;;
  expect 50 (N.eqb tmp21 tmp22) (
  tmp23 <- Ret 10 ;;
  tmp24 <- Ret (getLen b6) ;;
  expect 51 (N.eqb tmp23 tmp24) (
  tmp25 <- Ret 100 ;;
  tmp26 <- Ret (bmax b6) ;;
  expect 52 (N.eqb tmp25 tmp26) (
  tmp27 <- Ret b5 ;;
  tmp28 <- Ret b6 ;;
  expect 53 (negb (eqBytes tmp27 tmp28)) (
  tmp29 <- Ret (same_first 10 (dropN 0 (bdata b5)) (dropN 0 (bdata b6))) ;;
  expect 54 (tmp29) (
  b7 <- newBytes (100) ;;
  b7 <- addrandom (rand 7) 100 b7 ;;
  b8 <- newBytes (100) ;;
  b8 <- copyToBytes b7 b8 ;;
  b7 <- fillrandom (rand 8) b7 ;;
  b8 <- fillrandom (rand 9) b8 ;;
  tmp30 <- Ret 100 ;;
  tmp31 <- Ret (getLen b7) ;;
  expect 62 (N.eqb tmp30 tmp31) (
  tmp32 <- Ret 100 ;;
  tmp33 <- Ret (bmax b7) ;;
  expect 63 (N.eqb tmp32 tmp33) (
  tmp34 <- Ret 100 ;;
  tmp35 <- Ret (getLen b8) ;;
  expect 64 (N.eqb tmp34 tmp35) (
  tmp36 <- Ret 100 ;;
  tmp37 <- Ret (bmax b8) ;;
  expect 65 (N.eqb tmp36 tmp37) (
  tmp38 <- Ret b7 ;;
  tmp39 <- Ret b8 ;;
  expect 66 (eqBytes tmp38 tmp39) (
  tmp40 <- Ret (same_first 100 (dropN 0 (bdata b7)) (dropN 0 (bdata b8))) ;;
  expect 67 (tmp40) (
  b9 <- newBytes (100) ;;
  b9 <- fillrandom (rand 10) b9 ;;
  b10 <- newBytes (100) ;;
  b10 <- copyToBytes b9 b10 ;;
  b9 <- fillrandom (rand 11) b9 ;;
  tmp41 <- Ret 100 ;;
  tmp42 <- Ret (getLen b9) ;;
  expect 74 (N.eqb tmp41 tmp42) (
  tmp43 <- Ret 100 ;;
  tmp44 <- Ret (bmax b9) ;;
  expect 75 (N.eqb tmp43 tmp44) (
  tmp45 <- Ret 100 ;;
  tmp46 <- Ret (getLen b10) ;;
  expect 76 (N.eqb tmp45 tmp46) (
  tmp47 <- Ret 100 ;;
  tmp48 <- Ret (bmax b10) ;;
  expect 77 (N.eqb tmp47 tmp48) (
  tmp49 <- Ret b9 ;;
  tmp50 <- Ret b10 ;;
  expect 78 (eqBytes tmp49 tmp50) (
  tmp51 <- Ret (same_first 100 (dropN 0 (bdata b9)) (dropN 0 (bdata b10))) ;;
  expect 79 (tmp51) (
  b11 <- newBytes (100) ;;
  b4 <- fillrandom (rand 12) b4 ;;
  b12 <- newBytes (100) ;;
  b5 <- fillrandom (rand 13) b5 ;;
  tmp52 <- Ret b4 ;;
  tmp53 <- Ret b5 ;;
  expect 86 (negb (eqBytes tmp52 tmp53)) (
  Ret [])))))))))))))))))))))))))))).
Example bytes_fillrandom_passes : bytes_fillrandom = Ret [].
Proof. vm_compute. reflexivity. Qed.

(** bytes_unittest.cpp 89-170: 25 checks *)
Definition bytes_addrandom : outcome (list N) :=
  b1 <- newBytes (10) ;;
  b1 <- addrandom (rand 1) 10 b1 ;;
  tmp1 <- Ret 10 ;;
  tmp2 <- Ret (getLen b1) ;;
  expect 93 (N.eqb tmp1 tmp2) (
  tmp3 <- Ret 10 ;;
  tmp4 <- Ret (bmax b1) ;;
  expect 94 (N.eqb tmp3 tmp4) (
  b2 <- newBytes (0) ;;
  b2 <- addrandom (rand 2) 0 b2 ;;
  tmp5 <- Ret 0 ;;
  tmp6 <- Ret (getLen b2) ;;
  expect 97 (N.eqb tmp5 tmp6) (
  tmp7 <- Ret 0 ;;
  tmp8 <- Ret (bmax b2) ;;
  expect 98 (N.eqb tmp7 tmp8) (
  b3 <- newBytes (1000) ;;
  b3 <- addrandom (rand 3) 1000 b3 ;;
  tmp9 <- Ret 1000 ;;
  tmp10 <- Ret (getLen b3) ;;
  expect 101 (N.eqb tmp9 tmp10) (
  tmp11 <- Ret 1000 ;;
  tmp12 <- Ret (bmax b3) ;;
  expect 102 (N.eqb tmp11 tmp12) (
  b4 <- newBytes (100) ;;
  b4 <- addrandom (rand 4) 10 b4 ;;
  tmp13 <- Ret 10 ;;
  tmp14 <- Ret (getLen b4) ;;
  expect 106 (N.eqb tmp13 tmp14) (
  tmp15 <- Ret 100 ;;
  tmp16 <- Ret (bmax b4) ;;
  expect 107 (N.eqb tmp15 tmp16) (
  b5 <- newBytes (100) ;;
  b5 <- addrandom (rand 5) 0 b5 ;;
  tmp17 <- Ret 0 ;;
  tmp18 <- Ret (getLen b5) ;;
  expect 110 (N.eqb tmp17 tmp18) (
  tmp19 <- Ret 100 ;;
  tmp20 <- Ret (bmax b5) ;;
  expect 111 (N.eqb tmp19 tmp20) (
  b6 <- newBytes (100) ;;
  b6 <- addrandom (rand 6) 100 b6 ;;
  b7 <- newBytes (100) ;;
  b7 <- fillrandom (rand 7) b7 ;;
  tmp21 <- Ret b6 ;;
  tmp22 <- Ret b7 ;;
  expect 118 (negb (eqBytes tmp21 tmp22)) (
  b8 <- newBytes (100) ;;
  b8 <- addrandom (rand 8) 10 b8 ;;
  b9 <- newBytes (100) ;;
  b9 <- addrandom (rand 9) 10 b9 ;;
  tmp23 <- Ret b8 ;;
  tmp24 <- Ret b9 ;;
  expect 124 (negb (eqBytes tmp23 tmp24)) (
  b10 <- newBytes (100) ;;
  b10 <- addrandom (rand 10) 10 b10 ;;
  b11 <- newBytes (100) ;;
  b11 <- copyToBytes b10 b11 ;;
  tmp25 <- Ret b10 ;;
  tmp26 <- Ret b11 ;;
  expect 130 (eqBytes tmp25 tmp26) (
  b10 <- addrandom (rand 11) 10 b10 ;;
  tmp27 <- Ret b10 ;;
  tmp28 <- Ret b11 ;;
  expect 132 (negb (eqBytes tmp27 tmp28)) (
  b11 <- addrandom (rand 12) 10 b11 ;;
  tmp29 <- Ret b10 ;;
  tmp30 <- Ret b11 ;;
  expect 134 (negb (eqBytes tmp29 tmp30)) (
  b12 <- newBytes (100) ;;
  b12 <- fillrandom (rand 13) b12 ;;
  b13 <- newBytes (100) ;;
  b13 <- copyToBytes b12 b13 ;;
  tmp31 <- Ret b12 ;;
  tmp32 <- Ret b13 ;;
  expect 140 (eqBytes tmp31 tmp32) (
  expect 141 (throws LengthError (addrandom (rand 14) 10 b12)) (
  expect 142 (throws LengthError (addrandom (rand 15) 10 b13)) (
  b14 <- newBytes (100) ;;
  b14 <- addrandom (rand 16) 100 b14 ;;
  b15 <- newBytes (100) ;;
  b15 <- copyToBytes b14 b15 ;;
  tmp33 <- Ret b14 ;;
  tmp34 <- Ret b15 ;;
  expect 148 (eqBytes tmp33 tmp34) (
  expect 149 (throws LengthError (addrandom (rand 17) 10 b14)) (
  expect 150 (throws LengthError (addrandom (rand 18) 10 b15)) (
  b16 <- newBytes (100) ;;
  expect 154 (throws LengthError (addrandom (rand 19) 101 b16)) (
  b17 <- newBytes (100) ;;
  b18 <- newBytes (100) ;;
  b18 <- addrandom (rand 20) 99 b18 ;;
  expect 161 (throws LengthError (addrandom (rand 21) 2 b18)) (
  b19 <- newBytes (100) ;;
  b19 <- addrandom (rand 22) 100 b19 ;;
  expect 165 (throws LengthError (addrandom (rand 23) 1 b19)) (
  b20 <- newBytes (100) ;;
  b20 <- addrandom (rand 24) 99 b20 ;;
  b20 <- addrandom (rand 25) 1 b20 ;;
  expect 169 (true) (
  Ret []))))))))))))))))))))))))).
Example bytes_addrandom_passes : bytes_addrandom = Ret [].
Proof. vm_compute. reflexivity. Qed.

(** bytes_unittest.cpp 172-217: 15 checks *)
Definition bytes_setBytes : outcome (list N) :=
  b1 <- newBytes (10) ;;
  bytes1 <- Ret (map n2b [0; 1; 2; 3; 4; 5; 6; 7; 8; 9]) ;;
  test <- Ret (repeat xcc (N.to_nat 10)) ;;
  b1 <- setBytes (takeN 10 (dropN 0 bytes1)) b1 ;;
  tmp1 <- Ret 10 ;;
  tmp2 <- Ret (getLen b1) ;;
  expect 177 (N.eqb tmp1 tmp2) (
  tmp3 <- Ret 10 ;;
  tmp4 <- Ret (bmax b1) ;;
  expect 178 (N.eqb tmp3 tmp4) (
  test <- Ret (put_at 0 (takeN 10 (dropN 0 (bdata b1))) test) ;;
  tmp5 <- Ret (same_first 10 (dropN 0 bytes1) (dropN 0 test)) ;;
  expect 180 (tmp5) (
  b2 <- newBytes (10) ;;
  b2 <- fillrandom (rand 1) b2 ;;
  b2 <- setBytes (takeN 10 (dropN 0 bytes1)) b2 ;;
  tmp6 <- Ret 10 ;;
  tmp7 <- Ret (getLen b2) ;;
  expect 185 (N.eqb tmp6 tmp7) (
  tmp8 <- Ret 10 ;;
  tmp9 <- Ret (bmax b2) ;;
  expect 186 (N.eqb tmp8 tmp9) (
  test <- Ret (put_at 0 (takeN 10 (dropN 0 (bdata b2))) test) ;;
  tmp10 <- Ret (same_first 10 (dropN 0 bytes1) (dropN 0 test)) ;;
  expect 188 (tmp10) (
  b3 <- newBytes (10) ;;
  b3 <- addrandom (rand 2) 5 b3 ;;
  b3 <- setBytes (takeN 10 (dropN 0 bytes1)) b3 ;;
  tmp11 <- Ret 10 ;;
  tmp12 <- Ret (getLen b3) ;;
  expect 193 (N.eqb tmp11 tmp12) (
  tmp13 <- Ret 10 ;;
  tmp14 <- Ret (bmax b3) ;;
  expect 194 (N.eqb tmp13 tmp14) (
  test <- Ret (put_at 0 (takeN 10 (dropN 0 (bdata b3))) test) ;;
  tmp15 <- Ret (same_first 10 (dropN 0 bytes1) (dropN 0 test)) ;;
  expect 196 (tmp15) (
  b4 <- newBytes (10) ;;
  b4 <- addByte (n2b 173) b4 ;;
  b4 <- setBytes (takeN 9 (dropN 0 bytes1)) b4 ;;
  tmp16 <- Ret 9 ;;
  tmp17 <- Ret (getLen b4) ;;
  expect 201 (N.eqb tmp16 tmp17) (
  tmp18 <- Ret 10 ;;
  tmp19 <- Ret (bmax b4) ;;
  expect 202 (N.eqb tmp18 tmp19) (
  test <- Ret (put_at 0 (takeN 9 (dropN 0 (bdata b4))) test) ;;
  test <- Ret (put_at 9 [n2b 9] test) ;;
  tmp20 <- Ret (same_first 10 (dropN 0 bytes1) (dropN 0 test)) ;;
  expect 205 (tmp20) (
  bytes2 <- Ret (map n2b [0; 1; 2; 3; 4; 5; 6; 7; 8; 9; 10]) ;;
  b5 <- newBytes (10) ;;
  expect 210 (throws LengthError (setBytes (takeN 11 (dropN 0 bytes2)) b5)) (
  b6 <- newBytes (0) ;;
  expect 212 (throws LengthError (setBytes (takeN 11 (dropN 0 bytes2)) b6)) (
  b7 <- newBytes (11) ;;
  b7 <- setBytes (takeN 11 (dropN 0 bytes2)) b7 ;;
  expect 214 (true) (
  b8 <- newBytes (11) ;;
  Ret []))))))))))))))).
Example bytes_setBytes_passes : bytes_setBytes = Ret [].
Proof. vm_compute. reflexivity. Qed.

(** bytes_unittest.cpp 219-275: 15 checks *)
Definition bytes_consumeBytesArray : outcome (list N) :=
  b1 <- newBytes (10) ;;
  bytes1 <- Ret (map n2b [0; 1; 2; 3; 4; 5; 6; 7; 8; 9]) ;;
  bytes2 <- Ret (map n2b [0; 1; 2; 3; 4; 5; 6; 7; 8; 9]) ;;
  bytes3 <- Ret (map n2b [0; 1; 2; 3; 4; 5; 6; 7; 8; 9]) ;;
  bytes4 <- Ret (map n2b [0; 1; 2; 3; 4; 5; 6; 7; 8]) ;;
  test <- Ret (repeat xcc (N.to_nat 10)) ;;
  b1 <- consumeBytes (takeN 10 (dropN 0 bytes1)) b1 ;;
  tmp1 <- Ret 10 ;;
  tmp2 <- Ret (getLen b1) ;;
  expect 227 (N.eqb tmp1 tmp2) (
  tmp3 <- Ret 10 ;;
  tmp4 <- Ret (bmax b1) ;;
  expect 228 (N.eqb tmp3 tmp4) (
  test <- Ret (put_at 0 (takeN 10 (dropN 0 (bdata b1))) test) ;;
  tmp5 <- Ret (same_first 10 (dropN 0 bytes1) (dropN 0 test)) ;;
  expect 231 (tmp5) (
  b2 <- newBytes (10) ;;
  b2 <- fillrandom (rand 1) b2 ;;
  b2 <- consumeBytes (takeN 10 (dropN 0 bytes2)) b2 ;;
  tmp6 <- Ret 10 ;;
  tmp7 <- Ret (getLen b2) ;;
  expect 236 (N.eqb tmp6 tmp7) (
  tmp8 <- Ret 10 ;;
  tmp9 <- Ret (bmax b2) ;;
  expect 237 (N.eqb tmp8 tmp9) (
  test <- Ret (put_at 0 (takeN 10 (dropN 0 (bdata b2))) test) ;;
  tmp10 <- Ret (same_first 10 (dropN 0 bytes2) (dropN 0 test)) ;;
  expect 240 (tmp10) (
  b3 <- newBytes (10) ;;
  b3 <- addrandom (rand 2) 5 b3 ;;
  b3 <- consumeBytes (takeN 10 (dropN 0 bytes3)) b3 ;;
  tmp11 <- Ret 10 ;;
  tmp12 <- Ret (getLen b3) ;;
  expect 245 (N.eqb tmp11 tmp12) (
  tmp13 <- Ret 10 ;;
  tmp14 <- Ret (bmax b3) ;;
  expect 246 (N.eqb tmp13 tmp14) (
  test <- Ret (put_at 0 (takeN 10 (dropN 0 (bdata b3))) test) ;;
  tmp15 <- Ret (same_first 10 (dropN 0 bytes3) (dropN 0 test)) ;;
  expect 249 (tmp15) (
  b4 <- newBytes (10) ;;
  b4 <- addByte (n2b 173) b4 ;;
  b4 <- consumeBytes (takeN 9 (dropN 0 bytes4)) b4 ;;
  tmp16 <- Ret 9 ;;
  tmp17 <- Ret (getLen b4) ;;
  expect 254 (N.eqb tmp16 tmp17) (
  tmp18 <- Ret 10 ;;
  tmp19 <- Ret (bmax b4) ;;
  expect 255 (N.eqb tmp18 tmp19) (
  test <- Ret (put_at 0 (takeN 9 (dropN 0 (bdata b4))) test) ;;
  test <- Ret (put_at 9 [n2b 9] test) ;;
  tmp20 <- Ret (same_first 9 (dropN 0 bytes4) (dropN 0 test)) ;;
  expect 259 (tmp20) (
  bytes5 <- Ret (map n2b [0; 1; 2; 3; 4; 5; 6; 7; 8; 9; 10]) ;;
  bytes6 <- Ret (map n2b [0; 1; 2; 3; 4; 5; 6; 7; 8; 9; 10]) ;;
  bytes7 <- Ret (map n2b [0; 1; 2; 3; 4; 5; 6; 7; 8; 9; 10]) ;;
  b5 <- newBytes (10) ;;
  expect 266 (throws LengthError (consumeBytes (takeN 11 (dropN 0 bytes5)) b5)) (
  b6 <- newBytes (0) ;;
  expect 269 (throws LengthError (consumeBytes (takeN 11 (dropN 0 bytes6)) b6)) (
  b7 <- newBytes (11) ;;
  b7 <- consumeBytes (takeN 11 (dropN 0 bytes7)) b7 ;;
  expect 272 (true) (
  b8 <- newBytes (11) ;;
  Ret []))))))))))))))).
Example bytes_consumeBytesArray_passes : bytes_consumeBytesArray = Ret [].
Proof. vm_compute. reflexivity. Qed.

(** bytes_unittest.cpp 277-340: 15 checks *)
Definition bytes_consumeBytes : outcome (list N) :=
  b1 <- newBytes (10) ;;
  bytes1 <- Ret (map n2b [0; 1; 2; 3; 4; 5; 6; 7; 8; 9]) ;;
  bytes2 <- Ret (map n2b [0; 1; 2; 3; 4; 5; 6; 7; 8; 9]) ;;
  bytes3 <- Ret (map n2b [0; 1; 2; 3; 4; 5; 6; 7; 8; 9]) ;;
  bytes4 <- Ret (map n2b [0; 1; 2; 3; 4; 5; 6; 7; 8]) ;;
  b <- Ret (fromArray (takeN 10 bytes1)) ;;
  b100 <- Ret (fromArray (takeN 10 bytes2)) ;;
  b200 <- Ret (fromArray (takeN 10 bytes3)) ;;
  b300 <- Ret (fromArray (takeN 9 bytes4)) ;;
  test <- Ret (repeat xcc (N.to_nat 10)) ;;
  b1 <- consumeBytes (bdata b) b1 ;;
  tmp1 <- Ret 10 ;;
  tmp2 <- Ret (getLen b1) ;;
  expect 290 (N.eqb tmp1 tmp2) (
  tmp3 <- Ret 10 ;;
  tmp4 <- Ret (bmax b1) ;;
  expect 291 (N.eqb tmp3 tmp4) (
  test <- Ret (put_at 0 (takeN 10 (dropN 0 (bdata b1))) test) ;;
  tmp5 <- Ret (same_first 10 (dropN 0 bytes1) (dropN 0 test)) ;;
  expect 294 (tmp5) (
  b2 <- newBytes (10) ;;
  b2 <- fillrandom (rand 1) b2 ;;
  b2 <- consumeBytes (bdata b100) b2 ;;
  tmp6 <- Ret 10 ;;
  tmp7 <- Ret (getLen b2) ;;
  expect 300 (N.eqb tmp6 tmp7) (
  tmp8 <- Ret 10 ;;
  tmp9 <- Ret (bmax b2) ;;
  expect 301 (N.eqb tmp8 tmp9) (
  test <- Ret (put_at 0 (takeN 10 (dropN 0 (bdata b2))) test) ;;
  tmp10 <- Ret (same_first 10 (dropN 0 bytes1) (dropN 0 test)) ;;
  expect 304 (tmp10) (
  b3 <- newBytes (10) ;;
  b3 <- addrandom (rand 2) 5 b3 ;;
  b3 <- consumeBytes (bdata b200) b3 ;;
  tmp11 <- Ret 10 ;;
  tmp12 <- Ret (getLen b3) ;;
  expect 310 (N.eqb tmp11 tmp12) (
  tmp13 <- Ret 10 ;;
  tmp14 <- Ret (bmax b3) ;;
  expect 311 (N.eqb tmp13 tmp14) (
  test <- Ret (put_at 0 (takeN 10 (dropN 0 (bdata b3))) test) ;;
  tmp15 <- Ret (same_first 10 (dropN 0 bytes1) (dropN 0 test)) ;;
  expect 314 (tmp15) (
  b4 <- newBytes (10) ;;
  b4 <- addByte (n2b 173) b4 ;;
  b4 <- consumeBytes (bdata b300) b4 ;;
  tmp16 <- Ret 9 ;;
  tmp17 <- Ret (getLen b4) ;;
  expect 320 (N.eqb tmp16 tmp17) (
  tmp18 <- Ret 10 ;;
  tmp19 <- Ret (bmax b4) ;;
  expect 321 (N.eqb tmp18 tmp19) (
  test <- Ret (put_at 0 (takeN 9 (dropN 0 (bdata b4))) test) ;;
  test <- Ret (put_at 9 [n2b 9] test) ;;
  tmp20 <- Ret (same_first 10 (dropN 0 bytes1) (dropN 0 test)) ;;
  expect 325 (tmp20) (
  b67 <- newBytes (10) ;;
  b68 <- newBytes (10) ;;
  b69 <- newBytes (10) ;;
  b67 <- fillrandom (rand 3) b67 ;;
  b68 <- fillrandom (rand 4) b68 ;;
  b69 <- fillrandom (rand 5) b69 ;;
  b5 <- newBytes (9) ;;
  expect 335 (throws LengthError (consumeBytes (bdata b67) b5)) (
  b6 <- newBytes (0) ;;
  expect 337 (throws LengthError (consumeBytes (bdata b68) b6)) (
  b7 <- newBytes (11) ;;
  b7 <- consumeBytes (bdata b69) b7 ;;
  expect 339 (true) (
  Ret []))))))))))))))).
Example bytes_consumeBytes_passes : bytes_consumeBytes = Ret [].
Proof. vm_compute. reflexivity. Qed.

(** bytes_unittest.cpp 342-360: 5 checks *)
Definition bytes_consumeBytesConstructor : outcome (list N) :=
  bytes1 <- Ret (map n2b [0; 1; 2; 3; 4; 5; 6; 7; 8; 9]) ;;
  test <- Ret (repeat xcc (N.to_nat 10)) ;;
  b1 <- Ret (fromArray (takeN 10 bytes1)) ;;
  tmp1 <- Ret 10 ;;
  tmp2 <- Ret (getLen b1) ;;
  expect 347 (N.eqb tmp1 tmp2) (
  tmp3 <- Ret 10 ;;
  tmp4 <- Ret (bmax b1) ;;
  expect 348 (N.eqb tmp3 tmp4) (
  tmp5 <- Ret (same_first 10 (dropN 0 bytes1) (dropN 0 (bdata b1))) ;;
  expect 350 (tmp5) (
  bytes2 <- Ret (repeat xcc (N.to_nat 0)) ;;
  b2 <- Ret (fromArray (takeN 0 bytes2)) ;;
  tmp6 <- Ret 0 ;;
  tmp7 <- Ret (getLen b2) ;;
  expect 355 (N.eqb tmp6 tmp7) (
  tmp8 <- Ret 0 ;;
  tmp9 <- Ret (bmax b2) ;;
  expect 356 (N.eqb tmp8 tmp9) (
  Ret []))))).
Example bytes_consumeBytesConstructor_passes : bytes_consumeBytesConstructor = Ret [].
Proof. vm_compute. reflexivity. Qed.

(** bytes_unittest.cpp 362-402: 13 checks *)
Definition bytes_addBytes : outcome (list N) :=
  b1 <- newBytes (10) ;;
  bytes1 <- Ret (map n2b [0; 1; 2; 3; 4; 5; 6; 7; 8; 9]) ;;
  test <- Ret (repeat xcc (N.to_nat 10)) ;;
  b1 <- addBytes (takeN 10 (dropN 0 bytes1)) b1 ;;
  tmp1 <- Ret 10 ;;
  tmp2 <- Ret (getLen b1) ;;
  expect 367 (N.eqb tmp1 tmp2) (
  tmp3 <- Ret 10 ;;
  tmp4 <- Ret (bmax b1) ;;
  expect 368 (N.eqb tmp3 tmp4) (
  test <- Ret (put_at 0 (takeN 10 (dropN 0 (bdata b1))) test) ;;
  tmp5 <- Ret (same_first 10 (dropN 0 bytes1) (dropN 0 test)) ;;
  expect 370 (tmp5) (
  b2 <- newBytes (10) ;;
  b2 <- addrandom (rand 1) 5 b2 ;;
  b2 <- addBytes (takeN 5 (dropN 0 bytes1)) b2 ;;
  tmp6 <- Ret 10 ;;
  tmp7 <- Ret (getLen b2) ;;
  expect 375 (N.eqb tmp6 tmp7) (
  tmp8 <- Ret 10 ;;
  tmp9 <- Ret (bmax b2) ;;
  expect 376 (N.eqb tmp8 tmp9) (
  test <- Ret (put_at 0 (takeN 5 (dropN 5 (bdata b2))) test) ;;
  tmp10 <- Ret (same_first 5 (dropN 0 bytes1) (dropN 0 test)) ;;
  expect 378 (tmp10) (
  b3 <- newBytes (10) ;;
  b3 <- addByte (n2b 173) b3 ;;
  b3 <- addBytes (takeN 5 (dropN 0 bytes1)) b3 ;;
  tmp11 <- Ret 6 ;;
  tmp12 <- Ret (getLen b3) ;;
  expect 383 (N.eqb tmp11 tmp12) (
  tmp13 <- Ret 10 ;;
  tmp14 <- Ret (bmax b3) ;;
  expect 384 (N.eqb tmp13 tmp14) (
  test <- Ret (put_at 1 (takeN 5 bytes1) test) ;;
  test <- Ret (put_at 0 [n2b 173] test) ;;
  tmp15 <- Ret (same_first 6 (dropN 0 (bdata b3)) (dropN 0 test)) ;;
  expect 387 (tmp15) (
  bytes2 <- Ret (map n2b [0; 1; 2; 3; 4; 5; 6; 7; 8; 9; 10]) ;;
  b4 <- newBytes (10) ;;
  expect 392 (throws LengthError (addBytes (takeN 11 (dropN 0 bytes2)) b4)) (
  b5 <- newBytes (0) ;;
  expect 394 (throws LengthError (addBytes (takeN 11 (dropN 0 bytes2)) b5)) (
  b6 <- newBytes (11) ;;
  b6 <- addBytes (takeN 11 (dropN 0 bytes2)) b6 ;;
  expect 396 (true) (
  b7 <- newBytes (11) ;;
  b7 <- addByte (n2b 173) b7 ;;
  expect 399 (throws LengthError (addBytes (takeN 11 (dropN 0 bytes2)) b7)) (
  b8 <- newBytes (11) ;;
  Ret []))))))))))))).
Example bytes_addBytes_passes : bytes_addBytes = Ret [].
Proof. vm_compute. reflexivity. Qed.

(** bytes_unittest.cpp 404-429: 5 checks *)
Definition bytes_getBytes : outcome (list N) :=
  b1 <- newBytes (10) ;;
  bytes1 <- Ret (map n2b [0; 1; 2; 3; 4; 5; 6; 7; 8; 9]) ;;
  b1 <- setBytes (takeN 10 (dropN 0 bytes1)) b1 ;;
  test <- Ret (bdata b1) ;;
  tmp1 <- Ret (same_first 10 (dropN 0 bytes1) (dropN 0 test)) ;;
  expect 409 (tmp1) (
  b2 <- newBytes (10) ;;
  b2 <- fillrandom (rand 1) b2 ;;
  test <- Ret (bdata b2) ;;
  tmp2 <- Ret (same_first 10 (dropN 0 (bdata b2)) (dropN 0 test)) ;;
  expect 414 (tmp2) (
  b3 <- newBytes (10) ;;
  b3 <- addrandom (rand 2) 5 b3 ;;
  test <- Ret (bdata b3) ;;
  tmp3 <- Ret (same_first 5 (dropN 0 (bdata b3)) (dropN 0 test)) ;;
  expect 419 (tmp3) (
  b4 <- newBytes (10) ;;
  b4 <- addByte (n2b 173) b4 ;;
  test <- Ret (bdata b4) ;;
  tmp4 <- Ret (same_first 1 (dropN 0 (bdata b4)) (dropN 0 test)) ;;
  expect 424 (tmp4) (
  b5 <- newBytes (0) ;;
  test <- Ret (bdata b5) ;;
  tmp5 <- Ret (same_first 0 (dropN 0 (bdata b5)) (dropN 0 test)) ;;
  expect 428 (tmp5) (
  Ret []))))).
Example bytes_getBytes_passes : bytes_getBytes = Ret [].
Proof. vm_compute. reflexivity. Qed.

(** bytes_unittest.cpp 431-453: 9 checks *)
Definition bytes_getLen : outcome (list N) :=
  b1 <- newBytes (10) ;;
  tmp1 <- Ret 0 ;;
  tmp2 <- Ret (getLen b1) ;;
  expect 433 (N.eqb tmp1 tmp2) (
  b1 <- addByte (n2b 173) b1 ;;
  tmp3 <- Ret 1 ;;
  tmp4 <- Ret (getLen b1) ;;
  expect 435 (N.eqb tmp3 tmp4) (
  b1 <- addrandom (rand 1) 5 b1 ;;
  tmp5 <- Ret 6 ;;
  tmp6 <- Ret (getLen b1) ;;
  expect 437 (N.eqb tmp5 tmp6) (
  b1 <- addByte (n2b 173) b1 ;;
  tmp7 <- Ret 7 ;;
  tmp8 <- Ret (getLen b1) ;;
  expect 439 (N.eqb tmp7 tmp8) (
  b2 <- newBytes (0) ;;
  tmp9 <- Ret 0 ;;
  tmp10 <- Ret (getLen b2) ;;
  expect 442 (N.eqb tmp9 tmp10) (
  b3 <- newBytes (10) ;;
  b4 <- newBytes (10) ;;
  b3 <- addrandom (rand 2) 6 b3 ;;
  b4 <- copyToBytes b3 b4 ;;
  tmp11 <- Ret 6 ;;
  tmp12 <- Ret (getLen b3) ;;
  expect 448 (N.eqb tmp11 tmp12) (
  tmp13 <- Ret 6 ;;
  tmp14 <- Ret (getLen b4) ;;
  expect 449 (N.eqb tmp13 tmp14) (
  b3 <- addrandom (rand 3) 4 b3 ;;
  tmp15 <- Ret 10 ;;
  tmp16 <- Ret (getLen b3) ;;
  expect 451 (N.eqb tmp15 tmp16) (
  tmp17 <- Ret 6 ;;
  tmp18 <- Ret (getLen b4) ;;
  expect 452 (N.eqb tmp17 tmp18) (
  Ret []))))))))).
Example bytes_getLen_passes : bytes_getLen = Ret [].
Proof. vm_compute. reflexivity. Qed.

(** bytes_unittest.cpp 455-484: 11 checks *)
Definition bytes_getMaxLen : outcome (list N) :=
  b1 <- newBytes (10) ;;
  tmp1 <- Ret 10 ;;
  tmp2 <- Ret (bmax b1) ;;
  expect 457 (N.eqb tmp1 tmp2) (
  b1 <- addByte (n2b 173) b1 ;;
  tmp3 <- Ret 10 ;;
  tmp4 <- Ret (bmax b1) ;;
  expect 459 (N.eqb tmp3 tmp4) (
  b1 <- addrandom (rand 1) 5 b1 ;;
  tmp5 <- Ret 10 ;;
  tmp6 <- Ret (bmax b1) ;;
  expect 461 (N.eqb tmp5 tmp6) (
  b1 <- addByte (n2b 173) b1 ;;
  tmp7 <- Ret 10 ;;
  tmp8 <- Ret (bmax b1) ;;
  expect 463 (N.eqb tmp7 tmp8) (
  b2 <- newBytes (0) ;;
  tmp9 <- Ret 0 ;;
  tmp10 <- Ret (bmax b2) ;;
  expect 466 (N.eqb tmp9 tmp10) (
  b3 <- newBytes (10) ;;
  b4 <- newBytes (10) ;;
  b3 <- addrandom (rand 2) 6 b3 ;;
  b4 <- copyToBytes b3 b4 ;;
  tmp11 <- Ret 10 ;;
  tmp12 <- Ret (bmax b3) ;;
  expect 472 (N.eqb tmp11 tmp12) (
  tmp13 <- Ret 10 ;;
  tmp14 <- Ret (bmax b4) ;;
  expect 473 (N.eqb tmp13 tmp14) (
  b3 <- addrandom (rand 3) 4 b3 ;;
  tmp15 <- Ret 10 ;;
  tmp16 <- Ret (bmax b3) ;;
  expect 475 (N.eqb tmp15 tmp16) (
  tmp17 <- Ret 10 ;;
  tmp18 <- Ret (bmax b4) ;;
  expect 476 (N.eqb tmp17 tmp18) (
  b5 <- newBytes (11) ;;
  b5 <- addByte (n2b 173) b5 ;;
  b6 <- newBytes (11) ;;
  b6 <- copyToBytes b5 b6 ;;
  tmp19 <- Ret 11 ;;
  tmp20 <- Ret (bmax b5) ;;
  expect 482 (N.eqb tmp19 tmp20) (
  tmp21 <- Ret 11 ;;
  tmp22 <- Ret (bmax b6) ;;
  expect 483 (N.eqb tmp21 tmp22) (
  Ret []))))))))))).
Example bytes_getMaxLen_passes : bytes_getMaxLen = Ret [].
Proof. vm_compute. reflexivity. Qed.

(** bytes_unittest.cpp 486-529: 9 checks *)
Definition bytes_copyToArray : outcome (list N) :=
  b1 <- newBytes (10) ;;
  bytes1 <- Ret (map n2b [0; 1; 2; 3; 4; 5; 6; 7; 8; 9]) ;;
  test <- Ret (repeat xcc (N.to_nat 10)) ;;
  b1 <- setBytes (takeN 10 (dropN 0 bytes1)) b1 ;;
  test <- (x <- copyToArray 10 b1 ;; Ret (put_at 0 x test)) ;;
  tmp1 <- Ret (same_first 10 (dropN 0 bytes1) (dropN 0 test)) ;;
  expect 492 (tmp1) (
  b2 <- newBytes (10) ;;
  b2 <- fillrandom (rand 1) b2 ;;
  test <- (x <- copyToArray 10 b2 ;; Ret (put_at 0 x test)) ;;
  tmp2 <- Ret (same_first 10 (dropN 0 (bdata b2)) (dropN 0 test)) ;;
  expect 497 (tmp2) (
  b3 <- newBytes (10) ;;
  b3 <- addrandom (rand 2) 5 b3 ;;
  test <- (x <- copyToArray 10 b3 ;; Ret (put_at 0 x test)) ;;
  tmp3 <- Ret (same_first 5 (dropN 0 (bdata b3)) (dropN 0 test)) ;;
  expect 502 (tmp3) (
  b4 <- newBytes (10) ;;
  b4 <- addByte (n2b 173) b4 ;;
  test <- (x <- copyToArray 10 b4 ;; Ret (put_at 0 x test)) ;;
  tmp4 <- Ret (same_first 1 (dropN 0 (bdata b4)) (dropN 0 test)) ;;
  expect 507 (tmp4) (
  b5 <- newBytes (0) ;;
  test <- (x <- copyToArray 10 b5 ;; Ret (put_at 0 x test)) ;;
  tmp5 <- Ret (same_first 0 (dropN 0 (bdata b5)) (dropN 0 test)) ;;
  expect 511 (tmp5) (
  b6 <- newBytes (11) ;;
  b6 <- fillrandom (rand 3) b6 ;;
  expect 516 (throws LengthError ((x <- copyToArray 10 b6 ;; Ret (put_at 0 x test)))) (
  b7 <- newBytes (2) ;;
  b7 <- fillrandom (rand 4) b7 ;;
  expect 519 (throws LengthError ((x <- copyToArray 1 b7 ;; Ret (put_at 0 x test)))) (
  b8 <- newBytes (10) ;;
  b8 <- fillrandom (rand 5) b8 ;;
  test <- (x <- copyToArray 10 b8 ;; Ret (put_at 0 x test)) ;;
  expect 522 (true) (
  b9 <- newBytes (10) ;;
  b9 <- addrandom (rand 6) 5 b9 ;;
  expect 525 (throws LengthError ((x <- copyToArray 4 b9 ;; Ret (put_at 0 x test)))) (
  b10 <- newBytes (10) ;;
  b10 <- addrandom (rand 7) 5 b10 ;;
  Ret []))))))))).
Example bytes_copyToArray_passes : bytes_copyToArray = Ret [].
Proof. vm_compute. reflexivity. Qed.

(** bytes_unittest.cpp 531-601: 36 checks *)
Definition bytes_copyToBytes : outcome (list N) :=
  b1 <- newBytes (10) ;;
  b2 <- newBytes (10) ;;
  bytes1 <- Ret (map n2b [0; 1; 2; 3; 4; 5; 6; 7; 8; 9]) ;;
  b1 <- setBytes (takeN 10 (dropN 0 bytes1)) b1 ;;
  b2 <- copyToBytes b1 b2 ;;
  tmp1 <- Ret (same_first 10 (dropN 0 (bdata b1)) (dropN 0 (bdata b2))) ;;
  expect 537 (tmp1) (
  tmp2 <- Ret (same_first 10 (dropN 0 bytes1) (dropN 0 (bdata b2))) ;;
  expect 538 (tmp2) (
  tmp3 <- Ret (getLen b1) ;;
  tmp4 <- Ret (getLen b2) ;;
  expect 539 (N.eqb tmp3 tmp4) (
  tmp5 <- Ret 10 ;;
  tmp6 <- Ret (getLen b2) ;;
  expect 540 (N.eqb tmp5 tmp6) (
  tmp7 <- Ret (bmax b1) ;;
  tmp8 <- Ret (bmax b2) ;;
  expect 541 (N.eqb tmp7 tmp8) (
  tmp9 <- Ret b1 ;;
  tmp10 <- Ret b2 ;;
  expect 542 (eqBytes tmp9 tmp10) (
  b3 <- newBytes (10) ;;
  b3 <- fillrandom (rand 1) b3 ;;
  b2 <- copyToBytes b3 b2 ;;
  tmp11 <- Ret (same_first 10 (dropN 0 (bdata b3)) (dropN 0 (bdata b2))) ;;
  expect 547 (tmp11) (
  tmp12 <- Ret (getLen b3) ;;
  tmp13 <- Ret (getLen b2) ;;
  expect 548 (N.eqb tmp12 tmp13) (
  tmp14 <- Ret 10 ;;
  tmp15 <- Ret (getLen b2) ;;
  expect 549 (N.eqb tmp14 tmp15) (
  tmp16 <- Ret (bmax b3) ;;
  tmp17 <- Ret (bmax b2) ;;
  expect 550 (N.eqb tmp16 tmp17) (
  tmp18 <- Ret b3 ;;
  tmp19 <- Ret b2 ;;
  expect 551 (eqBytes tmp18 tmp19) (
  tmp20 <- Ret b1 ;;
  tmp21 <- Ret b2 ;;
  expect 552 (negb (eqBytes tmp20 tmp21)) (
  b4 <- newBytes (10) ;;
  b4 <- addrandom (rand 2) 5 b4 ;;
  b2 <- copyToBytes b4 b2 ;;
  tmp22 <- Ret (same_first 5 (dropN 0 (bdata b4)) (dropN 0 (bdata b2))) ;;
  expect 557 (tmp22) (
  tmp23 <- Ret (getLen b4) ;;
  tmp24 <- Ret (getLen b2) ;;
  expect 558 (N.eqb tmp23 tmp24) (
  tmp25 <- Ret 5 ;;
  tmp26 <- Ret (getLen b2) ;;
  expect 559 (N.eqb tmp25 tmp26) (
  tmp27 <- Ret (bmax b4) ;;
  tmp28 <- Ret (bmax b2) ;;
  expect 560 (N.eqb tmp27 tmp28) (
  tmp29 <- Ret b4 ;;
  tmp30 <- Ret b2 ;;
  expect 561 (eqBytes tmp29 tmp30) (
  tmp31 <- Ret b3 ;;
  tmp32 <- Ret b2 ;;
  expect 562 (negb (eqBytes tmp31 tmp32)) (
  b5 <- newBytes (5) ;;
  b5 <- addByte (n2b 173) b5 ;;
  b2 <- copyToBytes b5 b2 ;;
  tmp33 <- Ret (same_first 1 (dropN 0 (bdata b5)) (dropN 0 (bdata b2))) ;;
  expect 567 (tmp33) (
  tmp34 <- Ret (getLen b5) ;;
  tmp35 <- Ret (getLen b2) ;;
  expect 568 (N.eqb tmp34 tmp35) (
  tmp36 <- Ret 1 ;;
  tmp37 <- Ret (getLen b2) ;;
  expect 569 (N.eqb tmp36 tmp37) (
  tmp38 <- Ret 10 ;;
  tmp39 <- Ret (bmax b2) ;;
  expect 570 (N.eqb tmp38 tmp39) (
  tmp40 <- Ret 5 ;;
  tmp41 <- Ret (bmax b5) ;;
  expect 571 (N.eqb tmp40 tmp41) (
  tmp42 <- Ret b5 ;;
  tmp43 <- Ret b2 ;;
  expect 572 (eqBytes tmp42 tmp43) (
  tmp44 <- Ret b4 ;;
  tmp45 <- Ret b2 ;;
  expect 573 (negb (eqBytes tmp44 tmp45)) (
  b6 <- newBytes (0) ;;
  b2 <- copyToBytes b6 b2 ;;
  tmp46 <- Ret (same_first 0 (dropN 0 (bdata b6)) (dropN 0 (bdata b2))) ;;
  expect 577 (tmp46) (
  tmp47 <- Ret (getLen b6) ;;
  tmp48 <- Ret (getLen b2) ;;
  expect 578 (N.eqb tmp47 tmp48) (
  tmp49 <- Ret 0 ;;
  tmp50 <- Ret (getLen b2) ;;
  expect 579 (N.eqb tmp49 tmp50) (
  tmp51 <- Ret 0 ;;
  tmp52 <- Ret (bmax b6) ;;
  expect 580 (N.eqb tmp51 tmp52) (
  tmp53 <- Ret 10 ;;
  tmp54 <- Ret (bmax b2) ;;
  expect 581 (N.eqb tmp53 tmp54) (
  tmp55 <- Ret b6 ;;
  tmp56 <- Ret b2 ;;
  expect 582 (eqBytes tmp55 tmp56) (
  tmp57 <- Ret b5 ;;
  tmp58 <- Ret b2 ;;
  expect 583 (negb (eqBytes tmp57 tmp58)) (
  b7 <- newBytes (11) ;;
  b7 <- fillrandom (rand 3) b7 ;;
  expect 588 (throws LengthError (copyToBytes b7 b2)) (
  b8 <- newBytes (2) ;;
  b8 <- fillrandom (rand 4) b8 ;;
  b2 <- copyToBytes b8 b2 ;;
  expect 591 (true) (
  b9 <- newBytes (11) ;;
  b9 <- addrandom (rand 5) 10 b9 ;;
  b10 <- newBytes (10) ;;
  b10 <- addrandom (rand 6) 5 b10 ;;
  b10 <- copyToBytes b9 b10 ;;
  expect 596 (true) (
  b11 <- newBytes (11) ;;
  b11 <- addrandom (rand 7) 5 b11 ;;
  b11 <- addrandom (rand 8) 6 b11 ;;
  expect 600 (throws LengthError (copyToBytes b11 b2)) (
  Ret [])))))))))))))))))))))))))))))))))))).
Example bytes_copyToBytes_passes : bytes_copyToBytes = Ret [].
Proof. vm_compute. reflexivity. Qed.

(** bytes_unittest.cpp 603-668: 36 checks *)
Definition bytes_copyConstructor : outcome (list N) :=
  b1 <- newBytes (10) ;;
  bytes1 <- Ret (map n2b [0; 1; 2; 3; 4; 5; 6; 7; 8; 9]) ;;
  b1 <- setBytes (takeN 10 (dropN 0 bytes1)) b1 ;;
  b2 <- (z <- Ret b1 ;; Ret (copyBytes z)) ;;
  tmp1 <- Ret (same_first 10 (dropN 0 (bdata b1)) (dropN 0 (bdata b2))) ;;
  expect 608 (tmp1) (
  tmp2 <- Ret (same_first 10 (dropN 0 bytes1) (dropN 0 (bdata b2))) ;;
  expect 609 (tmp2) (
  tmp3 <- Ret (getLen b1) ;;
  tmp4 <- Ret (getLen b2) ;;
  expect 610 (N.eqb tmp3 tmp4) (
  tmp5 <- Ret 10 ;;
  tmp6 <- Ret (getLen b2) ;;
  expect 611 (N.eqb tmp5 tmp6) (
  tmp7 <- Ret (bmax b1) ;;
  tmp8 <- Ret (bmax b2) ;;
  expect 612 (N.eqb tmp7 tmp8) (
  tmp9 <- Ret b1 ;;
  tmp10 <- Ret b2 ;;
  expect 613 (eqBytes tmp9 tmp10) (
  b3 <- newBytes (10) ;;
  b3 <- fillrandom (rand 1) b3 ;;
  b21 <- (z <- Ret b3 ;; Ret (copyBytes z)) ;;
  tmp11 <- Ret (same_first 10 (dropN 0 (bdata b3)) (dropN 0 (bdata b21))) ;;
  expect 618 (tmp11) (
  tmp12 <- Ret (getLen b3) ;;
  tmp13 <- Ret (getLen b21) ;;
  expect 619 (N.eqb tmp12 tmp13) (
  tmp14 <- Ret 10 ;;
  tmp15 <- Ret (getLen b21) ;;
  expect 620 (N.eqb tmp14 tmp15) (
  tmp16 <- Ret (bmax b3) ;;
  tmp17 <- Ret (bmax b21) ;;
  expect 621 (N.eqb tmp16 tmp17) (
  tmp18 <- Ret b3 ;;
  tmp19 <- Ret b21 ;;
  expect 622 (eqBytes tmp18 tmp19) (
  tmp20 <- Ret b1 ;;
  tmp21 <- Ret b21 ;;
  expect 623 (negb (eqBytes tmp20 tmp21)) (
  b4 <- newBytes (10) ;;
  b4 <- addrandom (rand 2) 5 b4 ;;
  b22 <- (z <- Ret b4 ;; Ret (copyBytes z)) ;;
  tmp22 <- Ret (same_first 5 (dropN 0 (bdata b4)) (dropN 0 (bdata b22))) ;;
  expect 628 (tmp22) (
  tmp23 <- Ret (getLen b4) ;;
  tmp24 <- Ret (getLen b22) ;;
  expect 629 (N.eqb tmp23 tmp24) (
  tmp25 <- Ret 5 ;;
  tmp26 <- Ret (getLen b22) ;;
  expect 630 (N.eqb tmp25 tmp26) (
  tmp27 <- Ret (bmax b4) ;;
  tmp28 <- Ret (bmax b22) ;;
  expect 631 (N.eqb tmp27 tmp28) (
  tmp29 <- Ret b4 ;;
  tmp30 <- Ret b22 ;;
  expect 632 (eqBytes tmp29 tmp30) (
  tmp31 <- Ret b3 ;;
  tmp32 <- Ret b22 ;;
  expect 633 (negb (eqBytes tmp31 tmp32)) (
  b5 <- newBytes (5) ;;
  b5 <- addByte (n2b 173) b5 ;;
  b23 <- (z <- Ret b5 ;; Ret (copyBytes z)) ;;
  tmp33 <- Ret (same_first 1 (dropN 0 (bdata b5)) (dropN 0 (bdata b23))) ;;
  expect 638 (tmp33) (
  tmp34 <- Ret (getLen b5) ;;
  tmp35 <- Ret (getLen b23) ;;
  expect 639 (N.eqb tmp34 tmp35) (
  tmp36 <- Ret 1 ;;
  tmp37 <- Ret (getLen b23) ;;
  expect 640 (N.eqb tmp36 tmp37) (
  tmp38 <- Ret (bmax b5) ;;
  tmp39 <- Ret (bmax b23) ;;
  expect 641 (N.eqb tmp38 tmp39) (
  tmp40 <- Ret 5 ;;
  tmp41 <- Ret (bmax b5) ;;
  expect 642 (N.eqb tmp40 tmp41) (
  tmp42 <- Ret b5 ;;
  tmp43 <- Ret b23 ;;
  expect 643 (eqBytes tmp42 tmp43) (
  tmp44 <- Ret b4 ;;
  tmp45 <- Ret b23 ;;
  expect 644 (negb (eqBytes tmp44 tmp45)) (
  b6 <- newBytes (0) ;;
  b24 <- (z <- Ret b6 ;; Ret (copyBytes z)) ;;
  tmp46 <- Ret (same_first 0 (dropN 0 (bdata b6)) (dropN 0 (bdata b24))) ;;
  expect 648 (tmp46) (
  tmp47 <- Ret (getLen b6) ;;
  tmp48 <- Ret (getLen b24) ;;
  expect 649 (N.eqb tmp47 tmp48) (
  tmp49 <- Ret 0 ;;
  tmp50 <- Ret (getLen b24) ;;
  expect 650 (N.eqb tmp49 tmp50) (
  tmp51 <- Ret 0 ;;
  tmp52 <- Ret (bmax b6) ;;
  expect 651 (N.eqb tmp51 tmp52) (
  tmp53 <- Ret (bmax b6) ;;
  tmp54 <- Ret (bmax b24) ;;
  expect 652 (N.eqb tmp53 tmp54) (
  tmp55 <- Ret b6 ;;
  tmp56 <- Ret b24 ;;
  expect 653 (eqBytes tmp55 tmp56) (
  tmp57 <- Ret b5 ;;
  tmp58 <- Ret b24 ;;
  expect 654 (negb (eqBytes tmp57 tmp58)) (
  b7 <- newBytes (11) ;;
  b7 <- fillrandom (rand 3) b7 ;;
  b25 <- (z <- Ret b7 ;; Ret (copyBytes z)) ;;
  expect 659 (true) (
  b8 <- newBytes (2) ;;
  b8 <- fillrandom (rand 4) b8 ;;
  b26 <- (z <- Ret b8 ;; Ret (copyBytes z)) ;;
  expect 662 (true) (
  b11 <- newBytes (11) ;;
  b11 <- addrandom (rand 5) 5 b11 ;;
  b11 <- addrandom (rand 6) 6 b11 ;;
  b27 <- (z <- Ret b11 ;; Ret (copyBytes z)) ;;
  expect 666 (true) (
  b28 <- (z <- (x <- newBytes (10) ;; Ret (copyBytes x)) ;; Ret (copyBytes z)) ;;
  expect 667 (true) (
  Ret [])))))))))))))))))))))))))))))))))))).
Example bytes_copyConstructor_passes : bytes_copyConstructor = Ret [].
Proof. vm_compute. reflexivity. Qed.

(** bytes_unittest.cpp 670-735: 36 checks *)
Definition bytes_copyConstructor2 : outcome (list N) :=
  b1 <- newBytes (10) ;;
  bytes1 <- Ret (map n2b [0; 1; 2; 3; 4; 5; 6; 7; 8; 9]) ;;
  b1 <- setBytes (takeN 10 (dropN 0 bytes1)) b1 ;;
  b2 <- (x <- Ret b1 ;; Ret (copyExtra x 0)) ;;
  tmp1 <- Ret (same_first 10 (dropN 0 (bdata b1)) (dropN 0 (bdata b2))) ;;
  expect 675 (tmp1) (
  tmp2 <- Ret (same_first 10 (dropN 0 bytes1) (dropN 0 (bdata b2))) ;;
  expect 676 (tmp2) (
  tmp3 <- Ret (getLen b1) ;;
  tmp4 <- Ret (getLen b2) ;;
  expect 677 (N.eqb tmp3 tmp4) (
  tmp5 <- Ret 10 ;;
  tmp6 <- Ret (getLen b2) ;;
  expect 678 (N.eqb tmp5 tmp6) (
  tmp7 <- Ret (bmax b1) ;;
  tmp8 <- Ret (bmax b2) ;;
  expect 679 (N.eqb tmp7 tmp8) (
  tmp9 <- Ret b1 ;;
  tmp10 <- Ret b2 ;;
  expect 680 (eqBytes tmp9 tmp10) (
  b3 <- newBytes (10) ;;
  b3 <- fillrandom (rand 1) b3 ;;
  b21 <- (x <- Ret b3 ;; Ret (copyExtra x 3)) ;;
  tmp11 <- Ret (same_first 10 (dropN 0 (bdata b3)) (dropN 0 (bdata b21))) ;;
  expect 685 (tmp11) (
  tmp12 <- Ret (getLen b3) ;;
  tmp13 <- Ret (getLen b21) ;;
  expect 686 (N.eqb tmp12 tmp13) (
  tmp14 <- Ret 10 ;;
  tmp15 <- Ret (getLen b21) ;;
  expect 687 (N.eqb tmp14 tmp15) (
  tmp16 <- Ret (bmax b21) ;;
  tmp17 <- Ret (bmax b3 + 3) ;;
  expect 688 (N.eqb tmp16 tmp17) (
  tmp18 <- Ret b3 ;;
  tmp19 <- Ret b21 ;;
  expect 689 (eqBytes tmp18 tmp19) (
  tmp20 <- Ret b1 ;;
  tmp21 <- Ret b21 ;;
  expect 690 (negb (eqBytes tmp20 tmp21)) (
  b4 <- newBytes (10) ;;
  b4 <- addrandom (rand 2) 5 b4 ;;
  b22 <- (x <- Ret b4 ;; Ret (copyExtra x 40)) ;;
  tmp22 <- Ret (same_first 5 (dropN 0 (bdata b4)) (dropN 0 (bdata b22))) ;;
  expect 695 (tmp22) (
  tmp23 <- Ret (getLen b4) ;;
  tmp24 <- Ret (getLen b22) ;;
  expect 696 (N.eqb tmp23 tmp24) (
  tmp25 <- Ret 5 ;;
  tmp26 <- Ret (getLen b22) ;;
  expect 697 (N.eqb tmp25 tmp26) (
  tmp27 <- Ret (bmax b22) ;;
  tmp28 <- Ret (bmax b4 + 40) ;;
  expect 698 (N.eqb tmp27 tmp28) (
  tmp29 <- Ret b4 ;;
  tmp30 <- Ret b22 ;;
  expect 699 (eqBytes tmp29 tmp30) (
  tmp31 <- Ret b3 ;;
  tmp32 <- Ret b22 ;;
  expect 700 (negb (eqBytes tmp31 tmp32)) (
  b5 <- newBytes (5) ;;
  b5 <- addByte (n2b 173) b5 ;;
  b23 <- (x <- Ret b5 ;; Ret (copyExtra x 1)) ;;
  tmp33 <- Ret (same_first 1 (dropN 0 (bdata b5)) (dropN 0 (bdata b23))) ;;
  expect 705 (tmp33) (
  tmp34 <- Ret (getLen b5) ;;
  tmp35 <- Ret (getLen b23) ;;
  expect 706 (N.eqb tmp34 tmp35) (
  tmp36 <- Ret 1 ;;
  tmp37 <- Ret (getLen b23) ;;
  expect 707 (N.eqb tmp36 tmp37) (
  tmp38 <- Ret (bmax b23) ;;
  tmp39 <- Ret (bmax b5 + 1) ;;
  expect 708 (N.eqb tmp38 tmp39) (
  tmp40 <- Ret 5 ;;
  tmp41 <- Ret (bmax b5) ;;
  expect 709 (N.eqb tmp40 tmp41) (
  tmp42 <- Ret b5 ;;
  tmp43 <- Ret b23 ;;
  expect 710 (eqBytes tmp42 tmp43) (
  tmp44 <- Ret b4 ;;
  tmp45 <- Ret b23 ;;
  expect 711 (negb (eqBytes tmp44 tmp45)) (
  b6 <- newBytes (0) ;;
  b24 <- (x <- Ret b6 ;; Ret (copyExtra x 90)) ;;
  tmp46 <- Ret (same_first 0 (dropN 0 (bdata b6)) (dropN 0 (bdata b24))) ;;
  expect 715 (tmp46) (
  tmp47 <- Ret (getLen b6) ;;
  tmp48 <- Ret (getLen b24) ;;
  expect 716 (N.eqb tmp47 tmp48) (
  tmp49 <- Ret 0 ;;
  tmp50 <- Ret (getLen b24) ;;
  expect 717 (N.eqb tmp49 tmp50) (
  tmp51 <- Ret 0 ;;
  tmp52 <- Ret (bmax b6) ;;
  expect 718 (N.eqb tmp51 tmp52) (
  tmp53 <- Ret (bmax b24) ;;
  tmp54 <- Ret (bmax b6 + 90) ;;
  expect 719 (N.eqb tmp53 tmp54) (
  tmp55 <- Ret b6 ;;
  tmp56 <- Ret b24 ;;
  expect 720 (eqBytes tmp55 tmp56) (
  tmp57 <- Ret b5 ;;
  tmp58 <- Ret b24 ;;
  expect 721 (negb (eqBytes tmp57 tmp58)) (
  b7 <- newBytes (11) ;;
  b7 <- fillrandom (rand 3) b7 ;;
  b25 <- (x <- Ret b7 ;; Ret (copyExtra x 0)) ;;
  expect 726 (true) (
  b8 <- newBytes (2) ;;
  b8 <- fillrandom (rand 4) b8 ;;
  b26 <- (x <- Ret b8 ;; Ret (copyExtra x 4)) ;;
  expect 729 (true) (
  b11 <- newBytes (11) ;;
  b11 <- addrandom (rand 5) 5 b11 ;;
  b11 <- addrandom (rand 6) 6 b11 ;;
  b27 <- (x <- Ret b11 ;; Ret (copyExtra x 27)) ;;
  expect 733 (true) (
  b28 <- (x <- (x <- newBytes (10) ;; Ret (copyExtra x 90)) ;; Ret (copyExtra x 89)) ;;
  expect 734 (true) (
  Ret [])))))))))))))))))))))))))))))))))))).
Example bytes_copyConstructor2_passes : bytes_copyConstructor2 = Ret [].
Proof. vm_compute. reflexivity. Qed.

(** bytes_unittest.cpp 737-801: 35 checks *)
Definition bytes_copyAssignmentconstructor : outcome (list N) :=
  b1 <- newBytes (10) ;;
  bytes1 <- Ret (map n2b [0; 1; 2; 3; 4; 5; 6; 7; 8; 9]) ;;
  b1 <- setBytes (takeN 10 (dropN 0 bytes1)) b1 ;;
  b2 <- (z <- Ret b1 ;; Ret (copyBytes z)) ;;
  tmp1 <- Ret (same_first 10 (dropN 0 (bdata b1)) (dropN 0 (bdata b2))) ;;
  expect 742 (tmp1) (
  tmp2 <- Ret (same_first 10 (dropN 0 bytes1) (dropN 0 (bdata b2))) ;;
  expect 743 (tmp2) (
  tmp3 <- Ret (getLen b1) ;;
  tmp4 <- Ret (getLen b2) ;;
  expect 744 (N.eqb tmp3 tmp4) (
  tmp5 <- Ret 10 ;;
  tmp6 <- Ret (getLen b2) ;;
  expect 745 (N.eqb tmp5 tmp6) (
  tmp7 <- Ret (bmax b1) ;;
  tmp8 <- Ret (bmax b2) ;;
  expect 746 (N.eqb tmp7 tmp8) (
  tmp9 <- Ret b1 ;;
  tmp10 <- Ret b2 ;;
  expect 747 (eqBytes tmp9 tmp10) (
  b3 <- newBytes (10) ;;
  b3 <- fillrandom (rand 1) b3 ;;
  b21 <- (z <- Ret b3 ;; Ret (copyBytes z)) ;;
  tmp11 <- Ret (same_first 10 (dropN 0 (bdata b3)) (dropN 0 (bdata b21))) ;;
  expect 752 (tmp11) (
  tmp12 <- Ret (getLen b3) ;;
  tmp13 <- Ret (getLen b21) ;;
  expect 753 (N.eqb tmp12 tmp13) (
  tmp14 <- Ret 10 ;;
  tmp15 <- Ret (getLen b21) ;;
  expect 754 (N.eqb tmp14 tmp15) (
  tmp16 <- Ret (bmax b3) ;;
  tmp17 <- Ret (bmax b21) ;;
  expect 755 (N.eqb tmp16 tmp17) (
  tmp18 <- Ret b3 ;;
  tmp19 <- Ret b21 ;;
  expect 756 (eqBytes tmp18 tmp19) (
  tmp20 <- Ret b1 ;;
  tmp21 <- Ret b21 ;;
  expect 757 (negb (eqBytes tmp20 tmp21)) (
  b4 <- newBytes (10) ;;
  b4 <- addrandom (rand 2) 5 b4 ;;
  b22 <- (z <- Ret b4 ;; Ret (copyBytes z)) ;;
  tmp22 <- Ret (same_first 5 (dropN 0 (bdata b4)) (dropN 0 (bdata b22))) ;;
  expect 762 (tmp22) (
  tmp23 <- Ret (getLen b4) ;;
  tmp24 <- Ret (getLen b22) ;;
  expect 763 (N.eqb tmp23 tmp24) (
  tmp25 <- Ret 5 ;;
  tmp26 <- Ret (getLen b22) ;;
  expect 764 (N.eqb tmp25 tmp26) (
  tmp27 <- Ret (bmax b4) ;;
  tmp28 <- Ret (bmax b22) ;;
  expect 765 (N.eqb tmp27 tmp28) (
  tmp29 <- Ret b4 ;;
  tmp30 <- Ret b22 ;;
  expect 766 (eqBytes tmp29 tmp30) (
  tmp31 <- Ret b3 ;;
  tmp32 <- Ret b22 ;;
  expect 767 (negb (eqBytes tmp31 tmp32)) (
  b5 <- newBytes (5) ;;
  b5 <- addByte (n2b 173) b5 ;;
  b23 <- (z <- Ret b5 ;; Ret (copyBytes z)) ;;
  tmp33 <- Ret (same_first 1 (dropN 0 (bdata b5)) (dropN 0 (bdata b23))) ;;
  expect 772 (tmp33) (
  tmp34 <- Ret (getLen b5) ;;
  tmp35 <- Ret (getLen b23) ;;
  expect 773 (N.eqb tmp34 tmp35) (
  tmp36 <- Ret 1 ;;
  tmp37 <- Ret (getLen b23) ;;
  expect 774 (N.eqb tmp36 tmp37) (
  tmp38 <- Ret (bmax b5) ;;
  tmp39 <- Ret (bmax b23) ;;
  expect 775 (N.eqb tmp38 tmp39) (
  tmp40 <- Ret 5 ;;
  tmp41 <- Ret (bmax b5) ;;
  expect 776 (N.eqb tmp40 tmp41) (
  tmp42 <- Ret b5 ;;
  tmp43 <- Ret b23 ;;
  expect 777 (eqBytes tmp42 tmp43) (
  tmp44 <- Ret b4 ;;
  tmp45 <- Ret b23 ;;
  expect 778 (negb (eqBytes tmp44 tmp45)) (
  b6 <- newBytes (0) ;;
  b24 <- (z <- Ret b6 ;; Ret (copyBytes z)) ;;
  tmp46 <- Ret (same_first 0 (dropN 0 (bdata b6)) (dropN 0 (bdata b24))) ;;
  expect 782 (tmp46) (
  tmp47 <- Ret (getLen b6) ;;
  tmp48 <- Ret (getLen b24) ;;
  expect 783 (N.eqb tmp47 tmp48) (
  tmp49 <- Ret 0 ;;
  tmp50 <- Ret (getLen b24) ;;
  expect 784 (N.eqb tmp49 tmp50) (
  tmp51 <- Ret 0 ;;
  tmp52 <- Ret (bmax b6) ;;
  expect 785 (N.eqb tmp51 tmp52) (
  tmp53 <- Ret (bmax b6) ;;
  tmp54 <- Ret (bmax b24) ;;
  expect 786 (N.eqb tmp53 tmp54) (
  tmp55 <- Ret b6 ;;
  tmp56 <- Ret b24 ;;
  expect 787 (eqBytes tmp55 tmp56) (
  tmp57 <- Ret b5 ;;
  tmp58 <- Ret b24 ;;
  expect 788 (negb (eqBytes tmp57 tmp58)) (
  b7 <- newBytes (11) ;;
  b7 <- fillrandom (rand 3) b7 ;;
  b25 <- (z <- Ret b7 ;; Ret (copyBytes z)) ;;
  expect 793 (true) (
  b8 <- newBytes (2) ;;
  b8 <- fillrandom (rand 4) b8 ;;
  b26 <- (z <- Ret b8 ;; Ret (copyBytes z)) ;;
  expect 796 (true) (
  b11 <- newBytes (11) ;;
  b11 <- addrandom (rand 5) 5 b11 ;;
  b11 <- addrandom (rand 6) 6 b11 ;;
  b27 <- (z <- Ret b11 ;; Ret (copyBytes z)) ;;
  expect 800 (true) (
  Ret []))))))))))))))))))))))))))))))))))).
Example bytes_copyAssignmentconstructor_passes : bytes_copyAssignmentconstructor = Ret [].
Proof. vm_compute. reflexivity. Qed.

(** bytes_unittest.cpp 803-884: 44 checks *)
Definition bytes_copyAssignment : outcome (list N) :=
  b1 <- newBytes (10) ;;
  bytes1 <- Ret (map n2b [0; 1; 2; 3; 4; 5; 6; 7; 8; 9]) ;;
  b1 <- setBytes (takeN 10 (dropN 0 bytes1)) b1 ;;
  b2 <- newBytes (10) ;;
  b2 <- Ret (copyBytes b1) ;;
  tmp1 <- Ret (same_first 10 (dropN 0 (bdata b1)) (dropN 0 (bdata b2))) ;;
  expect 809 (tmp1) (
  tmp2 <- Ret (same_first 10 (dropN 0 bytes1) (dropN 0 (bdata b2))) ;;
  expect 810 (tmp2) (
  tmp3 <- Ret (getLen b1) ;;
  tmp4 <- Ret (getLen b2) ;;
  expect 811 (N.eqb tmp3 tmp4) (
  tmp5 <- Ret 10 ;;
  tmp6 <- Ret (getLen b2) ;;
  expect 812 (N.eqb tmp5 tmp6) (
  tmp7 <- Ret (bmax b1) ;;
  tmp8 <- Ret (bmax b2) ;;
  expect 813 (N.eqb tmp7 tmp8) (
  tmp9 <- Ret b1 ;;
  tmp10 <- Ret b2 ;;
  expect 814 (eqBytes tmp9 tmp10) (
  b3 <- newBytes (10) ;;
  b3 <- fillrandom (rand 1) b3 ;;
  b2 <- Ret (copyBytes b3) ;;
  tmp11 <- Ret (same_first 10 (dropN 0 (bdata b3)) (dropN 0 (bdata b2))) ;;
  expect 819 (tmp11) (
  tmp12 <- Ret (getLen b3) ;;
  tmp13 <- Ret (getLen b2) ;;
  expect 820 (N.eqb tmp12 tmp13) (
  tmp14 <- Ret 10 ;;
  tmp15 <- Ret (getLen b2) ;;
  expect 821 (N.eqb tmp14 tmp15) (
  tmp16 <- Ret (bmax b3) ;;
  tmp17 <- Ret (bmax b2) ;;
  expect 822 (N.eqb tmp16 tmp17) (
  tmp18 <- Ret b3 ;;
  tmp19 <- Ret b2 ;;
  expect 823 (eqBytes tmp18 tmp19) (
  tmp20 <- Ret b1 ;;
  tmp21 <- Ret b2 ;;
  expect 824 (negb (eqBytes tmp20 tmp21)) (
  b4 <- newBytes (10) ;;
  b4 <- addrandom (rand 2) 5 b4 ;;
  b22 <- newBytes (5) ;;
  b22 <- Ret (copyBytes b4) ;;
  tmp22 <- Ret (same_first 5 (dropN 0 (bdata b4)) (dropN 0 (bdata b22))) ;;
  expect 830 (tmp22) (
  tmp23 <- Ret (getLen b4) ;;
  tmp24 <- Ret (getLen b22) ;;
  expect 831 (N.eqb tmp23 tmp24) (
  tmp25 <- Ret 5 ;;
  tmp26 <- Ret (getLen b22) ;;
  expect 832 (N.eqb tmp25 tmp26) (
  tmp27 <- Ret 10 ;;
  tmp28 <- Ret (bmax b4) ;;
  expect 833 (N.eqb tmp27 tmp28) (
  tmp29 <- Ret 10 ;;
  tmp30 <- Ret (bmax b22) ;;
  expect 834 (N.eqb tmp29 tmp30) (
  tmp31 <- Ret b4 ;;
  tmp32 <- Ret b22 ;;
  expect 835 (eqBytes tmp31 tmp32) (
  tmp33 <- Ret b3 ;;
  tmp34 <- Ret b22 ;;
  expect 836 (negb (eqBytes tmp33 tmp34)) (
  b5 <- newBytes (5) ;;
  b5 <- addByte (n2b 173) b5 ;;
  b22 <- Ret (copyBytes b5) ;;
  tmp35 <- Ret (same_first 1 (dropN 0 (bdata b5)) (dropN 0 (bdata b22))) ;;
  expect 841 (tmp35) (
  tmp36 <- Ret (getLen b5) ;;
  tmp37 <- Ret (getLen b22) ;;
  expect 842 (N.eqb tmp36 tmp37) (
  tmp38 <- Ret 1 ;;
  tmp39 <- Ret (getLen b22) ;;
  expect 843 (N.eqb tmp38 tmp39) (
  tmp40 <- Ret (bmax b5) ;;
  tmp41 <- Ret (bmax b22) ;;
  expect 844 (N.eqb tmp40 tmp41) (
  tmp42 <- Ret 5 ;;
  tmp43 <- Ret (bmax b5) ;;
  expect 845 (N.eqb tmp42 tmp43) (
  tmp44 <- Ret b5 ;;
  tmp45 <- Ret b22 ;;
  expect 846 (eqBytes tmp44 tmp45) (
  tmp46 <- Ret b4 ;;
  tmp47 <- Ret b22 ;;
  expect 847 (negb (eqBytes tmp46 tmp47)) (
  b6 <- newBytes (0) ;;
  b24 <- newBytes (0) ;;
  b24 <- Ret (copyBytes b6) ;;
  tmp48 <- Ret (same_first 0 (dropN 0 (bdata b6)) (dropN 0 (bdata b24))) ;;
  expect 852 (tmp48) (
  tmp49 <- Ret (getLen b6) ;;
  tmp50 <- Ret (getLen b24) ;;
  expect 853 (N.eqb tmp49 tmp50) (
  tmp51 <- Ret 0 ;;
  tmp52 <- Ret (getLen b24) ;;
  expect 854 (N.eqb tmp51 tmp52) (
  tmp53 <- Ret 0 ;;
  tmp54 <- Ret (bmax b6) ;;
  expect 855 (N.eqb tmp53 tmp54) (
  tmp55 <- Ret (bmax b6) ;;
  tmp56 <- Ret (bmax b24) ;;
  expect 856 (N.eqb tmp55 tmp56) (
  tmp57 <- Ret b6 ;;
  tmp58 <- Ret b24 ;;
  expect 857 (eqBytes tmp57 tmp58) (
  tmp59 <- Ret b5 ;;
  tmp60 <- Ret b24 ;;
  expect 858 (negb (eqBytes tmp59 tmp60)) (
  b61 <- newBytes (0) ;;
  b22 <- Ret (copyBytes b61) ;;
  tmp61 <- Ret (same_first 0 (dropN 0 (bdata b61)) (dropN 0 (bdata b22))) ;;
  expect 862 (tmp61) (
  tmp62 <- Ret (getLen b61) ;;
  tmp63 <- Ret (getLen b22) ;;
  expect 863 (N.eqb tmp62 tmp63) (
  tmp64 <- Ret 0 ;;
  tmp65 <- Ret (getLen b22) ;;
  expect 864 (N.eqb tmp64 tmp65) (
  tmp66 <- Ret 0 ;;
  tmp67 <- Ret (bmax b61) ;;
  expect 865 (N.eqb tmp66 tmp67) (
  tmp68 <- Ret 0 ;;
  tmp69 <- Ret (bmax b22) ;;
  expect 866 (N.eqb tmp68 tmp69) (
  tmp70 <- Ret b61 ;;
  tmp71 <- Ret b22 ;;
  expect 867 (eqBytes tmp70 tmp71) (
  tmp72 <- Ret b5 ;;
  tmp73 <- Ret b22 ;;
  expect 868 (negb (eqBytes tmp72 tmp73)) (
  b7 <- newBytes (11) ;;
  b7 <- fillrandom (rand 3) b7 ;;
  b25 <- newBytes (10) ;;
  b25 <- Ret (copyBytes b7) ;;
  expect 874 (true) (
  b8 <- newBytes (2) ;;
  b25 <- fillrandom (rand 4) b25 ;;
  b8 <- fillrandom (rand 5) b8 ;;
  b25 <- Ret (copyBytes b8) ;;
  expect 878 (true) (
  b11 <- newBytes (11) ;;
  b11 <- addrandom (rand 6) 5 b11 ;;
  b11 <- addrandom (rand 7) 6 b11 ;;
  b25 <- Ret (copyBytes b11) ;;
  expect 882 (true) (
  b25 <- Ret (copyBytes b25) ;;
  expect 883 (true) (
  Ret [])))))))))))))))))))))))))))))))))))))))))))).
Example bytes_copyAssignment_passes : bytes_copyAssignment = Ret [].
Proof. vm_compute. reflexivity. Qed.

(** bytes_unittest.cpp 886-961: 34 checks *)
Definition bytes_addcopyToBytes : outcome (list N) :=
  b1 <- newBytes (10) ;;
  b2 <- newBytes (10) ;;
  bytes1 <- Ret (map n2b [0; 1; 2; 3; 4; 5; 6; 7; 8; 9]) ;;
  b1 <- setBytes (takeN 10 (dropN 0 bytes1)) b1 ;;
  b2 <- addcopyToBytes b1 b2 ;;
  tmp1 <- Ret (same_first 10 (dropN 0 (bdata b1)) (dropN 0 (bdata b2))) ;;
  expect 892 (tmp1) (
  tmp2 <- Ret (same_first 10 (dropN 0 bytes1) (dropN 0 (bdata b2))) ;;
  expect 893 (tmp2) (
  tmp3 <- Ret (getLen b1) ;;
  tmp4 <- Ret (getLen b2) ;;
  expect 894 (N.eqb tmp3 tmp4) (
  tmp5 <- Ret 10 ;;
  tmp6 <- Ret (getLen b2) ;;
  expect 895 (N.eqb tmp5 tmp6) (
  tmp7 <- Ret (bmax b1) ;;
  tmp8 <- Ret (bmax b2) ;;
  expect 896 (N.eqb tmp7 tmp8) (
  tmp9 <- Ret b1 ;;
  tmp10 <- Ret b2 ;;
  expect 897 (eqBytes tmp9 tmp10) (
  b3 <- newBytes (10) ;;
  b4 <- newBytes (10) ;;
  b3 <- fillrandom (rand 1) b3 ;;
  b4 <- addcopyToBytes b3 b4 ;;
  tmp11 <- Ret (same_first 10 (dropN 0 (bdata b3)) (dropN 0 (bdata b4))) ;;
  expect 903 (tmp11) (
  tmp12 <- Ret (getLen b3) ;;
  tmp13 <- Ret (getLen b4) ;;
  expect 904 (N.eqb tmp12 tmp13) (
  tmp14 <- Ret 10 ;;
  tmp15 <- Ret (getLen b4) ;;
  expect 905 (N.eqb tmp14 tmp15) (
  tmp16 <- Ret (bmax b3) ;;
  tmp17 <- Ret (bmax b4) ;;
  expect 906 (N.eqb tmp16 tmp17) (
  tmp18 <- Ret b3 ;;
  tmp19 <- Ret b4 ;;
  expect 907 (eqBytes tmp18 tmp19) (
  b5 <- newBytes (10) ;;
  b6 <- newBytes (10) ;;
  b5 <- setBytes (takeN 5 (dropN 0 bytes1)) b5 ;;
  b6 <- addcopyToBytes b5 b6 ;;
  tmp20 <- Ret (same_first 5 (dropN 0 (bdata b5)) (dropN 0 (bdata b6))) ;;
  expect 913 (tmp20) (
  tmp21 <- Ret (getLen b5) ;;
  tmp22 <- Ret (getLen b6) ;;
  expect 914 (N.eqb tmp21 tmp22) (
  tmp23 <- Ret 5 ;;
  tmp24 <- Ret (getLen b6) ;;
  expect 915 (N.eqb tmp23 tmp24) (
  tmp25 <- Ret (bmax b5) ;;
  tmp26 <- Ret (bmax b6) ;;
  expect 916 (N.eqb tmp25 tmp26) (
  tmp27 <- Ret b5 ;;
  tmp28 <- Ret b6 ;;
  expect 917 (eqBytes tmp27 tmp28) (
  b7 <- newBytes (10) ;;
  b8 <- newBytes (10) ;;
  b7 <- setBytes (takeN 5 (dropN 0 bytes1)) b7 ;;
  b8 <- setBytes (takeN 5 (dropN 5 bytes1)) b8 ;;
  b7 <- addcopyToBytes b8 b7 ;;
  tmp29 <- Ret (same_first 5 (dropN 0 (bdata b8)) (dropN 5 (bdata b7))) ;;
  expect 924 (tmp29) (
  tmp30 <- Ret (same_first 10 (dropN 0 bytes1) (dropN 0 (bdata b7))) ;;
  expect 925 (tmp30) (
  tmp31 <- Ret 10 ;;
  tmp32 <- Ret (getLen b7) ;;
  expect 926 (N.eqb tmp31 tmp32) (
  tmp33 <- Ret 5 ;;
  tmp34 <- Ret (getLen b8) ;;
  expect 927 (N.eqb tmp33 tmp34) (
  tmp35 <- Ret 10 ;;
  tmp36 <- Ret (bmax b7) ;;
  expect 928 (N.eqb tmp35 tmp36) (
  tmp37 <- Ret 10 ;;
  tmp38 <- Ret (bmax b8) ;;
  expect 929 (N.eqb tmp37 tmp38) (
  tmp39 <- Ret b7 ;;
  tmp40 <- Ret b8 ;;
  expect 930 (negb (eqBytes tmp39 tmp40)) (
  b9 <- newBytes (10) ;;
  b10 <- newBytes (10) ;;
  b10 <- addcopyToBytes b9 b10 ;;
  tmp41 <- Ret (same_first 0 (dropN 0 (bdata b9)) (dropN 0 (bdata b10))) ;;
  expect 935 (tmp41) (
  tmp42 <- Ret (getLen b9) ;;
  tmp43 <- Ret (getLen b10) ;;
  expect 936 (N.eqb tmp42 tmp43) (
  tmp44 <- Ret 0 ;;
  tmp45 <- Ret (getLen b10) ;;
  expect 937 (N.eqb tmp44 tmp45) (
  tmp46 <- Ret (bmax b9) ;;
  tmp47 <- Ret (bmax b10) ;;
  expect 938 (N.eqb tmp46 tmp47) (
  tmp48 <- Ret b9 ;;
  tmp49 <- Ret b10 ;;
  expect 939 (eqBytes tmp48 tmp49) (
  b11 <- newBytes (11) ;;
  b12 <- newBytes (10) ;;
  b11 <- fillrandom (rand 2) b11 ;;
  expect 945 (throws LengthError (addcopyToBytes b11 b12)) (
  b13 <- newBytes (2) ;;
  b14 <- newBytes (10) ;;
  b13 <- fillrandom (rand 3) b13 ;;
  b14 <- addcopyToBytes b13 b14 ;;
  expect 949 (true) (
  b15 <- newBytes (11) ;;
  b16 <- newBytes (10) ;;
  b15 <- addrandom (rand 4) 10 b15 ;;
  b16 <- addcopyToBytes b15 b16 ;;
  expect 953 (true) (
  b17 <- newBytes (11) ;;
  b18 <- newBytes (10) ;;
  b17 <- addrandom (rand 5) 5 b17 ;;
  b18 <- addcopyToBytes b17 b18 ;;
  expect 957 (true) (
  b18 <- addcopyToBytes b17 b18 ;;
  expect 958 (true) (
  expect 959 (throws LengthError (addcopyToBytes b17 b18)) (
  b19 <- newBytes (11) ;;
  Ret [])))))))))))))))))))))))))))))))))).
Example bytes_addcopyToBytes_passes : bytes_addcopyToBytes = Ret [].
Proof. vm_compute. reflexivity. Qed.

(** bytes_unittest.cpp 963-1034: 32 checks *)
Definition bytes_copySubBytes : outcome (list N) :=
  b1 <- newBytes (10) ;;
  bytes1 <- Ret (map n2b [0; 1; 2; 3; 4; 5; 6; 7; 8; 9]) ;;
  b1 <- setBytes (takeN 10 (dropN 0 bytes1)) b1 ;;
  b2 <- (z <- copySubBytes 2 5 b1 ;; Ret (copyBytes z)) ;;
  tmp1 <- Ret (same_first 3 (dropN 2 bytes1) (dropN 0 (bdata b2))) ;;
  expect 968 (tmp1) (
  tmp2 <- Ret 3 ;;
  tmp3 <- Ret (getLen b2) ;;
  expect 969 (N.eqb tmp2 tmp3) (
  tmp4 <- Ret 3 ;;
  tmp5 <- Ret (bmax b2) ;;
  expect 970 (N.eqb tmp4 tmp5) (
  tmp6 <- Ret 131844 ;;
  tmp7 <- toLong b2 ;;
  expect 971 (N.eqb tmp6 tmp7) (
  b3 <- newBytes (10) ;;
  b3 <- fillrandom (rand 1) b3 ;;
  b4 <- (z <- copySubBytes 0 10 b3 ;; Ret (copyBytes z)) ;;
  tmp8 <- Ret (same_first 10 (dropN 0 (bdata b3)) (dropN 0 (bdata b4))) ;;
  expect 976 (tmp8) (
  tmp9 <- Ret 10 ;;
  tmp10 <- Ret (getLen b4) ;;
  expect 977 (N.eqb tmp9 tmp10) (
  tmp11 <- Ret 10 ;;
  tmp12 <- Ret (bmax b4) ;;
  expect 978 (N.eqb tmp11 tmp12) (
  tmp13 <- Ret b3 ;;
  tmp14 <- Ret b4 ;;
  expect 979 (eqBytes tmp13 tmp14) (
  b5 <- newBytes (10) ;;
  b5 <- fillrandom (rand 2) b5 ;;
  b6 <- (z <- copySubBytes 0 5 b5 ;; Ret (copyBytes z)) ;;
  tmp15 <- Ret (same_first 5 (dropN 0 (bdata b5)) (dropN 0 (bdata b6))) ;;
  expect 984 (tmp15) (
  tmp16 <- Ret 5 ;;
  tmp17 <- Ret (getLen b6) ;;
  expect 985 (N.eqb tmp16 tmp17) (
  tmp18 <- Ret 5 ;;
  tmp19 <- Ret (bmax b6) ;;
  expect 986 (N.eqb tmp18 tmp19) (
  b7 <- newBytes (10) ;;
  b7 <- fillrandom (rand 3) b7 ;;
  b8 <- (z <- copySubBytes 5 10 b7 ;; Ret (copyBytes z)) ;;
  tmp20 <- Ret (same_first 5 (dropN 5 (bdata b7)) (dropN 0 (bdata b8))) ;;
  expect 991 (tmp20) (
  tmp21 <- Ret 5 ;;
  tmp22 <- Ret (getLen b8) ;;
  expect 992 (N.eqb tmp21 tmp22) (
  tmp23 <- Ret 5 ;;
  tmp24 <- Ret (bmax b8) ;;
  expect 993 (N.eqb tmp23 tmp24) (
  b9 <- newBytes (10) ;;
  b9 <- fillrandom (rand 4) b9 ;;
  b10 <- (z <- copySubBytes 5 5 b9 ;; Ret (copyBytes z)) ;;
  tmp25 <- Ret (same_first 0 (dropN 5 (bdata b9)) (dropN 0 (bdata b10))) ;;
  expect 998 (tmp25) (
  tmp26 <- Ret 0 ;;
  tmp27 <- Ret (getLen b10) ;;
  expect 999 (N.eqb tmp26 tmp27) (
  tmp28 <- Ret 0 ;;
  tmp29 <- Ret (bmax b10) ;;
  expect 1000 (N.eqb tmp28 tmp29) (
  tmp30 <- (x <- Ret b10 ;; Ret (isEmpty x)) ;;
  expect 1001 (tmp30) (
  b11 <- newBytes (10) ;;
  b11 <- fillrandom (rand 5) b11 ;;
  b12 <- (z <- copySubBytes 0 0 b11 ;; Ret (copyBytes z)) ;;
  tmp31 <- Ret (same_first 0 (dropN 0 (bdata b11)) (dropN 0 (bdata b12))) ;;
  expect 1006 (tmp31) (
  tmp32 <- Ret 0 ;;
  tmp33 <- Ret (getLen b12) ;;
  expect 1007 (N.eqb tmp32 tmp33) (
  tmp34 <- Ret 0 ;;
  tmp35 <- Ret (bmax b12) ;;
  expect 1008 (N.eqb tmp34 tmp35) (
  tmp36 <- (x <- Ret b12 ;; Ret (isEmpty x)) ;;
  expect 1009 (tmp36) (
  b13 <- newBytes (10) ;;
  b13 <- fillrandom (rand 6) b13 ;;
  expect 1014 (throws LengthError (copySubBytes 0 11 b13)) (
  b14 <- newBytes (10) ;;
  expect 1016 (throws LengthError (copySubBytes 0 1 b14)) (
  b25 <- newBytes (10) ;;
  b25 <- addByte (n2b 173) b25 ;;
  expect 1019 (throws LengthError (copySubBytes 1 2 b25)) (
  tmp37 <- (x <- copySubBytes 0 1 b25 ;; Ret (isEmpty x)) ;;
  expect 1020 (negb tmp37) (
  tmp38 <- (x <- copySubBytes 0 0 b25 ;; Ret (isEmpty x)) ;;
  expect 1021 (tmp38) (
  tmp39 <- (x <- copySubBytes 1 1 b25 ;; Ret (isEmpty x)) ;;
  expect 1022 (tmp39) (
  b15 <- newBytes (10) ;;
  tmp40 <- (x <- copySubBytes 0 0 b15 ;; Ret (isEmpty x)) ;;
  expect 1024 (tmp40) (
  b16 <- newBytes (10) ;;
  b16 <- fillrandom (rand 7) b16 ;;
  expect 1027 (throws InvalidArgument (copySubBytes 1 0 b16)) (
  b17 <- newBytes (10) ;;
  b17 <- fillrandom (rand 8) b17 ;;
  expect 1030 (throws LengthError (copySubBytes 11 11 b17)) (
  b18 <- newBytes (10) ;;
  b18 <- fillrandom (rand 9) b18 ;;
  expect 1033 (throws InvalidArgument (copySubBytes 18446744073709551615 2 b18)) (
  Ret [])))))))))))))))))))))))))))))))).
Example bytes_copySubBytes_passes : bytes_copySubBytes = Ret [].
Proof. vm_compute. reflexivity. Qed.

(** bytes_unittest.cpp 1036-1085: 15 checks *)
Definition bytes_copy : outcome (list N) :=
  b1 <- newBytes (20) ;;
  b2 <- newBytes (20) ;;
  bytes1 <- Ret (map n2b [0; 1; 2; 3; 4; 5; 6; 7; 8; 9]) ;;
  b1 <- setBytes (takeN 10 (dropN 0 bytes1)) b1 ;;
  b2 <- copyToBytes b1 b2 ;;
  tmp1 <- Ret b1 ;;
  tmp2 <- Ret b2 ;;
  expect 1042 (eqBytes tmp1 tmp2) (
  b1 <- fillrandom (rand 1) b1 ;;
  tmp3 <- Ret b1 ;;
  tmp4 <- Ret b2 ;;
  expect 1045 (negb (eqBytes tmp3 tmp4)) (
  tmp5 <- Ret (same_first 10 (dropN 0 (bdata b1)) (dropN 0 (bdata b2))) ;;
  expect 1046 (tmp5) (
  tmp6 <- Ret (same_first 20 (dropN 0 (bdata b1)) (dropN 0 (bdata b2))) ;;
  expect 1047 (negb tmp6) (
  b3 <- newBytes (20) ;;
  b4 <- newBytes (20) ;;
  b4 <- addByte (n2b 173) b4 ;;
  b3 <- setBytes (takeN 10 (dropN 0 bytes1)) b3 ;;
  b4 <- addcopyToBytes b3 b4 ;;
  b3 <- fillrandom (rand 2) b3 ;;
  tmp7 <- Ret b3 ;;
  tmp8 <- Ret b4 ;;
  expect 1056 (negb (eqBytes tmp7 tmp8)) (
  tmp9 <- Ret (same_first 10 (dropN 0 (bdata b3)) (dropN 1 (bdata b4))) ;;
  expect 1057 (tmp9) (
  tmp10 <- Ret (same_first 19 (dropN 0 (bdata b3)) (dropN 1 (bdata b4))) ;;
  expect 1058 (negb tmp10) (
  b5 <- newBytes (20) ;;
  bytes2 <- Ret (repeat xcc (N.to_nat 20)) ;;
  b5 <- setBytes (takeN 10 (dropN 0 bytes1)) b5 ;;
  bytes2 <- (x <- copyToArray 20 b5 ;; Ret (put_at 0 x bytes2)) ;;
  b5 <- fillrandom (rand 3) b5 ;;
  tmp11 <- Ret (same_first 10 (dropN 0 (bdata b5)) (dropN 0 bytes2)) ;;
  expect 1066 (tmp11) (
  tmp12 <- Ret (same_first 20 (dropN 0 (bdata b5)) (dropN 0 bytes2)) ;;
  expect 1067 (negb tmp12) (
  b6 <- newBytes (20) ;;
  b6 <- setBytes (takeN 10 (dropN 0 bytes1)) b6 ;;
  b7 <- (z <- copySubBytes 2 5 b6 ;; Ret (copyBytes z)) ;;
  b6 <- fillrandom (rand 4) b6 ;;
  tmp13 <- Ret b6 ;;
  tmp14 <- Ret b7 ;;
  expect 1074 (negb (eqBytes tmp13 tmp14)) (
  tmp15 <- Ret (same_first 3 (dropN 2 bytes1) (dropN 0 (bdata b7))) ;;
  expect 1075 (tmp15) (
  b8 <- newBytes (20) ;;
  b8 <- addrandom (rand 5) 11 b8 ;;
  b9 <- (x <- Ret b8 ;; Ret (copyExtra x 54)) ;;
  tmp16 <- Ret 74 ;;
  tmp17 <- Ret (bmax b9) ;;
  expect 1080 (N.eqb tmp16 tmp17) (
  tmp18 <- Ret 11 ;;
  tmp19 <- Ret (getLen b9) ;;
  expect 1081 (N.eqb tmp18 tmp19) (
  tmp20 <- Ret (same_first 11 (dropN 0 (bdata b8)) (dropN 0 (bdata b9))) ;;
  expect 1082 (tmp20) (
  tmp21 <- Ret b8 ;;
  tmp22 <- Ret b9 ;;
  expect 1083 (eqBytes tmp21 tmp22) (
  Ret []))))))))))))))).
Example bytes_copy_passes : bytes_copy = Ret [].
Proof. vm_compute. reflexivity. Qed.

(** bytes_unittest.cpp 1087-1126: 9 checks *)
Definition bytes_addByte : outcome (list N) :=
  b1 <- newBytes (10) ;;
  b1 <- addByte (n2b 173) b1 ;;
  tmp1 <- Ret 1 ;;
  tmp2 <- Ret (getLen b1) ;;
  expect 1090 (N.eqb tmp1 tmp2) (
  tmp3 <- Ret 10 ;;
  tmp4 <- Ret (bmax b1) ;;
  expect 1091 (N.eqb tmp3 tmp4) (
  tmp5 <- Ret 173 ;;
  tmp6 <- at_ b1 0 ;;
  expect 1092 (N.eqb tmp5 tmp6) (
  b3 <- newBytes (10) ;;
  b3 <- addByte (n2b 173) b3 ;;
  b3 <- addByte (n2b 172) b3 ;;
  tmp7 <- Ret 2 ;;
  tmp8 <- Ret (getLen b3) ;;
  expect 1097 (N.eqb tmp7 tmp8) (
  tmp9 <- Ret 10 ;;
  tmp10 <- Ret (bmax b3) ;;
  expect 1098 (N.eqb tmp9 tmp10) (
  tmp11 <- Ret 173 ;;
  tmp12 <- at_ b3 0 ;;
  expect 1099 (N.eqb tmp11 tmp12) (
  tmp13 <- Ret 172 ;;
  tmp14 <- at_ b3 1 ;;
  expect 1100 (N.eqb tmp13 tmp14) (
  b5 <- newBytes (256) ;;
  b6 <- newBytes (0) ;;
  expect 1114 (throws LengthError (addByte (n2b 173) b6)) (
  b7 <- newBytes (10) ;;
  b7 <- addByte (n2b 173) b7 ;;
  expect 1116 (true) (
  b8 <- newBytes (255) ;;
  Ret []))))))))).
Example bytes_addByte_passes : bytes_addByte = Ret [].
Proof. vm_compute. reflexivity. Qed.

(** bytes_unittest.cpp 1128-1138: 4 checks *)
Definition bytes_isEmpty : outcome (list N) :=
  b1 <- newBytes (10) ;;
  tmp1 <- (x <- Ret b1 ;; Ret (isEmpty x)) ;;
  expect 1130 (tmp1) (
  b1 <- addByte (n2b 173) b1 ;;
  tmp2 <- (x <- Ret b1 ;; Ret (isEmpty x)) ;;
  expect 1132 (negb tmp2) (
  b1 <- fillrandom (rand 1) b1 ;;
  tmp3 <- (x <- Ret b1 ;; Ret (isEmpty x)) ;;
  expect 1134 (negb tmp3) (
  b2 <- newBytes (0) ;;
  tmp4 <- (x <- Ret b2 ;; Ret (isEmpty x)) ;;
  expect 1137 (tmp4) (
  Ret [])))).
Example bytes_isEmpty_passes : bytes_isEmpty = Ret [].
Proof. vm_compute. reflexivity. Qed.

(** bytes_unittest.cpp 1140-1210: 13 checks *)
Definition bytes_toLong : outcome (list N) :=
  b0 <- newBytes (8) ;;
  tmp1 <- Ret 0 ;;
  tmp2 <- toLong b0 ;;
  expect 1142 (N.eqb tmp1 tmp2) (
  b1 <- newBytes (0) ;;
  tmp3 <- Ret 0 ;;
  tmp4 <- toLong b1 ;;
  expect 1144 (N.eqb tmp3 tmp4) (
  b2 <- newBytes (1) ;;
  b2 <- addByte (n2b 173) b2 ;;
  tmp5 <- Ret 173 ;;
  tmp6 <- toLong b2 ;;
  expect 1147 (N.eqb tmp5 tmp6) (
  b3 <- newBytes (2) ;;
  b3 <- addByte (n2b 173) b3 ;;
  b3 <- addByte (n2b 172) b3 ;;
  tmp7 <- Ret 44460 ;;
  tmp8 <- toLong b3 ;;
  expect 1151 (N.eqb tmp7 tmp8) (
  b4 <- newBytes (3) ;;
  b4 <- addByte (n2b 173) b4 ;;
  b4 <- addByte (n2b 172) b4 ;;
  b4 <- addByte (n2b 171) b4 ;;
  tmp9 <- Ret 11381931 ;;
  tmp10 <- toLong b4 ;;
  expect 1156 (N.eqb tmp9 tmp10) (
  b5 <- newBytes (4) ;;
  b5 <- addByte (n2b 173) b5 ;;
  b5 <- addByte (n2b 172) b5 ;;
  b5 <- addByte (n2b 171) b5 ;;
  b5 <- addByte (n2b 170) b5 ;;
  tmp11 <- Ret 2913774506 ;;
  tmp12 <- toLong b5 ;;
  expect 1162 (N.eqb tmp11 tmp12) (
  b6 <- newBytes (5) ;;
  b6 <- addByte (n2b 0) b6 ;;
  b6 <- addByte (n2b 0) b6 ;;
  b6 <- addByte (n2b 0) b6 ;;
  b6 <- addByte (n2b 17) b6 ;;
  b6 <- addByte (n2b 34) b6 ;;
  tmp13 <- Ret 4386 ;;
  tmp14 <- toLong b6 ;;
  expect 1169 (N.eqb tmp13 tmp14) (
  b7 <- newBytes (6) ;;
  b7 <- addByte (n2b 69) b7 ;;
  b7 <- addByte (n2b 0) b7 ;;
  b7 <- addByte (n2b 0) b7 ;;
  b7 <- addByte (n2b 0) b7 ;;
  b7 <- addByte (n2b 17) b7 ;;
  b7 <- addByte (n2b 34) b7 ;;
  tmp15 <- Ret 75866302320930 ;;
  tmp16 <- toLong b7 ;;
  expect 1177 (N.eqb tmp15 tmp16) (
  b8 <- newBytes (7) ;;
  b8 <- addByte (n2b 0) b8 ;;
  b8 <- addByte (n2b 255) b8 ;;
  b8 <- addByte (n2b 255) b8 ;;
  b8 <- addByte (n2b 255) b8 ;;
  b8 <- addByte (n2b 255) b8 ;;
  b8 <- addByte (n2b 255) b8 ;;
  b8 <- addByte (n2b 255) b8 ;;
  tmp17 <- Ret 281474976710655 ;;
  tmp18 <- toLong b8 ;;
  expect 1186 (N.eqb tmp17 tmp18) (
  b9 <- newBytes (8) ;;
  b9 <- addByte (n2b 255) b9 ;;
  b9 <- addByte (n2b 254) b9 ;;
  b9 <- addByte (n2b 253) b9 ;;
  b9 <- addByte (n2b 252) b9 ;;
  b9 <- addByte (n2b 251) b9 ;;
  b9 <- addByte (n2b 250) b9 ;;
  b9 <- addByte (n2b 249) b9 ;;
  b9 <- addByte (n2b 248) b9 ;;
  tmp19 <- Ret 18446460386757245432 ;;
  tmp20 <- toLong b9 ;;
  expect 1196 (N.eqb tmp19 tmp20) (
  b10 <- newBytes (9) ;;
  b10 <- fillrandom (rand 1) b10 ;;
  expect 1201 (throws LengthError (toLong b10)) (
  b11 <- newBytes (9) ;;
  b11 <- addrandom (rand 2) 8 b11 ;;
  tmp21 <- toLong b11 ;;
  expect 1205 (true) (
  b12 <- newBytes (10) ;;
  b12 <- addrandom (rand 3) 9 b12 ;;
  expect 1209 (throws LengthError (toLong b12)) (
  Ret []))))))))))))).
Example bytes_toLong_passes : bytes_toLong = Ret [].
Proof. vm_compute. reflexivity. Qed.

(** bytes_unittest.cpp 1212-1263: 7 checks *)
Definition bytes_toHex : outcome (list N) :=
  b1 <- newBytes (0) ;;
  tmp1 <- Ret (str "") ;;
  tmp2 <- Ret (toHex b1) ;;
  expect 1214 (eqb_bytes tmp1 tmp2) (
  b2 <- newBytes (1) ;;
  b2 <- addByte (n2b 173) b2 ;;
  tmp3 <- Ret (str "AD") ;;
  tmp4 <- Ret (toHex b2) ;;
  expect 1217 (eqb_bytes tmp3 tmp4) (
  b3 <- newBytes (2) ;;
  b3 <- addByte (n2b 173) b3 ;;
  b3 <- addByte (n2b 172) b3 ;;
  tmp5 <- Ret (str "ADAC") ;;
  tmp6 <- Ret (toHex b3) ;;
  expect 1221 (eqb_bytes tmp5 tmp6) (
  b4 <- newBytes (3) ;;
  b4 <- addByte (n2b 173) b4 ;;
  b4 <- addByte (n2b 172) b4 ;;
  b4 <- addByte (n2b 171) b4 ;;
  tmp7 <- Ret (str "ADACAB") ;;
  tmp8 <- Ret (toHex b4) ;;
  expect 1226 (eqb_bytes tmp7 tmp8) (
  b5 <- newBytes (4) ;;
  b5 <- addByte (n2b 173) b5 ;;
  b5 <- addByte (n2b 172) b5 ;;
  b5 <- addByte (n2b 171) b5 ;;
  b5 <- addByte (n2b 170) b5 ;;
  tmp9 <- Ret (str "ADACABAA") ;;
  tmp10 <- Ret (toHex b5) ;;
  expect 1232 (eqb_bytes tmp9 tmp10) (
  b6 <- newBytes (5) ;;
  b6 <- addByte (n2b 0) b6 ;;
  b6 <- addByte (n2b 0) b6 ;;
  b6 <- addByte (n2b 0) b6 ;;
  b6 <- addByte (n2b 17) b6 ;;
  b6 <- addByte (n2b 34) b6 ;;
  tmp11 <- Ret (str "0000001122") ;;
  tmp12 <- Ret (toHex b6) ;;
  expect 1239 (eqb_bytes tmp11 tmp12) (
  b7 <- newBytes (6) ;;
  b7 <- addByte (n2b 69) b7 ;;
  b7 <- addByte (n2b 0) b7 ;;
  b7 <- addByte (n2b 0) b7 ;;
  b7 <- addByte (n2b 0) b7 ;;
  b7 <- addByte (n2b 17) b7 ;;
  b7 <- addByte (n2b 34) b7 ;;
  tmp13 <- Ret (str "450000001122") ;;
  tmp14 <- Ret (toHex b7) ;;
  expect 1247 (eqb_bytes tmp13 tmp14) (
  b8 <- newBytes (256) ;;
  Ret []))))))).
Example bytes_toHex_passes : bytes_toHex = Ret [].
Proof. vm_compute. reflexivity. Qed.

(** bytes_unittest.cpp 1265-1335: 33 checks *)
Definition bytes_fromLong : outcome (list N) :=
  l1 <- Ret 0 ;;
  b1 <- (z <- fromLong l1 false ;; Ret (copyBytes z)) ;;
  tmp1 <- Ret 0 ;;
  tmp2 <- Ret (getLen b1) ;;
  expect 1268 (N.eqb tmp1 tmp2) (
  tmp3 <- Ret 8 ;;
  tmp4 <- Ret (bmax b1) ;;
  expect 1269 (N.eqb tmp3 tmp4) (
  tmp5 <- Ret 0 ;;
  tmp6 <- toLong b1 ;;
  expect 1270 (N.eqb tmp5 tmp6) (
  l2 <- Ret 173 ;;
  b2 <- (z <- fromLong l2 false ;; Ret (copyBytes z)) ;;
  tmp7 <- Ret 1 ;;
  tmp8 <- Ret (getLen b2) ;;
  expect 1274 (N.eqb tmp7 tmp8) (
  tmp9 <- Ret 8 ;;
  tmp10 <- Ret (bmax b2) ;;
  expect 1275 (N.eqb tmp9 tmp10) (
  tmp11 <- Ret 173 ;;
  tmp12 <- toLong b2 ;;
  expect 1276 (N.eqb tmp11 tmp12) (
  l3 <- Ret 44460 ;;
  b3 <- (z <- fromLong l3 false ;; Ret (copyBytes z)) ;;
  tmp13 <- Ret 2 ;;
  tmp14 <- Ret (getLen b3) ;;
  expect 1280 (N.eqb tmp13 tmp14) (
  tmp15 <- Ret 8 ;;
  tmp16 <- Ret (bmax b3) ;;
  expect 1281 (N.eqb tmp15 tmp16) (
  tmp17 <- Ret 44460 ;;
  tmp18 <- toLong b3 ;;
  expect 1282 (N.eqb tmp17 tmp18) (
  l4 <- Ret 11381931 ;;
  b4 <- (z <- fromLong l4 false ;; Ret (copyBytes z)) ;;
  tmp19 <- Ret 3 ;;
  tmp20 <- Ret (getLen b4) ;;
  expect 1286 (N.eqb tmp19 tmp20) (
  tmp21 <- Ret 8 ;;
  tmp22 <- Ret (bmax b4) ;;
  expect 1287 (N.eqb tmp21 tmp22) (
  tmp23 <- Ret 11381931 ;;
  tmp24 <- toLong b4 ;;
  expect 1288 (N.eqb tmp23 tmp24) (
  l5 <- Ret 11272362 ;;
  b5 <- (z <- fromLong l5 false ;; Ret (copyBytes z)) ;;
  tmp25 <- Ret 3 ;;
  tmp26 <- Ret (getLen b5) ;;
  expect 1292 (N.eqb tmp25 tmp26) (
  tmp27 <- Ret 8 ;;
  tmp28 <- Ret (bmax b5) ;;
  expect 1293 (N.eqb tmp27 tmp28) (
  tmp29 <- Ret 11272362 ;;
  tmp30 <- toLong b5 ;;
  expect 1294 (N.eqb tmp29 tmp30) (
  l6 <- Ret 4386 ;;
  b6 <- (z <- fromLong l6 false ;; Ret (copyBytes z)) ;;
  tmp31 <- Ret 2 ;;
  tmp32 <- Ret (getLen b6) ;;
  expect 1298 (N.eqb tmp31 tmp32) (
  tmp33 <- Ret 8 ;;
  tmp34 <- Ret (bmax b6) ;;
  expect 1299 (N.eqb tmp33 tmp34) (
  tmp35 <- Ret 4386 ;;
  tmp36 <- toLong b6 ;;
  expect 1300 (N.eqb tmp35 tmp36) (
  l7 <- Ret 75866302320930 ;;
  b7 <- (z <- fromLong l7 false ;; Ret (copyBytes z)) ;;
  tmp37 <- Ret 6 ;;
  tmp38 <- Ret (getLen b7) ;;
  expect 1304 (N.eqb tmp37 tmp38) (
  tmp39 <- Ret 8 ;;
  tmp40 <- Ret (bmax b7) ;;
  expect 1305 (N.eqb tmp39 tmp40) (
  tmp41 <- Ret 75866302320930 ;;
  tmp42 <- toLong b7 ;;
  expect 1306 (N.eqb tmp41 tmp42) (
  l8 <- Ret 281474976710655 ;;
  b8 <- (z <- fromLong l8 false ;; Ret (copyBytes z)) ;;
  tmp43 <- Ret 6 ;;
  tmp44 <- Ret (getLen b8) ;;
  expect 1310 (N.eqb tmp43 tmp44) (
  tmp45 <- Ret 8 ;;
  tmp46 <- Ret (bmax b8) ;;
  expect 1311 (N.eqb tmp45 tmp46) (
  tmp47 <- Ret 281474976710655 ;;
  tmp48 <- toLong b8 ;;
  expect 1312 (N.eqb tmp47 tmp48) (
  l9 <- Ret 18446460386757245432 ;;
  b9 <- (z <- fromLong l9 false ;; Ret (copyBytes z)) ;;
  tmp49 <- Ret 8 ;;
  tmp50 <- Ret (getLen b9) ;;
  expect 1316 (N.eqb tmp49 tmp50) (
  tmp51 <- Ret 8 ;;
  tmp52 <- Ret (bmax b9) ;;
  expect 1317 (N.eqb tmp51 tmp52) (
  tmp53 <- Ret 18446460386757245432 ;;
  tmp54 <- toLong b9 ;;
  expect 1318 (N.eqb tmp53 tmp54) (
  l10 <- Ret 1152903774172327839 ;;
  b10 <- (z <- fromLong l10 false ;; Ret (copyBytes z)) ;;
  tmp55 <- Ret 8 ;;
  tmp56 <- Ret (getLen b10) ;;
  expect 1322 (N.eqb tmp55 tmp56) (
  tmp57 <- Ret 8 ;;
  tmp58 <- Ret (bmax b10) ;;
  expect 1323 (N.eqb tmp57 tmp58) (
  tmp59 <- Ret 1152903774172327839 ;;
  tmp60 <- toLong b10 ;;
  expect 1324 (N.eqb tmp59 tmp60) (
  l15 <- Ret 18446460386757245432 ;;
  b15 <- (z <- fromLong l15 false ;; Ret (copyBytes z)) ;;
  expect 1328 (true) (
  l16 <- Ret 1152903774172327839 ;;
  b16 <- (z <- fromLong l16 false ;; Ret (copyBytes z)) ;;
  expect 1331 (true) (
  l17 <- Ret 18446460386757245432 ;;
  b17 <- (z <- fromLong l17 false ;; Ret (copyBytes z)) ;;
  expect 1334 (true) (
  Ret []))))))))))))))))))))))))))))))))).
Example bytes_fromLong_passes : bytes_fromLong = Ret [].
Proof. vm_compute. reflexivity. Qed.

(** bytes_unittest.cpp 1337-1407: 33 checks *)
Definition bytes_fromLongaddzeros : outcome (list N) :=
  l1 <- Ret 0 ;;
  b1 <- (z <- fromLong l1 true ;; Ret (copyBytes z)) ;;
  tmp1 <- Ret 8 ;;
  tmp2 <- Ret (getLen b1) ;;
  expect 1340 (N.eqb tmp1 tmp2) (
  tmp3 <- Ret 8 ;;
  tmp4 <- Ret (bmax b1) ;;
  expect 1341 (N.eqb tmp3 tmp4) (
  tmp5 <- Ret 0 ;;
  tmp6 <- toLong b1 ;;
  expect 1342 (N.eqb tmp5 tmp6) (
  l2 <- Ret 173 ;;
  b2 <- (z <- fromLong l2 true ;; Ret (copyBytes z)) ;;
  tmp7 <- Ret 8 ;;
  tmp8 <- Ret (getLen b2) ;;
  expect 1346 (N.eqb tmp7 tmp8) (
  tmp9 <- Ret 8 ;;
  tmp10 <- Ret (bmax b2) ;;
  expect 1347 (N.eqb tmp9 tmp10) (
  tmp11 <- Ret 173 ;;
  tmp12 <- toLong b2 ;;
  expect 1348 (N.eqb tmp11 tmp12) (
  l3 <- Ret 44460 ;;
  b3 <- (z <- fromLong l3 true ;; Ret (copyBytes z)) ;;
  tmp13 <- Ret 8 ;;
  tmp14 <- Ret (getLen b3) ;;
  expect 1352 (N.eqb tmp13 tmp14) (
  tmp15 <- Ret 8 ;;
  tmp16 <- Ret (bmax b3) ;;
  expect 1353 (N.eqb tmp15 tmp16) (
  tmp17 <- Ret 44460 ;;
  tmp18 <- toLong b3 ;;
  expect 1354 (N.eqb tmp17 tmp18) (
  l4 <- Ret 11381931 ;;
  b4 <- (z <- fromLong l4 true ;; Ret (copyBytes z)) ;;
  tmp19 <- Ret 8 ;;
  tmp20 <- Ret (getLen b4) ;;
  expect 1358 (N.eqb tmp19 tmp20) (
  tmp21 <- Ret 8 ;;
  tmp22 <- Ret (bmax b4) ;;
  expect 1359 (N.eqb tmp21 tmp22) (
  tmp23 <- Ret 11381931 ;;
  tmp24 <- toLong b4 ;;
  expect 1360 (N.eqb tmp23 tmp24) (
  l5 <- Ret 11272362 ;;
  b5 <- (z <- fromLong l5 true ;; Ret (copyBytes z)) ;;
  tmp25 <- Ret 8 ;;
  tmp26 <- Ret (getLen b5) ;;
  expect 1364 (N.eqb tmp25 tmp26) (
  tmp27 <- Ret 8 ;;
  tmp28 <- Ret (bmax b5) ;;
  expect 1365 (N.eqb tmp27 tmp28) (
  tmp29 <- Ret 11272362 ;;
  tmp30 <- toLong b5 ;;
  expect 1366 (N.eqb tmp29 tmp30) (
  l6 <- Ret 4386 ;;
  b6 <- (z <- fromLong l6 true ;; Ret (copyBytes z)) ;;
  tmp31 <- Ret 8 ;;
  tmp32 <- Ret (getLen b6) ;;
  expect 1370 (N.eqb tmp31 tmp32) (
  tmp33 <- Ret 8 ;;
  tmp34 <- Ret (bmax b6) ;;
  expect 1371 (N.eqb tmp33 tmp34) (
  tmp35 <- Ret 4386 ;;
  tmp36 <- toLong b6 ;;
  expect 1372 (N.eqb tmp35 tmp36) (
  l7 <- Ret 75866302320930 ;;
  b7 <- (z <- fromLong l7 true ;; Ret (copyBytes z)) ;;
  tmp37 <- Ret 8 ;;
  tmp38 <- Ret (getLen b7) ;;
  expect 1376 (N.eqb tmp37 tmp38) (
  tmp39 <- Ret 8 ;;
  tmp40 <- Ret (bmax b7) ;;
  expect 1377 (N.eqb tmp39 tmp40) (
  tmp41 <- Ret 75866302320930 ;;
  tmp42 <- toLong b7 ;;
  expect 1378 (N.eqb tmp41 tmp42) (
  l8 <- Ret 281474976710655 ;;
  b8 <- (z <- fromLong l8 true ;; Ret (copyBytes z)) ;;
  tmp43 <- Ret 8 ;;
  tmp44 <- Ret (getLen b8) ;;
  expect 1382 (N.eqb tmp43 tmp44) (
  tmp45 <- Ret 8 ;;
  tmp46 <- Ret (bmax b8) ;;
  expect 1383 (N.eqb tmp45 tmp46) (
  tmp47 <- Ret 281474976710655 ;;
  tmp48 <- toLong b8 ;;
  expect 1384 (N.eqb tmp47 tmp48) (
  l9 <- Ret 18446460386757245432 ;;
  b9 <- (z <- fromLong l9 true ;; Ret (copyBytes z)) ;;
  tmp49 <- Ret 8 ;;
  tmp50 <- Ret (getLen b9) ;;
  expect 1388 (N.eqb tmp49 tmp50) (
  tmp51 <- Ret 8 ;;
  tmp52 <- Ret (bmax b9) ;;
  expect 1389 (N.eqb tmp51 tmp52) (
  tmp53 <- Ret 18446460386757245432 ;;
  tmp54 <- toLong b9 ;;
  expect 1390 (N.eqb tmp53 tmp54) (
  l10 <- Ret 1152903774172327839 ;;
  b10 <- (z <- fromLong l10 true ;; Ret (copyBytes z)) ;;
  tmp55 <- Ret 8 ;;
  tmp56 <- Ret (getLen b10) ;;
  expect 1394 (N.eqb tmp55 tmp56) (
  tmp57 <- Ret 8 ;;
  tmp58 <- Ret (bmax b10) ;;
  expect 1395 (N.eqb tmp57 tmp58) (
  tmp59 <- Ret 1152903774172327839 ;;
  tmp60 <- toLong b10 ;;
  expect 1396 (N.eqb tmp59 tmp60) (
  l15 <- Ret 18446460386757245432 ;;
  b15 <- (z <- fromLong l15 true ;; Ret (copyBytes z)) ;;
  expect 1400 (true) (
  l16 <- Ret 1152903774172327839 ;;
  b16 <- (z <- fromLong l16 true ;; Ret (copyBytes z)) ;;
  expect 1403 (true) (
  l17 <- Ret 18446460386757245432 ;;
  b17 <- (z <- fromLong l17 true ;; Ret (copyBytes z)) ;;
  expect 1406 (true) (
  Ret []))))))))))))))))))))))))))))))))).
Example bytes_fromLongaddzeros_passes : bytes_fromLongaddzeros = Ret [].
Proof. vm_compute. reflexivity. Qed.

(** bytes_unittest.cpp 1409-1439: 11 checks *)
Definition bytes_equal : outcome (list N) :=
  b1 <- newBytes (10) ;;
  b2 <- newBytes (8) ;;
  tmp1 <- Ret b1 ;;
  tmp2 <- Ret b2 ;;
  expect 1412 (eqBytes tmp1 tmp2) (
  b1 <- addByte (n2b 173) b1 ;;
  tmp3 <- Ret b1 ;;
  tmp4 <- Ret b2 ;;
  expect 1414 (negb (eqBytes tmp3 tmp4)) (
  b2 <- addByte (n2b 173) b2 ;;
  tmp5 <- Ret b1 ;;
  tmp6 <- Ret b2 ;;
  expect 1416 (eqBytes tmp5 tmp6) (
  b1 <- addByte (n2b 172) b1 ;;
  tmp7 <- Ret b1 ;;
  tmp8 <- Ret b2 ;;
  expect 1418 (negb (eqBytes tmp7 tmp8)) (
  b2 <- addByte (n2b 172) b2 ;;
  tmp9 <- Ret b1 ;;
  tmp10 <- Ret b2 ;;
  expect 1420 (eqBytes tmp9 tmp10) (
  b1 <- fillrandom (rand 1) b1 ;;
  b2 <- fillrandom (rand 2) b2 ;;
  tmp11 <- Ret b1 ;;
  tmp12 <- Ret b2 ;;
  expect 1423 (negb (eqBytes tmp11 tmp12)) (
  b3 <- newBytes (0) ;;
  b4 <- newBytes (10000) ;;
  tmp13 <- Ret b3 ;;
  tmp14 <- Ret b4 ;;
  expect 1427 (eqBytes tmp13 tmp14) (
  b4 <- addByte (n2b 173) b4 ;;
  tmp15 <- Ret b3 ;;
  tmp16 <- Ret b4 ;;
  expect 1429 (negb (eqBytes tmp15 tmp16)) (
  bytes1 <- Ret (map n2b [0; 1; 2; 3; 4; 5; 6; 7; 8; 9]) ;;
  b5 <- newBytes (15) ;;
  b6 <- newBytes (11) ;;
  tmp17 <- Ret b5 ;;
  tmp18 <- Ret b6 ;;
  expect 1434 (eqBytes tmp17 tmp18) (
  b5 <- setBytes (takeN 10 (dropN 0 bytes1)) b5 ;;
  tmp19 <- Ret b5 ;;
  tmp20 <- Ret b6 ;;
  expect 1436 (negb (eqBytes tmp19 tmp20)) (
  b6 <- setBytes (takeN 10 (dropN 0 bytes1)) b6 ;;
  tmp21 <- Ret b5 ;;
  tmp22 <- Ret b6 ;;
  expect 1438 (eqBytes tmp21 tmp22) (
  Ret []))))))))))).
Example bytes_equal_passes : bytes_equal = Ret [].
Proof. vm_compute. reflexivity. Qed.

(** bytes_unittest.cpp 1441-1505: 9 checks *)
Definition bytes_plus : outcome (list N) :=
  b1 <- newBytes (0) ;;
  b2 <- newBytes (0) ;;
  b3 <- (z <- (x <- Ret b1 ;; y <- Ret b2 ;; plusBytes x y) ;; Ret (copyBytes z)) ;;
  tmp1 <- Ret (getLen b1) ;;
  tmp2 <- Ret (getLen b3) ;;
  expect 1473 (N.eqb tmp1 tmp2) (
  tmp3 <- Ret (getLen b2) ;;
  tmp4 <- Ret (getLen b3) ;;
  expect 1474 (N.eqb tmp3 tmp4) (
  tmp5 <- Ret 0 ;;
  tmp6 <- Ret (bmax b3) ;;
  expect 1475 (N.eqb tmp5 tmp6) (
  bytes1 <- Ret (map n2b [0; 1; 2; 3; 4; 5; 6; 7; 8; 9]) ;;
  bytes2 <- Ret (map n2b [126; 255; 255; 34; 17; 0; 0; 0; 0; 253]) ;;
  bytes3 <- Ret (map n2b [126; 0; 1; 37; 21; 5; 6; 7; 8; 6]) ;;
  b4 <- newBytes (10) ;;
  b5 <- newBytes (10) ;;
  b4 <- setBytes (takeN 10 (dropN 0 bytes1)) b4 ;;
  b5 <- setBytes (takeN 10 (dropN 0 bytes2)) b5 ;;
  b6 <- (z <- (x <- Ret b4 ;; y <- Ret b5 ;; plusBytes x y) ;; Ret (copyBytes z)) ;;
  tmp7 <- Ret (same_first 10 (dropN 0 (bdata b6)) (dropN 0 bytes3)) ;;
  expect 1486 (tmp7) (
  b7 <- newBytes (11) ;;
  b8 <- newBytes (10) ;;
  b7 <- fillrandom (rand 1) b7 ;;
  expect 1492 (throws LengthError ((x <- Ret b7 ;; y <- Ret b8 ;; plusBytes x y))) (
  b8 <- fillrandom (rand 2) b8 ;;
  expect 1494 (throws LengthError ((x <- Ret b7 ;; y <- Ret b8 ;; plusBytes x y))) (
  b9 <- newBytes (2) ;;
  b10 <- newBytes (10) ;;
  b9 <- fillrandom (rand 3) b9 ;;
  b10 <- addrandom (rand 4) 2 b10 ;;
  tmp8 <- (x <- Ret b9 ;; y <- Ret b10 ;; plusBytes x y) ;;
  expect 1499 (true) (
  b11 <- newBytes (0) ;;
  b12 <- newBytes (10) ;;
  tmp9 <- (x <- Ret b11 ;; y <- Ret b12 ;; plusBytes x y) ;;
  expect 1502 (true) (
  b12 <- addByte (n2b 173) b12 ;;
  expect 1504 (throws LengthError ((x <- Ret b11 ;; y <- Ret b12 ;; plusBytes x y))) (
  Ret []))))))))).
Example bytes_plus_passes : bytes_plus = Ret [].
Proof. vm_compute. reflexivity. Qed.

(** bytes_unittest.cpp 1507-1571: 9 checks *)
Definition bytes_minus : outcome (list N) :=
  b1 <- newBytes (0) ;;
  b2 <- newBytes (0) ;;
  b3 <- (z <- (x <- Ret b1 ;; y <- Ret b2 ;; minusBytes x y) ;; Ret (copyBytes z)) ;;
  tmp1 <- Ret (getLen b1) ;;
  tmp2 <- Ret (getLen b3) ;;
  expect 1539 (N.eqb tmp1 tmp2) (
  tmp3 <- Ret (getLen b2) ;;
  tmp4 <- Ret (getLen b3) ;;
  expect 1540 (N.eqb tmp3 tmp4) (
  tmp5 <- Ret 0 ;;
  tmp6 <- Ret (bmax b3) ;;
  expect 1541 (N.eqb tmp5 tmp6) (
  bytes1 <- Ret (map n2b [126; 0; 1; 37; 21; 5; 6; 7; 8; 6]) ;;
  bytes2 <- Ret (map n2b [126; 255; 255; 34; 17; 0; 0; 0; 0; 253]) ;;
  bytes3 <- Ret (map n2b [0; 1; 2; 3; 4; 5; 6; 7; 8; 9]) ;;
  b4 <- newBytes (10) ;;
  b5 <- newBytes (10) ;;
  b4 <- setBytes (takeN 10 (dropN 0 bytes1)) b4 ;;
  b5 <- setBytes (takeN 10 (dropN 0 bytes2)) b5 ;;
  b6 <- (z <- (x <- Ret b4 ;; y <- Ret b5 ;; minusBytes x y) ;; Ret (copyBytes z)) ;;
  tmp7 <- Ret (same_first 10 (dropN 0 (bdata b6)) (dropN 0 bytes3)) ;;
  expect 1552 (tmp7) (
  b7 <- newBytes (11) ;;
  b8 <- newBytes (10) ;;
  b7 <- fillrandom (rand 1) b7 ;;
  expect 1558 (throws LengthError ((x <- Ret b7 ;; y <- Ret b8 ;; minusBytes x y))) (
  b8 <- fillrandom (rand 2) b8 ;;
  expect 1560 (throws LengthError ((x <- Ret b7 ;; y <- Ret b8 ;; minusBytes x y))) (
  b9 <- newBytes (2) ;;
  b10 <- newBytes (10) ;;
  b9 <- fillrandom (rand 3) b9 ;;
  b10 <- addrandom (rand 4) 2 b10 ;;
  tmp8 <- (x <- Ret b9 ;; y <- Ret b10 ;; minusBytes x y) ;;
  expect 1565 (true) (
  b11 <- newBytes (0) ;;
  b12 <- newBytes (10) ;;
  tmp9 <- (x <- Ret b11 ;; y <- Ret b12 ;; minusBytes x y) ;;
  expect 1568 (true) (
  b12 <- addByte (n2b 173) b12 ;;
  expect 1570 (throws LengthError ((x <- Ret b11 ;; y <- Ret b12 ;; minusBytes x y))) (
  Ret []))))))))).
Example bytes_minus_passes : bytes_minus = Ret [].
Proof. vm_compute. reflexivity. Qed.

(** bytes_unittest.cpp 216, 274, 359, 401, 528: the null pointers *)
Definition bytes_null : outcome (list N) :=
  b8 <- newBytes 11 ;;
  expect 216 (throws InvalidArgument (setPtr None 1 b8)) (
  expect 274 (throws InvalidArgument (consumePtr None 1 b8)) (
  expect 359 (throws InvalidArgument (newPtr None 1)) (
  expect 401 (throws InvalidArgument (addPtr None 1 b8)) (
  b10 <- newBytes 10 ;;
  b10 <- addrandom (rand 1) 5 b10 ;;
  expect 528 (throws InvalidArgument (PtrModel.copyToArray b10 None 10)) (
  Ret []))))).
Example bytes_null_passes : bytes_null = Ret [].
Proof. vm_compute. reflexivity. Qed.
