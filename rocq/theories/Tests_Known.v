(** The answers that the project's tests know: digests (tests/sha256_unittest.cpp, tests/sha384_unittest.cpp,
    tests/sha512_unittest.cpp) and chain hashes (tests/pwfunc_unittest.cpp 351-408).  The digests are computed by
    Sha2.v, the chain hashes by the model of PwFunc on top of it. *)
From Coq Require Import Strings.String.
From Verif Require Import Base BytesModel BytesFacts2 CipherModel PwModel ChModel Sha2 TestLib.
Open Scope N_scope.

(** the hexadecimal digits of the tests, upper case as [toHex] writes them *)
Definition shows (h : hashfn) (text hex : string) : bool :=
  match do_hash h (str text) 0 with Ret b => eqb_bytes (toHex b) (str hex) | _ => false end.
Definition hash256 : hashfn := mkHash 32 sha256.
Definition hash384 : hashfn := mkHash 48 sha384.
Definition hash512 : hashfn := mkHash 64 sha512.

(** tests/sha256_unittest.cpp 50-54 *)
Example sha256_known : forallb (fun p => shows hash256 (fst p) (snd p)) [
  ("jad", "65EBAE8E077A037D81231C1BDE91B721BF23BC3DD92BAEBDCDBE295ADE66B79F");
  ("", "E3B0C44298FC1C149AFBF4C8996FB92427AE41E4649B934CA495991B7852B855");
  ("z", "594E519AE499312B29433B7DD8A97FF068DEFCBA9755B6D5D00E84C524D67B06");
  ("opjwdofiasasdf", "794F3B75CB2279F380C2DB0F749187B2D7DF799A2D17C7060381CC1A24C5ACF7");
  ("iou32894e934zh83", "1AE020B3A284E8F8E4348692EC56D39B5776CC726366AD24D8E40F44EBCE3253");
  ("öül34.ö23-42,.34,-23.4m23oi4z239o4hz239847z2", "A5CB38E244F7A4E2FF2F0290BE1A30EF587C59FB1B08EC01CF9A84F11DD6EB28");
  ("asoizdfh8790qazf9up984u89auwrfsaf fjas pflsa .,4nmrt4", "29ED1592959B390A8EB22CC95AF855E016C4AFE9583C7788365274CC09DE6BD0")]%string = true.
Proof. vm_compute. reflexivity. Qed.

(** tests/sha384_unittest.cpp 50-57 *)
Example sha384_known : forallb (fun p => shows hash384 (fst p) (snd p)) [
  ("jad", "B882E19D748657B99D03F15106A7DE155251FDB5B7217A4C841CF7A2C8C52305F13783A866C83F0FA2C46A0F0DE77671");
  ("", "38B060A751AC96384CD9327EB1B1E36A21FDB71114BE07434C0CC7BF63F6E1DA274EDEBFE76F65FBD51AD2F14898B95B");
  ("z", "C39C06CA383F11C2870C8EA1368E861CEE29DDE246368C17B6985F7A7D650D86A90AA8BBB176DDBD99F06D490F0495E5");
  ("opjwdofiasasdf", "A14BD4A8173EF24A875C3BF6492DBAB38C329D737A7F1EF15C88B6EC46E3E2FD68036DDC8A03031BA4DC31621F28F56E");
  ("iou32894e934zh83", "BA15460F1E8755F4878CCCAEAFC2C5D3231F8531FF9EBD5B361A958470F31CBDF5E82D86C39BB288CA51700F65390281");
  ("öül34.ö23-42,.34,-23.4m23oi4z239o4hz239847z2", "0067E6987129B5F1E7B871428DF596AA3D0201E46BF08267826BF5B77EE6707006B8C01FC787C1A634FA5D5594492494");
  ("asoizdfh8790qazf9up984u89auwrfsaf fjas pflsa .,4nmrt4", "1623E3F3AC382A083A72A481BA2F409E772DFFCAB530092FBB87D9DA6F6A84896C6A101DB8D081F04A6FC2C92BDD767B")]%string = true.
Proof. vm_compute. reflexivity. Qed.

(** tests/sha512_unittest.cpp 50-57 *)
Example sha512_known : forallb (fun p => shows hash512 (fst p) (snd p)) [
  ("jad", "D490D8705C47CC9E57E2388362CE1495474E0047709BF4B1F169A9FF9C0E594BB4EC8245E3374DEAFB59581AF1D0618C86E66B68B758A5A91750F3411DFB742D");
  ("", "CF83E1357EEFB8BDF1542850D66D8007D620E4050B5715DC83F4A921D36CE9CE47D0D13C5D85F2B0FF8318D2877EEC2F63B931BD47417A81A538327AF927DA3E");
  ("z", "5AE625665F3E0BD0A065ED07A41989E4025B79D13930A2A8C57D6B4325226707D956A082D1E91B4D96A793562DF98FD03C9DCF743C9C7B4E3055D4F9F09BA015");
  ("opjwdofiasasdf", "0F684AEC0C7AAEA79AA6B9473E8E667FE53FDA8969281DB1C69D1A018BF82665850BC5E5F8103A09F4F4FD71E419E2C4E696AF02F9C2205FD8C87CE4C0C5E066");
  ("iou32894e934zh83", "15B6FF3DBD04491ECF0FAB91E4FDE72204575DBC451142222DD66673B998D14F9F6CF5D34EA8F2575677593C2342CCB98F350E6581D4A92FF2903E27AFC92A79");
  ("öül34.ö23-42,.34,-23.4m23oi4z239o4hz239847z2", "B499A6CA760F77F7D9C54524E9AEAA1B0DC7527F924171D482DC657D504A3D6061F1706BD14F51CDB804B69433C377E74CFE168FF0792416F5845A5E5CD0617A");
  ("asoizdfh8790qazf9up984u89auwrfsaf fjas pflsa .,4nmrt4", "26397ADE76D807563FB434CEC79150070199E6FF57C7F45EA765E11DAAD5C93F688FAA94A42DA8995B45E5B3F9C491AD3E10A435F56F4D2072FFD57211706531")]%string = true.
Proof. vm_compute. reflexivity. Qed.

(** tests/pwfunc_unittest.cpp 351-408; the timeout is the default 0 (no timeout) and the clock does not matter *)
Definition gives (m : outcome chres) (hex : string) : bool :=
  match m with Ret (Done b) => eqb_bytes (toHex b) (str hex) | _ => false end.
Definition no_clock : nat -> N := fun _ => 0.
Definition password : bytes := str "Password".
Definition passwordbytes : Bytes := stringToBytes password.
Definition s_salt : bytes := str "salt".
Example password_hash :
  shows hash256 "Password" "E7CF3EF4F17C3999A94F2C6F612E8A888E5B1026878E4E19398B23BD38EC221A" = true.
Proof. vm_compute. reflexivity. Qed.
Example chain_hashes_known :
  gives (chainhash_s hash256 no_clock password 3 0) "7BE274414BC74DD332D5A0FAFC94E5A1DA20D091553260A2C1790A82529380F6" &&
  gives (chainhashWithConstantSalt_s hash256 no_clock password 3 [] 0) "7BE274414BC74DD332D5A0FAFC94E5A1DA20D091553260A2C1790A82529380F6" &&
  gives (chainhashWithConstantSalt_s hash256 no_clock password 3 s_salt 0) "039AB013C15E3AB761494D988A3E9298B4D00DAC7CCADE1F87A790676B7DFDE0" &&
  gives (chainhashWithCountSalt_s hash256 no_clock password 3 1 0) "730054A5D0584622D3D11C33FCD351D09A7E216E6206BC0FCB027457EC93C822" &&
  gives (chainhashWithCountSalt_s hash256 no_clock password 3 100 0) "9D2013058D1D46BA1FFC9951A884D1E015A3AA6CBB6296505ED357890E187A2B" &&
  gives (chainhashWithCountAndConstantSalt_s hash256 no_clock password 3 1 [] 0) "730054A5D0584622D3D11C33FCD351D09A7E216E6206BC0FCB027457EC93C822" &&
  gives (chainhashWithCountAndConstantSalt_s hash256 no_clock password 3 100 s_salt 0) "93C329AA4A97175B6B28A38348991AD4D5F96A99AABE95C932C034C7F6AD1AD9" &&
  gives (chainhashWithQuadraticCountSalt_s hash256 no_clock password 3 1 1 1 1 0) "3E767758357A8F0B82B046AE08A4A60D29BC27BA04F902D33AF8EB392C1AEAE4" &&
  gives (chainhashWithQuadraticCountSalt_s hash256 no_clock password 3 90 5 8 3 0) "89FD7F1A7D50F2FB881D8F97E88A407B9F029B900262237D0B6CCDA0C071F16E" &&
  gives (chainhash_b hash256 no_clock passwordbytes 3 0) "7BE274414BC74DD332D5A0FAFC94E5A1DA20D091553260A2C1790A82529380F6" &&
  gives (chainhashWithConstantSalt_b hash256 no_clock passwordbytes 3 [] 0) "7BE274414BC74DD332D5A0FAFC94E5A1DA20D091553260A2C1790A82529380F6" &&
  gives (chainhashWithConstantSalt_b hash256 no_clock passwordbytes 3 s_salt 0) "039AB013C15E3AB761494D988A3E9298B4D00DAC7CCADE1F87A790676B7DFDE0" &&
  gives (chainhashWithCountSalt_b hash256 no_clock passwordbytes 3 1 0) "730054A5D0584622D3D11C33FCD351D09A7E216E6206BC0FCB027457EC93C822" &&
  gives (chainhashWithCountSalt_b hash256 no_clock passwordbytes 3 100 0) "9D2013058D1D46BA1FFC9951A884D1E015A3AA6CBB6296505ED357890E187A2B" &&
  gives (chainhashWithCountAndConstantSalt_b hash256 no_clock passwordbytes 3 1 [] 0) "730054A5D0584622D3D11C33FCD351D09A7E216E6206BC0FCB027457EC93C822" &&
  gives (chainhashWithCountAndConstantSalt_b hash256 no_clock passwordbytes 3 100 s_salt 0) "93C329AA4A97175B6B28A38348991AD4D5F96A99AABE95C932C034C7F6AD1AD9" &&
  gives (chainhashWithQuadraticCountSalt_b hash256 no_clock passwordbytes 3 1 1 1 1 0) "3E767758357A8F0B82B046AE08A4A60D29BC27BA04F902D33AF8EB392C1AEAE4" &&
  gives (chainhashWithQuadraticCountSalt_b hash256 no_clock passwordbytes 3 90 5 8 3 0) "89FD7F1A7D50F2FB881D8F97E88A407B9F029B900262237D0B6CCDA0C071F16E" = true.
Proof. vm_compute. reflexivity. Qed.
