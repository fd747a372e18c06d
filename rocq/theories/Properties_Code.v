(** Property C119. *)
From Coq Require Import Strings.String.
From Verif Require Import Base BytesModel BytesSpec MiscModel CipherModel CipherSpec PwModel PwSpec ChModel ChSpec HeaderModel HeaderSpec Toy FileModel ApiModel ApiSpec
  ApiFacts9 Properties_Header Properties_File Properties_Api Properties_Ref CodeSpec CodeFacts CodeFacts2.

Theorem C119_codes : forall H, hashes_ok H -> forall bd mode tr a w f o f' a' st e, history bd H mode tr a -> world_ok bd H w -> fs_ok f -> op_ok o ->
  step w a f o = (f', Ret (a', RErr st e)) -> In e (codes (kind_of o)) /\ st = match e with ERR_TIMEOUT => TIMEOUT | _ => FAIL end.
Proof. exact api_codes. Qed.
Print Assumptions C119_codes.
Theorem C119_attained : forall bd k e, In e (codes k) -> attained bd k e.
Proof. exact all_attained. Qed.
Print Assumptions C119_attained.
Theorem C119_never : forall e, In e never <-> forall bd k, ~ attained bd k e.
Proof. exact never_exact. Qed.
Print Assumptions C119_never.
(** the code of readers is not always that of the API: a header size larger than the file is refused when the file is opened *)
Definition ex_oversized : bytes := u64 191 ++ u64 192 ++ dropN 16 ex_file.
Example C119_ex :
  RefSpec.read_file Release ex_oversized = RefSpec.Rejects ERR_HEADERSIZE_FILESIZE_MISMATCH /\
  runs_to [] (usual Release) (one_file ex_oversized) (OSelect a_enc_path) = Some ERR_FILEHANDLER_CREATION /\
  runs_to [] (usual Release) (one_file ex_short) (OSelect a_enc_path) = Some ERR_FILESIZE_INVALID /\
  runs_to (before Release ex_files [OSelect a_enc_path]) (cw Release true true 9) ex_files (OVerify ex_pw 5) = Some ERR_TIMEOUT.
Proof. vm_compute. repeat split. Qed.
