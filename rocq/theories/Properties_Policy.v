(** C115: how many passwords the policy admits, and that the API does not apply it. *)
From Coq Require Import Strings.String Lia.
From Verif Require Import Base BaseFacts BytesModel BytesSpec MiscModel CipherModel CipherSpec PwModel PwSpec ChModel ChSpec HeaderModel HeaderSpec Toy FileModel ApiModel ApiSpec
  WorkModel WorkSpec SecSpec QuerySpec CountSpec PolicyFacts Properties_Header Properties_File Properties_Api.

(** 90^n passwords of [n] bytes are admitted, none below 8 bytes *)
Theorem C115_count : forall n, number n (fun pw => isPasswordValid pw = Ret PwOk) (if (8 <=? n) && (n <? 2 ^ 31) then 90 ^ n else 0).
Proof. exact policy_number. Qed.
Print Assumptions C115_count.
(** whoever goes through all admitted passwords of one length pays a password check for each *)
Theorem C115_search : forall n h, header_ok h -> 8 <= n < 2 ^ 31 -> 90 ^ n <= 2 ^ 64 -> exists gs, NoDup gs /\
  (forall g, In g gs <-> lenN g = n /\ isPasswordValid g = Ret PwOk) /\
  forall p, decides h gs p -> forall H0, hashes_ok H0 -> exists H, hashes_ok H /\ 90 ^ n * check_rounds h <= lenN (asked (hash_of H (h_hmode h)) p).
Proof. exact policy_search. Qed.
Print Assumptions C115_search.
(** of the printable ASCII characters exactly blank, quotation marks, backslash, circumflex, grave accent and bar are refused *)
Theorem C115_printable : forall c, 32 <= b2n c < 127 -> (~ allowed c <-> In c [x20; x22; x27; x5c; x5e; x60; x7c]).
Proof. exact printable_refused. Qed.
Print Assumptions C115_printable.
(** of the others exactly the two bytes of the section sign are admitted, also one without the other *)
Theorem C115_unprintable : forall c, ~ 32 <= b2n c < 127 -> (allowed c <-> c = xc2 \/ c = xa7).
Proof. exact unprintable_allowed. Qed.
Print Assumptions C115_unprintable.
(** createDataHeader gives one answer for all passwords *)
Theorem C115_any_password : forall H, hashes_ok H -> forall bd mode tr a w f ds t, history bd H mode tr a -> world_ok bd H w -> settings_made ds -> t < 2 ^ 64 ->
  exists r, forall pw, exists a', step w a f (OHeader pw ds t) = (f, Ret (a', r)).
Proof. exact any_password. Qed.
Print Assumptions C115_any_password.

Example C115_ex_count : number 8 (fun pw => isPasswordValid pw = Ret PwOk) 4304672100000000 /\ number 7 (fun pw => isPasswordValid pw = Ret PwOk) 0.
Proof. split; [exact (C115_count 8)|exact (C115_count 7)]. Qed.
Example C115_ex_search : header_ok ex_head /\ 90 ^ 9 <= 2 ^ 64 /\ check_rounds ex_head = 5.
Proof. split; [apply ex_head_ok|]. split; vm_compute; [discriminate|reflexivity]. Qed.
(** eight first halves of a section sign pass, a German umlaut does not *)
Example C115_ex_half : isPasswordValid (repeat xc2 8) = Ret PwOk /\ isPasswordValid (repeat xa7 8) = Ret PwOk /\ isPasswordValid (str "passw" ++ [xc3; xb6] ++ str "rd") = Ret (PwCharInvalid xc3).
Proof. vm_compute. auto. Qed.
(** a file under the empty password, which the policy refuses *)
Example C115_ex_empty : isPasswordValid [] = Ret PwTooShort /\
  match calls (map (pair ex_world) [OCreate a_enc_path; OSelect a_enc_path; OHeader [] ex_ds 0; OEncrypt (text ex_data); OWrite; OLogout; OSelect a_enc_path; OVerify [] 0; ODecrypt])
    (fresh 1) (fun _ => None) with
  | Some ([ROk; ROk; ROk; ROk; ROk; RVoid; ROk; ROk; RData (mkFD _ (Some b))], _, _) => bdata b = bdata ex_data
  | _ => False
  end.
Proof. vm_compute. auto. Qed.
