From Verif Require Import Base Iana Crypto Config Serial Ext Msg Cipher Kex Sig Ocsp Transcript Conn Toy P_Toy
  S_Utils S_Hist S_Conn S_Keys S_Ocsp S_OcspX P_OcspX T_Ocsp.

(* C91.  Full statement: the answers that RFC 6960 calls good are accepted, the
   others are ValueErrors.  The good answers accepted are those that have a
   next_update and the algorithm of the issuer's certificate. *)
Theorem c91_exact C issuer req res until :
  validate_ocsp C issuer req res = Ok until <-> ocsp_good C issuer req res until /\ same_algorithm C issuer res.
Proof. exact (exactly C issuer req res until). Qed.
Print Assumptions c91_exact.
Theorem c91_accepts_partial C issuer req res :
  rfc_good C issuer req res -> dated C res -> same_algorithm C issuer res ->
  exists until, validate_ocsp C issuer req res = Ok until.
Proof. exact (accepted C issuer req res). Qed.
Print Assumptions c91_accepts_partial.
Theorem c91_raises_partial C issuer req res e : documented C -> cr_sig_args C = true -> dated C res ->
  validate_ocsp C issuer req res = Err e -> e = XValue.
Proof. exact (only_value C issuer req res e). Qed.
Print Assumptions c91_raises_partial.
(* what a client makes of an answer that is stapled *)
Theorem c91_stapled_partial C service e i der req :
  documented C -> cr_sig_args C = true -> dated C der ->
  ext_get STATUS_REQUEST (en_exts e) = Some (EOcspStatus der) -> cr_make_ocsp_req C (en_data e) (en_data i) = Ok req ->
  same_algorithm C (en_data i) der ->
  (rfc_good C (en_data i) req der -> verify_status C service e i = Ok tt) /\
  (~ rfc_good C (en_data i) req der -> verify_status C service e i = Err (XAlert BAD_CERTIFICATE)).
Proof. exact (stapled C service e i der req). Qed.
Print Assumptions c91_stapled_partial.

(* toy with other answers, other certificates, another text of InvalidSignature *)
Definition ox_lib (next : option N) (oid : N) (signature : bytes -> bytes) (args : bool) : crypto := {|
  cr_hash := cr_hash toy; cr_hmac := cr_hmac toy; cr_seal := cr_seal toy; cr_open := cr_open toy;
  cr_kx_pub := cr_kx_pub toy; cr_kx_shared := cr_kx_shared toy; cr_sign := cr_sign toy; cr_sig_verify := cr_sig_verify toy;
  cr_load_cert := cr_load_cert toy; cr_load_pubkey := cr_load_pubkey toy; cr_cert_pubkey := cr_cert_pubkey toy;
  cr_cert_pubkey_oid := cr_cert_pubkey_oid toy; cr_cert_sig_oid := fun _ => oid; cr_cert_hash_alg := cr_cert_hash_alg toy;
  cr_verify_chain := cr_verify_chain toy; cr_is_ip := cr_is_ip toy; cr_idna_decode := cr_idna_decode toy; cr_idna_encode := cr_idna_encode toy;
  cr_load_ocsp_req := cr_load_ocsp_req toy;
  cr_load_ocsp_res := fun b => Ok (mkOcspRes true true b [] 0 0 next SO_ED25519 0 (signature b) []);
  cr_ocsp_url := cr_ocsp_url toy; cr_make_ocsp_req := cr_make_ocsp_req toy; cr_ocsp_fetch := cr_ocsp_fetch toy;
  cr_now := cr_now toy; cr_sig_args := args |}.
Definition ox_signed (b : bytes) : bytes := toy_hash SHA256 (be_bytes 2 ed25519 ++ b).
Definition ox_entry : centry := mkEntry CT_X509 toy_cert [EOcspStatus c36_issuer].
Definition ox_issuer : centry := mkEntry CT_X509 c36_issuer [].
Lemma ox_documented next oid f args : documented (ox_lib next oid f args).
Proof.
  split; [discriminate|]. split; [discriminate|]. intros s k sig m e. cbn [ox_lib cr_sig_verify toy].
  destruct (beqb _ _); [discriminate|]. intro X. injection X. auto.
Qed.
Lemma ox_good next oid args : (forall n, next = Some n -> 10 <= n) -> rfc_good (ox_lib next oid ox_signed args) c36_issuer c36_issuer c36_issuer.
Proof.
  intro H. eexists _, _, ed25519. split; [reflexivity|]. split; [reflexivity|]. cbn [rs_successful rs_good rs_name_hash rs_key_hash rs_serial rs_this_update rs_next_update rs_sig_oid rs_signature rs_tbs rq_name_hash rq_key_hash rq_serial].
  do 5 (split; [reflexivity|]). split; [vm_compute; discriminate|]. split; [exact H|]. split; [vm_compute; tauto|]. vm_compute. reflexivity.
Qed.
(* a good answer is accepted, one with another signature refused *)
Example c91_case : documented (ox_lib (Some 10) SO_ED25519 ox_signed true) /\ dated (ox_lib (Some 10) SO_ED25519 ox_signed true) c36_issuer /\
  same_algorithm (ox_lib (Some 10) SO_ED25519 ox_signed true) c36_issuer c36_issuer /\
  rfc_good (ox_lib (Some 10) SO_ED25519 ox_signed true) c36_issuer c36_issuer c36_issuer /\
  validate_ocsp (ox_lib (Some 10) SO_ED25519 ox_signed true) c36_issuer c36_issuer c36_issuer = Ok 10 /\
  verify_status (ox_lib (Some 10) SO_ED25519 ox_signed true) false ox_entry ox_issuer = Ok tt /\
  validate_ocsp (ox_lib (Some 10) SO_ED25519 (fun b => b) true) c36_issuer c36_issuer c36_issuer = Err XValue /\
  verify_status (ox_lib (Some 10) SO_ED25519 (fun b => b) true) false ox_entry ox_issuer = Err (XAlert BAD_CERTIFICATE).
Proof.
  split; [apply ox_documented|]. split; [intros rs X; injection X; intros <-; discriminate|].
  split; [intros rs X; injection X; intros <-; split; reflexivity|].
  split; [apply ox_good; intros n X; injection X; intros <-; discriminate|]. repeat (split; [vm_compute; reflexivity|]). vm_compute. reflexivity.
Qed.
(* a good answer that does not tell when the next one comes *)
Theorem c91_undated_refuted : exists C issuer req res, documented C /\ cr_sig_args C = true /\
  rfc_good C issuer req res /\ same_algorithm C issuer res /\ validate_ocsp C issuer req res = Err XType.
Proof.
  exists (ox_lib None SO_ED25519 ox_signed true), c36_issuer, c36_issuer, c36_issuer.
  split; [apply ox_documented|]. split; [reflexivity|]. split; [apply ox_good; discriminate|].
  split; [intros rs X; injection X; intros <-; split; reflexivity | vm_compute; reflexivity].
Qed.
Print Assumptions c91_undated_refuted.
(* a good answer of an issuer whose own certificate is signed with RSA *)
Theorem c91_algorithm_refuted : exists C issuer req res, documented C /\ cr_sig_args C = true /\
  rfc_good C issuer req res /\ dated C res /\ validate_ocsp C issuer req res = Err XValue.
Proof.
  exists (ox_lib (Some 100) SO_RSA_SHA256 ox_signed true), c36_issuer, c36_issuer, c36_issuer.
  split; [apply ox_documented|]. split; [reflexivity|]. split; [apply ox_good; intros n X; injection X; intros <-; discriminate|].
  split; [intros rs X; injection X; intros <-; discriminate | vm_compute; reflexivity].
Qed.
Print Assumptions c91_algorithm_refuted.
(* a wrong signature, when InvalidSignature has no text *)
Theorem c91_signature_refuted : exists C issuer req res, documented C /\ dated C res /\ same_algorithm C issuer res /\
  ~ rfc_good C issuer req res /\ validate_ocsp C issuer req res = Err XIndex.
Proof.
  exists (ox_lib (Some 100) SO_ED25519 (fun b => b) false), c36_issuer, c36_issuer, c36_issuer.
  split; [apply ox_documented|]. split; [intros rs X; injection X; intros <-; discriminate|].
  split; [intros rs X; injection X; intros <-; split; reflexivity|]. split; [|vm_compute; reflexivity].
  intro G. destruct (accepted _ _ _ _ G) as (u & E).
  - intros rs X; injection X; intros <-; discriminate.
  - intros rs X; injection X; intros <-; split; reflexivity.
  - vm_compute in E. discriminate E.
Qed.
Print Assumptions c91_signature_refuted.
(* Connections: the server of C36 staples; the answer has no next_update, or
   its signature is wrong.  The client fails with a TypeError, an IndexError. *)
Definition ox_c (C : crypto) := step C (ORecv (c_out c36_s)) (run C [OInit] toy_c0).
Theorem c91_client_refuted : exists C1 C2,
  rfc_good C1 c36_issuer c36_issuer c36_issuer /\ same_algorithm C1 c36_issuer c36_issuer /\ documented C1 /\
  fst (ox_c C1) = Err XType /\ c_state (snd (ox_c C1)) = Failed /\
  ~ rfc_good C2 c36_issuer c36_issuer c36_issuer /\ same_algorithm C2 c36_issuer c36_issuer /\ documented C2 /\
  fst (ox_c C2) = Err XIndex /\ c_state (snd (ox_c C2)) = Failed.
Proof.
  exists (ox_lib None SO_ED25519 ox_signed true), (ox_lib (Some 100) SO_ED25519 (fun b => b) false).
  split; [apply ox_good; discriminate|]. split; [intros rs X; injection X; intros <-; split; reflexivity|].
  split; [apply ox_documented|]. split; [vm_compute; reflexivity|]. split; [vm_compute; reflexivity|].
  split; [|split; [intros rs X; injection X; intros <-; split; reflexivity|]; split; [apply ox_documented|]; split; vm_compute; reflexivity].
  intro G. destruct (accepted _ _ _ _ G) as (u & E).
  - intros rs X; injection X; intros <-; discriminate.
  - intros rs X; injection X; intros <-; split; reflexivity.
  - vm_compute in E. discriminate E.
Qed.
Print Assumptions c91_client_refuted.
