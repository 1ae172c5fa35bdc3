(* C84 *)
From Verif Require Import Base Iana Crypto Sig Ocsp Toy Suites S_Suites P_Suites.

(* each registry gives, whatever classes were declared in whatever order, the
   last direct subclass that has the key *)
Theorem c84_by_id ks i : get_suite i (declare ks) = or_key (last_of (puts_all i) ks).
Proof. exact (by_id ks i). Qed.
Print Assumptions c84_by_id.
Theorem c84_by_sign ks s : get_by_sign s (declare ks) = or_key (last_of (puts_sign s) ks).
Proof. exact (by_sign ks s). Qed.
Print Assumptions c84_by_sign.
Theorem c84_by_pubkey ks o : match get_by_pubkey o (declare ks) with
  | Ok d => existsb (puts_pub o) ks = true /\ map fst d = firsts [] (ids_of o ks) /\ forall i, dget i d = last_of (puts_inner o i) ks
  | Err e => e = XKey /\ existsb (puts_pub o) ks = false
  end.
Proof. exact (by_pubkey ks o). Qed.
Print Assumptions c84_by_pubkey.

(* the tables on which the rest of the model is built are what importing the
   module makes *)
Theorem c84_tables :
  map fst (r_all (declare shipped)) = signature_suites /\
  (forall o, from_signature_oid o = let* k := get_by_sign o (declare shipped) in Ok (k_name k)) /\
  (forall o, for_public_key_oid o = let* d := get_by_pubkey o (declare shipped) in Ok (map fst d)) /\
  (forall i, memN i signature_suites = match get_suite i (declare shipped) with Ok k => i =? k_name k | Err _ => false end).
Proof. exact tables. Qed.
Print Assumptions c84_tables.

(* further classes only matter for the keys that they use *)
Theorem c84_more ks more :
  (forall i, existsb (puts_all i) more = false -> get_suite i (declare (ks ++ more)) = get_suite i (declare ks)) /\
  (forall s, existsb (puts_sign s) more = false -> get_by_sign s (declare (ks ++ more)) = get_by_sign s (declare ks)).
Proof. exact (more_classes ks more). Qed.
Print Assumptions c84_more.
Definition c84_mine : klass := suite 0xfe00 PK_EC 77.
Definition c84_grandchild : klass := mkKlass 1 false (Some ed25519) (Some PK_ED25519) (Some SO_ED25519).
Example c84_case : existsb (puts_all ed25519) [c84_mine; c84_grandchild] = false /\
  get_suite ed25519 (declare (shipped ++ [c84_mine; c84_grandchild])) = Ok (suite ed25519 PK_ED25519 SO_ED25519) /\
  get_suite 0xfe00 (declare (shipped ++ [c84_mine; c84_grandchild])) = Ok c84_mine /\
  get_by_sign 77 (declare (shipped ++ [c84_mine])) = Ok c84_mine /\
  (let* d := get_by_pubkey PK_EC (declare (shipped ++ [c84_mine])) in Ok (map fst d)) =
    Ok [ecdsa_secp256r1_sha256; ecdsa_secp384r1_sha384; ecdsa_secp521r1_sha512; 0xfe00].
Proof. repeat split; vm_compute; reflexivity. Qed.

(* Full statement: the identifier of the signatures of a suite leads to it.  It
   does when no later class has the same, and only then. *)
Theorem c84_reached_partial ks k i s :
  k_direct k = true -> k_iana k = Some i -> k_sign k = Some s -> k_pubkey k <> None -> forall before after, ks = before ++ k :: after ->
  (existsb (puts_all i) after = false -> get_suite i (declare ks) = Ok k) /\
  (existsb (puts_sign s) after = false -> get_by_sign s (declare ks) = Ok k) /\
  (existsb (puts_sign s) after = true -> ~ In k after -> get_by_sign s (declare ks) <> Ok k).
Proof. exact (reached ks k i s). Qed.
Print Assumptions c84_reached_partial.
Example c84_case_reached : exists before after, shipped = before ++ suite rsa_pss_rsae_sha256 PK_RSAES_PKCS1 SO_RSASSA_PSS :: after /\
  existsb (puts_all rsa_pss_rsae_sha256) after = false /\ existsb (puts_sign SO_RSASSA_PSS) after = true.
Proof. exists (firstn 3 shipped), (skipn 4 shipped). repeat split; vm_compute; reflexivity. Qed.
Theorem c84_reached_refuted : exists k i s, In k shipped /\ get_suite i (declare shipped) = Ok k /\ k_sign k = Some s /\
  exists j, get_by_sign s (declare shipped) = Ok j /\ k_name j <> k_name k.
Proof.
  exists (suite rsa_pss_rsae_sha256 PK_RSAES_PKCS1 SO_RSASSA_PSS), rsa_pss_rsae_sha256, SO_RSASSA_PSS.
  split; [right; right; right; left; reflexivity|]. split; [vm_compute; reflexivity|]. split; [reflexivity|].
  exists (suite rsa_pss_pss_sha512 PK_RSASSA_PSS SO_RSASSA_PSS). split; [vm_compute; reflexivity | discriminate].
Qed.
Print Assumptions c84_reached_refuted.

(* Full statement: a class that could not be created is in no registry. *)
Theorem c84_failed_refuted : exists k r r1 i, init_subclass k r = (Err XAttr, r1) /\ get_suite i r = Err XKey /\ get_suite i r1 = Ok k.
Proof. exists (mkKlass 1 true (Some 0xfe00) (Some PK_EC) None), (declare shipped). eexists. exists 0xfe00. repeat split; vm_compute; reflexivity. Qed.
Print Assumptions c84_failed_refuted.

(* what becomes of it: an OCSP answer that its issuer signed with RSASSA-PSS and
   SHA-256 is refused *)
Definition pss (signed_with : N) : crypto := {|
  cr_hash := cr_hash toy; cr_hmac := cr_hmac toy; cr_seal := cr_seal toy; cr_open := cr_open toy;
  cr_kx_pub := cr_kx_pub toy; cr_kx_shared := cr_kx_shared toy; cr_sign := cr_sign toy; cr_sig_verify := cr_sig_verify toy;
  cr_load_cert := cr_load_cert toy; cr_load_pubkey := cr_load_pubkey toy; cr_cert_pubkey := cr_cert_pubkey toy;
  cr_cert_pubkey_oid := fun _ => PK_RSASSA_PSS; cr_cert_sig_oid := fun _ => SO_RSASSA_PSS; cr_cert_hash_alg := cr_cert_hash_alg toy;
  cr_verify_chain := cr_verify_chain toy; cr_is_ip := cr_is_ip toy; cr_idna_decode := cr_idna_decode toy; cr_idna_encode := cr_idna_encode toy;
  cr_load_ocsp_req := cr_load_ocsp_req toy;
  cr_load_ocsp_res := fun b => Ok (mkOcspRes true true b [] 0 0 (Some 100) SO_RSASSA_PSS 0 (toy_hash SHA256 (be_bytes 2 signed_with ++ b)) []);
  cr_ocsp_url := cr_ocsp_url toy; cr_make_ocsp_req := cr_make_ocsp_req toy; cr_ocsp_fetch := cr_ocsp_fetch toy; cr_now := cr_now toy; cr_sig_args := cr_sig_args toy |}.
Theorem c84_ocsp_refuted : exists C issuer req der rs scheme,
  cr_load_ocsp_res C der = Ok rs /\ cr_cert_sig_oid C issuer = rs_sig_oid rs /\
  for_public_key_oid (cr_cert_pubkey_oid C issuer) = Ok [rsa_pss_pss_sha256; rsa_pss_pss_sha384; rsa_pss_pss_sha512] /\ scheme = rsa_pss_pss_sha256 /\
  cr_sig_verify C scheme (cr_cert_pubkey C issuer) (rs_signature rs) (rs_tbs rs) = Ok tt /\
  validate_ocsp C issuer req der = Err XValue.
Proof. exists (pss rsa_pss_pss_sha256), toy_cert, toy_cert, toy_cert. eexists. exists rsa_pss_pss_sha256. repeat split; vm_compute; reflexivity. Qed.
Print Assumptions c84_ocsp_refuted.
Example c84_case_ocsp : validate_ocsp (pss rsa_pss_pss_sha512) toy_cert toy_cert toy_cert = Ok 100.
Proof. vm_compute. reflexivity. Qed.
