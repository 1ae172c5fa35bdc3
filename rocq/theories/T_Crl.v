(* C88 *)
From Verif Require Import Base P_Base Iana Crypto Config Serial Ext Msg Cipher Ocsp Conn S_Hist S_Conn S_State Toy P_Toy Crl S_Crl P_Crl.

(* C88.  Full statement: a client with a revocation list accepts a trusted chain
   exactly when no certificate of it is in the list, and answers
   bad_certificate when one is.
   Missing: the certificate is passed where its serial number is expected.  A
   chain is never accepted, be it in the list or not (c88_refuted), and the
   alert is internal_error. *)
Theorem c88_list_partial : forall serial crl certs, verify_revocation crl certs = Ok tt -> clean serial crl certs.
Proof. exact revocation_clean. Qed.
Print Assumptions c88_list_partial.
(* exactly what is done instead *)
Theorem c88_exact : forall crl certs,
  verify_revocation crl certs = Ok tt /\ ((forall n l, crl <> Some (n :: l)) \/ certs = []) \/
  verify_revocation crl certs = Err XType /\ (exists n l, crl = Some (n :: l)) /\ certs <> [].
Proof. exact revocation_cases. Qed.
Print Assumptions c88_exact.
(* it is what the model of the connection does *)
Theorem c88_same : forall C g crl host ocsp e rest, listed g crl ->
  client_check_x509 C g host ocsp (e :: rest) =
  let* _ := match cr_verify_chain C (g_trust g) (g_depth g) (match host with Some [] => None | _ => host end) (en_data e) (map en_data rest) with
            | Err XVerif => Err (XAlert BAD_CERTIFICATE) | r => r end in
  let* _ := verify_revocation crl (map en_data (e :: rest)) in
  verify_statuses C ocsp (e :: rest).
Proof. exact check_revocation. Qed.
Print Assumptions c88_same.
(* whatever the server and the application do *)
Theorem c88_never : forall C g c, g_side g = Client -> g_crl g <> None -> require_peer_auth g = true -> reachable C g c ->
  unconvinced (phase_of (c_state c)) = true.
Proof. exact wary_stays. Qed.
Print Assumptions c88_never.

(* --- the same flight, with and without a list that does not name the certificate --- *)
Definition rv_client (crl : option N) : config :=
  mkConfig Client toy_suites [x25519; secp256r1] [ed25519; ed448] (Some 1) crl 5 [] None None None
    16384 true [ascii_bytes "h2"%string; ascii_bytes "http/1.1"%string] [].
Definition rv_c0 crl : conn := get_ok (new_conn false (rv_client crl) (Some (ascii_bytes "example.org"%string)) false (toy_rng 1 100) (toy_rng 1)).
Definition rv_c1 crl : conn := run toy [OInit] (rv_c0 crl).
Lemma rv_reached crl : reachable toy (rv_client crl) (rv_c1 crl).
Proof.
  exists (rv_c0 crl), [OInit]. split; [|reflexivity]. split; [vm_compute; reflexivity|]. split; [cbn; tauto|].
  exists false, (Some (ascii_bytes "example.org"%string)), false, (toy_rng 1 100), (toy_rng 1). vm_compute. reflexivity.
Qed.
Example c88_case : g_side (rv_client (Some 1)) = Client /\ g_crl (rv_client (Some 1)) <> None /\ require_peer_auth (rv_client (Some 1)) = true /\
  phase_of (c_state (rv_c1 (Some 1))) = CWaitSH /\ listed (rv_client (Some 1)) (Some [42]) /\ listed (rv_client None) (Some []) /\
  clean (fun _ => 41) (Some [42]) [toy_cert] /\ ~ clean (fun _ => 42) (Some [42]) [toy_cert] /\ verify_revocation (Some []) [toy_cert] = Ok tt.
Proof.
  split; [reflexivity|]. split; [discriminate|]. split; [reflexivity|]. split; [vm_compute; reflexivity|].
  split; [split; [intros _; exists 42, []; reflexivity | intros _; discriminate]|].
  split; [split; [intro H; destruct (H eq_refl) | intros (n & l & H); discriminate H]|].
  split; [intros d _ (l & [= <-] & [H|[]]); discriminate H|].
  split; [|reflexivity]. intro H. apply (H toy_cert); [left; reflexivity|]. exists [42]. split; [reflexivity | left; reflexivity].
Qed.
Theorem c88_refuted : exists C serial crl certs g g' c c' b,
  clean serial crl certs /\ listed g crl /\ verify_revocation crl certs <> Ok tt /\
  reachable C g c /\ reachable C g' c' /\ g_crl g' = None /\
  fst (receive_data C b c') = Ok tt /\ c_state (snd (receive_data C b c')) = Connected /\
  fst (receive_data C b c) = Err XType /\ c_state (snd (receive_data C b c)) = Failed.
Proof.
  exists toy, (fun _ => 41), (Some [42]), [toy_cert], (rv_client (Some 1)), (rv_client None), (rv_c1 (Some 1)), (rv_c1 None), (c_out toy_s2).
  split; [exact (proj1 (proj2 (proj2 (proj2 (proj2 (proj2 (proj2 c88_case))))))) |].
  split; [exact (proj1 (proj2 (proj2 (proj2 (proj2 c88_case))))) |]. split; [discriminate|].
  split; [exact (rv_reached (Some 1))|]. split; [exact (rv_reached None)|]. split; [reflexivity|].
  repeat split; vm_compute; reflexivity.
Qed.
Print Assumptions c88_refuted.
