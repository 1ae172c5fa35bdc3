(* C87 *)
From Verif Require Import Base P_Base Iana Crypto Config Serial Ext Msg Cipher Ocsp Conn S_Hist S_Conn Toy P_Toy Aia S_Aia P_Aia.

(* C87.  Full statement: the responder asked about a certificate is the first
   that it names.  A client with an OCSP service accepts a chain that it trusts
   exactly when every answer stapled to it is good, and every other certificate
   but the last names no responder or names one that gives a good answer.  A
   server with an OCSP service always sends its certificates, with an answer if
   it got a good one.
   Missing: a certificate that has no list of responders at all stops the
   client (c87_client_refuted) and the server (c87_server_refuted), and so does
   a list without one or a responder that does not answer at the server
   (c87_server_stops). *)
Theorem c87_url : forall aia l u,
  (get_ocsp_url aia = Ok (Some u) <-> exists l, aia = Some l /\ responder l u) /\
  (get_ocsp_url aia = Ok None <-> exists l, aia = Some l /\ no_responder l) /\
  ((exists e, get_ocsp_url aia = Err e) <-> aia = None) /\ (aia = Some l -> responder l u -> ~ no_responder l).
Proof.
  intros aia l u. split; [|split; [|split]].
  - destruct aia as [l'|]; [rewrite url_some; split; [intro R; exists l'; auto | intros (? & [= <-] & R); exact R] | split; [discriminate | intros (? & E & _); discriminate E]].
  - destruct aia as [l'|]; [rewrite url_none; split; [intro R; exists l'; auto | intros (? & [= <-] & R); exact R] | split; [discriminate | intros (? & E & _); discriminate E]].
  - destruct aia; [split; [intros (e & E); discriminate E | discriminate] | split; [reflexivity | intros _; exists not_found; reflexivity]].
  - intros _ R N. apply url_some in R. apply url_none in N. congruence.
Qed.
Print Assumptions c87_url.
Theorem c87_client_partial : forall C aia service l,
  verify_statuses (with_aia aia C) service l = Ok tt <-> forall e i, neighbours l e i -> content_with C aia service e i.
Proof. exact statuses_exact. Qed.
Print Assumptions c87_client_partial.
Theorem c87_server_partial : forall C aia c n chain, c_nc c = Some n -> n_sct n = Some CT_X509 -> g_chain (c_config c) = Some chain ->
  n_want_ocsp n <> Some true \/ c_ocsp c = false \/ (length chain < 2)%nat \/
    (exists subject issuer rest l u req der, chain = subject :: issuer :: rest /\ aia subject = Some l /\ responder l u /\
       cr_make_ocsp_req C subject issuer = Ok req /\ cr_ocsp_fetch C (Some u) req = Ok der /\
       forall e, validate_ocsp C issuer req der = Err e -> is_value_error e = true) ->
  exists x, server_certificate_list (with_aia aia C) c = Ok (add_to_leaf x (map (fun cert => mkEntry CT_X509 cert []) chain)) /\
    (x = [] \/ exists subject issuer rest der, chain = subject :: issuer :: rest /\ x = [EOcspStatus der] /\ vouched C subject issuer der).
Proof. exact server_sends. Qed.
Print Assumptions c87_server_partial.
Theorem c87_server_stops : forall C aia c n subject issuer rest e, c_nc c = Some n -> n_sct n = Some CT_X509 ->
  g_chain (c_config c) = Some (subject :: issuer :: rest) -> n_want_ocsp n = Some true -> c_ocsp c = true ->
  (aia subject = None /\ e = not_found \/
   exists l req, aia subject = Some l /\ cr_make_ocsp_req C subject issuer = Ok req /\
     (no_responder l /\ cr_ocsp_fetch C None req = Err e \/ exists u, responder l u /\ cr_ocsp_fetch C (Some u) req = Err e)) ->
  server_certificate_list (with_aia aia C) c = Err e.
Proof. exact server_stops. Qed.
Print Assumptions c87_server_stops.

(* --- a chain of two certificates, and endpoints with or without a service ------ *)
Definition ai_issuer : bytes := ascii_bytes "Issuer"%string.
Definition ai_server : config :=
  mkConfig Server toy_suites [x25519; secp256r1] [ed25519; ed448] None None 5 [] (Some toy_cert) None (Some [toy_cert; ai_issuer]) 16384 true [] [].
Definition ai_c0 (service : bool) : conn := get_ok (new_conn false toy_client (Some (ascii_bytes "example.org"%string)) service (toy_rng 1 100) (toy_rng 1)).
Definition ai_s0 (service : bool) : conn := get_ok (new_conn false ai_server None service (toy_rng 2 100) (toy_rng 2)).
(* no list; a list with other things in it; a responder *)
Definition ai_none (cert : bytes) : option (list adesc) := None.
Definition ai_other (cert : bytes) : option (list adesc) := Some [mkDesc 2 [x61]].
Definition ai_named (cert : bytes) : option (list adesc) := Some [mkDesc 2 [x61]; mkDesc 1 [x62]; mkDesc 1 [x63]].
Definition ai_c1 aia (service : bool) := run (with_aia aia toy) [OInit] (ai_c0 service).
Definition ai_s1 aia (service : bool) := run (with_aia aia toy) [OInit] (ai_s0 service).
Definition ai_hello : bytes := c_out (ai_c1 ai_none true).
Definition ai_flight : bytes := c_out (run (with_aia ai_none toy) [OInit; ORecv ai_hello] (ai_s0 false)).
Lemma ai_reached aia service : reachable (with_aia aia toy) toy_client (ai_c1 aia service) /\ reachable (with_aia aia toy) ai_server (ai_s1 aia service).
Proof.
  split.
  - exists (ai_c0 service), [OInit]. split; [|reflexivity]. split; [vm_compute; reflexivity|]. split; [cbn; tauto|].
    exists false, (Some (ascii_bytes "example.org"%string)), service, (toy_rng 1 100), (toy_rng 1). vm_compute. reflexivity.
  - exists (ai_s0 service), [OInit]. split; [|reflexivity]. split; [vm_compute; reflexivity|]. split; [cbn; tauto|].
    exists false, None, service, (toy_rng 2 100), (toy_rng 2). vm_compute. reflexivity.
Qed.
Example c87_case : responder [mkDesc 2 [x61]; mkDesc 1 [x62]; mkDesc 1 [x63]] [x62] /\ no_responder [mkDesc 2 [x61]] /\
  neighbours (map (fun cert => mkEntry CT_X509 cert []) [toy_cert; ai_issuer]) (mkEntry CT_X509 toy_cert []) (mkEntry CT_X509 ai_issuer []) /\
  verify_statuses (with_aia ai_other toy) true (map (fun cert => mkEntry CT_X509 cert []) [toy_cert; ai_issuer]) = Ok tt.
Proof.
  split; [exists [mkDesc 2 [x61]], (mkDesc 1 [x62]), [mkDesc 1 [x63]]; repeat split; constructor; [discriminate | constructor]|].
  split; [constructor; [discriminate | constructor]|]. split; [exists [], []; reflexivity | vm_compute; reflexivity].
Qed.

(* the same chain in the same flight of an honest server, with and without the extension *)
Theorem c87_client_refuted : exists C g b aia c c', reachable (with_aia aia C) g c /\ reachable (with_aia ai_none C) g c' /\
  c_ocsp c = true /\ c_ocsp c' = true /\ (forall cert l, aia cert = Some l -> no_responder l) /\
  fst (receive_data (with_aia aia C) b c) = Ok tt /\ c_state (snd (receive_data (with_aia aia C) b c)) = Connected /\
  fst (receive_data (with_aia ai_none C) b c') = Err not_found /\ c_state (snd (receive_data (with_aia ai_none C) b c')) = Failed.
Proof.
  exists toy, toy_client, ai_flight, ai_other, (ai_c1 ai_other true), (ai_c1 ai_none true).
  split; [exact (proj1 (ai_reached ai_other true))|]. split; [exact (proj1 (ai_reached ai_none true))|].
  split; [reflexivity|]. split; [reflexivity|]. split; [intros cert l [= <-]; constructor; [discriminate | constructor]|].
  repeat split; vm_compute; reflexivity.
Qed.
Print Assumptions c87_client_refuted.
Theorem c87_server_refuted : exists C g b c c', reachable (with_aia ai_named C) g c /\ reachable (with_aia ai_none C) g c' /\
  c_ocsp c = true /\ c_ocsp c' = true /\
  fst (receive_data (with_aia ai_named C) b c) = Ok tt /\
  fst (receive_data (with_aia ai_none C) b c') = Err not_found /\ c_state (snd (receive_data (with_aia ai_none C) b c')) = Failed.
Proof.
  exists toy, ai_server, ai_hello, (ai_s1 ai_named true), (ai_s1 ai_none true).
  split; [exact (proj2 (ai_reached ai_named true))|]. split; [exact (proj2 (ai_reached ai_none true))|].
  repeat split; vm_compute; reflexivity.
Qed.
Print Assumptions c87_server_refuted.
