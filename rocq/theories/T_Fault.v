(* C31: the errors that the bytes of a peer can cause. *)
From Verif Require Import Base Iana Serial Crypto Config Ext Msg Conn S_Hist S_Conn S_Send S_Alert S_Layout S_Fault P_Base P_Fault P_Alert Toy P_Toy.

(* Full statement: parsing any bytes succeeds or raises an alert other than
   internal_error.  Missing: the table [faults], which tells for each type of
   message the other errors, and the errors of the external decoders (IDNA,
   X.509, public keys) when they are not caught. *)
Theorem c31_partial : forall C pct ct data e,
  parse_content C pct ct data = Err e ->
  polite e \/ In e (faults ct data) \/ external C ct data e.
Proof. exact content_errs. Qed.
Print Assumptions c31_partial.
(* such an alert is what the peer is told *)
Theorem c31_told : forall e, polite e -> alert_for e <> INTERNAL_ERROR.
Proof. intros e (d & -> & L & N). cbn [alert_for]. apply N.ltb_lt in L. rewrite L. exact N. Qed.
Print Assumptions c31_told.

(* messages *)
Definition c31_msg (ty : N) (b : bytes) : bytes := be_bytes 1 ty ++ vec 3 b.
Definition c31_hello (x : bytes) : bytes :=
  c31_msg CLIENT_HELLO (be_bytes 2 TLS_1_2 ++ repeat x00 32 ++ vec 1 [] ++ vec 2 (be_bytes 2 TLS_AES_128_GCM_SHA256) ++ vec 1 [x00] ++ vec 2 x).
Definition c31_answer (x : bytes) : bytes :=
  c31_msg SERVER_HELLO (be_bytes 2 TLS_1_2 ++ repeat x00 32 ++ vec 1 [] ++ be_bytes 2 TLS_AES_128_GCM_SHA256 ++ [x00] ++ vec 2 x).
Definition c31_ext (ty : N) (b : bytes) : bytes := be_bytes 2 ty ++ vec 2 b.
(* a DTLS-SRTP offer: whole, and with half a profile *)
Definition c31_srtp := c31_ext USE_SRTP (vec 2 [x00; x01] ++ vec 1 []).
Definition c31_srtp_odd := c31_ext USE_SRTP (vec 2 [x00]).
Definition c31_cas := c31_ext CERTIFICATE_AUTHORITIES (vec 2 (vec 2 [x30])).

(* Every entry of the table is met. *)
Definition c31_small : list (option (option N) * N * bytes * exn) :=
  [ (None, CT_INVALID, [], XKey);
    (None, CT_HANDSHAKE, c31_msg MESSAGE_HASH [], XKey);
    (None, CT_HANDSHAKE, c31_hello c31_srtp_odd, XValue);
    (None, CT_HANDSHAKE, c31_hello c31_srtp, XType);
    (None, CT_HANDSHAKE, c31_hello c31_cas, XType);
    (None, CT_HANDSHAKE, c31_msg ENCRYPTED_EXTENSIONS (vec 2 c31_srtp_odd), XValue);
    (None, CT_HANDSHAKE, c31_msg ENCRYPTED_EXTENSIONS (vec 2 c31_srtp), XType);
    (None, CT_HANDSHAKE, c31_msg CERTIFICATE_REQUEST (vec 1 [] ++ vec 2 c31_cas), XType);
    (None, CT_HANDSHAKE, c31_answer (c31_ext SUPPORTED_VERSIONS (be_bytes 2 TLS_1_2)), XValue);
    (None, CT_HANDSHAKE, c31_msg CERTIFICATE [], XAttr);
    (Some None, CT_HANDSHAKE, c31_msg CERTIFICATE [], XKey);
    (Some (Some CT_X509), CT_HANDSHAKE, c31_msg CERTIFICATE (vec 1 [] ++ be_bytes 3 1000), XValue) ].
Definition c31_cases := (None, CT_HEARTBEAT, [x01] ++ vec 2 (repeat x00 (N.to_nat 16382)), XValue) :: c31_small.
Definition same_exn (a b : exn) : bool :=
  match a, b with XKey, XKey | XValue, XValue | XType, XType | XAttr, XAttr => true | _, _ => false end.
Lemma same_exn_eq a b : same_exn a b = true -> a = b.
Proof. destruct a, b; cbn; congruence. Qed.
Definition c31_check : bool := forallb (fun w => match w with (pct, ct, data, e) =>
  match parse_content toy pct ct data with Err e' => same_exn e' e | Ok _ => false end end) c31_small.
Theorem c31_refuted : forall pct ct data e, In (pct, ct, data, e) c31_cases ->
  parse_content toy pct ct data = Err e /\ ~ polite e /\ alert_for e = INTERNAL_ERROR.
Proof.
  assert (K : c31_check = true) by (vm_compute; reflexivity).
  intros pct ct data e [H | H].
  { assert (L : blen (repeat x00 (N.to_nat 16382)) = 16382) by (unfold blen; rewrite repeat_length; apply N2Nat.id).
    pose proof (long_heartbeat toy None (repeat x00 (N.to_nat 16382)) ltac:(rewrite L; reflexivity) ltac:(rewrite L; reflexivity)) as P.
    assert (e = XValue /\ ct = CT_HEARTBEAT /\ pct = None /\ data = [x01] ++ vec 2 (repeat x00 (N.to_nat 16382))) as (-> & -> & -> & ->) by (repeat split; congruence).
    split; [exact P|]. split; [intros (d & D & _); discriminate D | reflexivity]. }
  unfold c31_check in K. rewrite forallb_forall in K. specialize (K _ H). cbv beta iota in K.
  destruct (parse_content toy pct ct data) as [x|e']; [discriminate|]. assert (e' = e) as -> by exact (same_exn_eq _ _ K).
  split; [reflexivity|].
  split; [intros (d & -> & _); discriminate K | destruct e; try discriminate K; reflexivity].
Qed.
Print Assumptions c31_refuted.
Ltac c31_pick := (left; reflexivity) + (right; c31_pick).
(* ... and no entry is useless *)
Theorem c31_table_met : forall ct t e, In e (faults ct [t]) ->
  In ct [CT_INVALID; CT_HEARTBEAT; CT_HANDSHAKE] /\
  exists pct data, In (pct, ct, data, e) c31_cases /\
    (ct = CT_HANDSHAKE -> exists rest, data = t :: rest).
Proof.
  intros ct t e. unfold faults.
  destruct (ct =? CT_INVALID) eqn:K1; [|destruct (ct =? CT_HEARTBEAT) eqn:K2; [|destruct (ct =? CT_HANDSHAKE) eqn:K3; [|intros []]]].
  - apply N.eqb_eq in K1. subst ct. intros [<- | []]. split; [cbn; tauto|]. exists None, []. split; [right; left; reflexivity | discriminate].
  - apply N.eqb_eq in K2. subst ct. intros [<- | []]. split; [cbn; tauto|]. eexists. eexists. split; [left; reflexivity | discriminate].
  - apply N.eqb_eq in K3. subst ct. intro H. split; [cbn; tauto|].
    assert (X : forall ty, (bN t =? ty) = true -> t = Nb ty) by (intros ty E; apply N.eqb_eq in E; rewrite <- E; symmetry; apply Nb_bN).
    destruct (bN t =? MESSAGE_HASH) eqn:E; [apply X in E; subst t|
    clear E; destruct (bN t =? CLIENT_HELLO) eqn:E; [apply X in E; subst t|
    clear E; destruct (bN t =? ENCRYPTED_EXTENSIONS) eqn:E; [apply X in E; subst t|
    clear E; destruct (bN t =? CERTIFICATE_REQUEST) eqn:E; [apply X in E; subst t|
    clear E; destruct (bN t =? SERVER_HELLO) eqn:E; [apply X in E; subst t|
    clear E; destruct (bN t =? CERTIFICATE) eqn:E; [apply X in E; subst t | destruct H]]]]]];
    clear X; cbn [In] in H; repeat destruct H as [<- | H]; try destruct H; eexists; eexists;
    (split; [unfold c31_cases; do 2 right; c31_pick | intros _; eexists; reflexivity]).
Qed.
Print Assumptions c31_table_met.

(* A certificate that is not DER makes the loader raise ValueError. *)
Definition c31_strict : crypto := {|
  cr_hash := cr_hash toy; cr_hmac := cr_hmac toy; cr_seal := cr_seal toy; cr_open := cr_open toy; cr_kx_pub := cr_kx_pub toy;
  cr_kx_shared := cr_kx_shared toy; cr_sign := cr_sign toy; cr_sig_verify := cr_sig_verify toy;
  cr_load_cert := fun b => match b with x30 :: _ => Ok b | _ => Err XValue end;
  cr_load_pubkey := cr_load_pubkey toy; cr_cert_pubkey := cr_cert_pubkey toy; cr_cert_pubkey_oid := cr_cert_pubkey_oid toy;
  cr_cert_sig_oid := cr_cert_sig_oid toy; cr_cert_hash_alg := cr_cert_hash_alg toy; cr_verify_chain := cr_verify_chain toy;
  cr_is_ip := cr_is_ip toy; cr_idna_decode := cr_idna_decode toy; cr_idna_encode := cr_idna_encode toy;
  cr_load_ocsp_req := cr_load_ocsp_req toy; cr_load_ocsp_res := cr_load_ocsp_res toy; cr_ocsp_url := cr_ocsp_url toy;
  cr_make_ocsp_req := cr_make_ocsp_req toy; cr_ocsp_fetch := cr_ocsp_fetch toy; cr_now := cr_now toy; cr_sig_args := cr_sig_args toy |}.
Theorem c31_external_refuted : exists data e,
  parse_content c31_strict (Some (Some CT_X509)) CT_HANDSHAKE data = Err e /\ external c31_strict CT_HANDSHAKE data e /\ alert_for e = INTERNAL_ERROR.
Proof.
  exists (c31_msg CERTIFICATE (vec 1 [] ++ vec 3 (vec 3 [x00] ++ vec 2 []))), XValue.
  split; [vm_compute; reflexivity|]. split; [|reflexivity]. split; [reflexivity|].
  exists x0b. eexists. split; [reflexivity|]. right. split; [reflexivity|]. exists []. left. reflexivity.
Qed.
Print Assumptions c31_external_refuted.

(* The first message of a client that offers DTLS-SRTP, or names its
   certification authorities, as RFC 8446 4.2 lets it, is answered with
   internal_error. *)
Definition c31_s := run toy [OInit] toy_s0.
Theorem c31_connection_refuted : exists C g c d e c', reachable C g c /\ g_side g = Server /\ can_receive (c_state c) = true /\
  receive_data C d c = (Err e, c') /\ c_out c' = record CT_ALERT [x02; Nb INTERNAL_ERROR].
Proof.
  set (d := record CT_HANDSHAKE (c31_hello c31_cas)).
  exists toy, toy_server, c31_s, d, XType, (snd (receive_data toy d c31_s)).
  split; [exists toy_s0; eexists; split; [exact toy_s0_created | reflexivity]|].
  split; [vm_compute; reflexivity|]. split; [vm_compute; reflexivity|].
  split; [apply receive_fst; vm_compute; reflexivity | vm_compute; reflexivity].
Qed.
Print Assumptions c31_connection_refuted.

(* malformed messages that are answered properly: cut short, with a byte too
   many, with an extension twice as long as its block, an unknown alert level *)
Example c31_case :
  parse_content toy None CT_HANDSHAKE (btake 20 (c31_hello [])) = Err (XAlert DECODE_ERROR) /\
  parse_content toy None CT_HANDSHAKE (c31_hello [] ++ [x00]) = Err (XAlert DECODE_ERROR) /\
  parse_content toy None CT_HANDSHAKE (c31_hello [x00]) = Err (XAlert DECODE_ERROR) /\
  parse_content toy None CT_ALERT [x03; x00] = Err (XAlert ILLEGAL_PARAMETER) /\
  polite (XAlert DECODE_ERROR) /\ polite (XAlert ILLEGAL_PARAMETER).
Proof.
  do 4 (split; [vm_compute; reflexivity|]).
  split; [exists DECODE_ERROR | exists ILLEGAL_PARAMETER]; (split; [reflexivity | split; [reflexivity | discriminate]]).
Qed.
