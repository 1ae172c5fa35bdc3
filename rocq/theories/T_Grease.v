(* C68 *)
From Verif Require Import Base P_Base Iana Crypto Config Serial Ext Msg Cipher Conn S_Hist S_Conn S_Codec S_Grease P_Grease S_Nonce S_Send P_Answer2 Toy P_Toy P_GreaseToy.

(* C68.  Full statement: what a server does not know in a ClientHello, and the
   order in which the client tells what it knows, change nothing.  Of a message
   that has been read: suites, versions, groups, shares, algorithms,
   certificate types, protocols that we do not support, and extensions that we
   do not read.  The connection goes on in the same way, from the same
   transcript. *)
Theorem c68_offer_partial : forall C c first random sid suites suites' exts exts',
  c_state c = ServerWaitClientHello first -> agree (g_suites (c_config c)) suites suites' -> alike (c_config c) exts exts' ->
  process C (KHandshake (HClientHello random sid suites exts)) c = process C (KHandshake (HClientHello random sid suites' exts')) c.
Proof. exact process_alike. Qed.
Print Assumptions c68_offer_partial.
(* a hello with the reserved values of RFC 8701 in each list *)
Example c68_case : reachable toy toy_server gr_s /\ c_state gr_s = ServerWaitClientHello true /\ c_config gr_s = toy_server /\
  agree (g_suites toy_server) toy_suites gr_suites /\ alike toy_server gr_exts gr_greased /\
  fst (receive_data toy (gr_wire gr_suites gr_greased) gr_s) = Ok tt /\
  match c_state (snd (receive_data toy (gr_wire gr_suites gr_greased) gr_s)) with ServerWaitFinished _ => True | _ => False end.
Proof.
  split; [exact gr_reachable|]. split; [reflexivity|]. split; [reflexivity|]. split; [exact (proj1 gr_alike)|]. split; [exact (proj2 gr_alike)|].
  split; vm_compute; [reflexivity | exact I].
Qed.

(* a hello with an extension of an unknown type anywhere, and any suites, is
   read as it was written *)
Theorem c68_unknown_read : forall C pct random sid suites suites' pre post t data b,
  message_ok C pct (HClientHello random sid suites (pre ++ post)) -> suites' <> [] ->
  ~ In t (map fst rfc_places) -> ~ In t (map ext_type (pre ++ post)) ->
  ser_content C (KHandshake (HClientHello random sid suites' (pre ++ EUnknown t data :: post))) = Ok b ->
  parse_content C pct CT_HANDSHAKE b = Ok (KHandshake (HClientHello random sid suites' (pre ++ EUnknown t data :: post))).
Proof. exact unknown_read. Qed.
Print Assumptions c68_unknown_read.
Example c68_read_case : ~ In 2570 (map fst rfc_places) /\ ~ In 2570 (map ext_type gr_exts) /\
  (exists b, ser_content toy (KHandshake (HClientHello gr_random [] gr_suites (EUnknown 2570 [] :: gr_exts))) = Ok b).
Proof.
  split; [vm_compute; intuition discriminate|]. split; [vm_compute; intuition discriminate|].
  eexists; vm_compute; reflexivity.
Qed.

(* an extension that RFC 8446 lets a client send, and that the server has no
   use of, stops it: certificate_authorities with one name *)
Theorem c68_authorities_refuted : exists C g c t data, reachable C g c /\ g_side g = Server /\
  In (t, [NClientHello; NCertRequest]) rfc_places /\ ~ In t heard /\
  fst (receive_data C (gr_wire toy_suites gr_exts) c) = Ok tt /\
  fst (receive_data C (gr_wire toy_suites (gr_exts ++ [EUnknown t data])) c) = Err XType.
Proof.
  exists toy, toy_server, gr_s, CERTIFICATE_AUTHORITIES, [x00; x05; x00; x03; x30; x01; x00].
  split; [exact gr_reachable|]. split; [reflexivity|]. split; [vm_compute; tauto|]. split; [vm_compute; intuition discriminate|].
  split; vm_compute; reflexivity.
Qed.
Print Assumptions c68_authorities_refuted.
(* and a certificate status type that is not known is an error *)
Theorem c68_status_refuted : exists C g c data, reachable C g c /\ g_side g = Server /\
  fst (receive_data C (gr_wire toy_suites gr_exts) c) = Ok tt /\
  fst (receive_data C (gr_wire toy_suites (gr_exts ++ [EUnknown STATUS_REQUEST (x02 :: data)])) c) = Err (XAlert UNRECOGNIZED_NAME).
Proof.
  exists toy, toy_server, gr_s, [x00; x00; x00; x00].
  split; [exact gr_reachable|]. split; [reflexivity|]. split; vm_compute; reflexivity.
Qed.
Print Assumptions c68_status_refuted.
