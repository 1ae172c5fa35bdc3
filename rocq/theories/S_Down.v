(* C76: nobody on the network can talk the two ends down. *)
From Verif Require Import Base Iana Crypto Config Ext Msg Cipher Kex Sig Conn S_Hist S_Conn S_Auth S_Server S_Agree S_Terms.

(* the types of certificate that a client is ready for (RFC 7250 4.2: X.509
   when nothing is said) *)
Definition types_for (g : config) : list N :=
  if is_nil (g_trusted_keys g) then [CT_X509] else peer_certificate_types g.
(* the application protocol for two lists of names (RFC 7301 3.2) *)
Definition protocol (theirs ours : list str) (v : option str) : Prop :=
  match v with
  | None => theirs = [] \/ ours = []
  | Some p => prefers (fun y => In y theirs) ours p
  end.

(* What the two ends [c] and [s] negotiated is what the server prefers among
   everything that the client is configured for, and not only among what the
   network let through; both ends say so. *)
Record best_terms (C : crypto) (gc gs : config) (c s : conn) : Prop := {
  bt_suite : exists x, prefers (fun x => In x (g_suites gc)) (g_suites gs) x /\
    tells n_suite c = Some x /\ tells n_suite s = Some x;
  (* the client does not say (C75), but this is the ServerHello it accepted *)
  bt_group : exists x sh suite pub, prefers (fun x => In x (g_groups gc)) (g_groups gs) x /\ tells n_group s = Some x /\
    In (Server, SERVER_HELLO, sh) (c_hs c) /\ answers_share C sh suite x pub;
  bt_sigalg : exists x leaf rest, g_chain gs = Some (leaf :: rest) /\
    prefers (fun x => In x (schemes_of_key (cr_cert_pubkey_oid C leaf)) /\ In x (g_sigalgs gc)) (g_sigalgs gs) x /\
    tells n_sigalg c = Some x;
  bt_alpn : exists v, protocol (g_alpn gc) (g_alpn gs) v /\ tells n_alpn c = Some v /\ tells n_alpn s = Some v;
  bt_mfl : tells n_mfl c = Some 16384 /\ tells n_mfl s = Some 16384;
  bt_type : exists t, prefers (fun x => In x (types_for gc)) (certificate_types gs) t /\
    tells n_sct c = Some t /\ tells n_sct s = Some t;
  bt_heartbeat : tells n_send_hb c = Some (g_echo gs) /\ tells n_echo_hb s = Some (g_echo gs) /\
    tells n_send_hb s = Some (g_echo gc) /\ tells n_echo_hb c = Some (g_echo gc);
  bt_ocsp : tells n_want_ocsp s = Some (opt_bool (g_trust gc)) }.

(* certificates and keys are represented by their encoding: loading the ones of
   the configuration gives them back *)
Definition loadable (C : crypto) (g : config) : Prop :=
  (forall chain, g_chain g = Some chain -> Forall (fun d => cr_load_cert C d = Ok d) chain) /\
  (forall key, g_public g = Some key -> cr_load_pubkey C key = Ok key).
(* the client holds the certificate, or the key, of this very server; when it
   authenticates its peer it verified this chain *)
Definition right_peer (C : crypto) (gc gs : config) (c : conn) : Prop :=
  (tells n_sct c = Some CT_X509 /\ exists leaf rest, g_chain gs = Some (leaf :: rest) /\
     tells n_peer_cert c = Some leaf /\ tells n_peer_key c = None /\
     (require_peer_auth gc = true -> cr_verify_chain C (g_trust gc) (g_depth gc)
        (match c_host c with Some [] => None | _ => c_host c end) leaf rest = Ok tt)) \/
  (tells n_sct c = Some CT_RAW_PUBLIC_KEY /\ require_peer_auth gc = false /\
     exists key, g_public gs = Some key /\ tells n_peer_key c = Some key).
