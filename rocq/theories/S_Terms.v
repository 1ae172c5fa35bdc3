(* C75: what the two ends say was negotiated (TLSConnection.nconfig). *)
From Verif Require Import Base Iana Crypto Config Ext Msg Cipher Kex Sig Conn S_Hist S_Conn S_Server S_Honest.

(* an attribute of nconfig, None while there is none *)
Definition tells {A} (f : nconfig -> option A) (c : conn) : option A :=
  match c_nc c with Some n => f n | None => None end.

(* Both ends say the same of what concerns both; the values are those that the
   server prefers among what the client offers. *)
Record same_terms (C : crypto) (gc gs : config) (c s : conn) : Prop := {
  tm_suite : exists x, prefers (fun x => In x (g_suites gc)) (g_suites gs) x /\
    tells n_suite c = Some x /\ tells n_suite s = Some x;
  tm_group : exists x, prefers (fun x => In x (g_groups gc)) (g_groups gs) x /\ tells n_group s = Some x;
  tm_sigalg : exists x leaf rest, g_chain gs = Some (leaf :: rest) /\
    prefers (fun x => In x (schemes_of_key (cr_cert_pubkey_oid C leaf)) /\ In x (g_sigalgs gc)) (g_sigalgs gs) x /\
    tells n_sigalg c = Some x /\ tells n_peer_cert c = Some leaf /\ tells n_peer_key c = None;
  tm_alpn : exists v, tells n_alpn c = Some v /\ tells n_alpn s = Some v;
  tm_mfl : tells n_mfl c = Some 16384 /\ tells n_mfl s = Some 16384;
  tm_type : tells n_sct c = Some CT_X509 /\ tells n_sct s = Some CT_X509;
  (* one may send heartbeats when the other one echoes them *)
  tm_heartbeat : tells n_send_hb c = Some (g_echo gs) /\ tells n_echo_hb s = Some (g_echo gs) /\
    tells n_send_hb s = Some (g_echo gc) /\ tells n_echo_hb c = Some (g_echo gc);
  tm_ocsp : tells n_want_ocsp s = Some (opt_bool (g_trust gc)) }.

(* Everything is settled once the handshake is done: a client knows these, the
   certificate or the raw key of the server according to its type, *)
Record client_knows (c : conn) : Prop := {
  ck_suite : tells n_suite c <> None;
  ck_sigalg : tells n_sigalg c <> None;
  ck_alpn : tells n_alpn c <> None;
  ck_send : tells n_send_hb c <> None;
  ck_echo : tells n_echo_hb c <> None;
  ck_mfl : tells n_mfl c <> None;
  ck_cct : tells n_cct c <> None;
  ck_peer : (tells n_sct c = Some CT_X509 /\ tells n_peer_cert c <> None /\ tells n_peer_key c = None) \/
            (tells n_sct c = Some CT_RAW_PUBLIC_KEY /\ tells n_peer_cert c = None /\ tells n_peer_key c <> None) }.
(* and a server these *)
Record server_knows (c : conn) : Prop := {
  sk_suite : tells n_suite c <> None;
  sk_group : tells n_group c <> None;
  sk_alpn : tells n_alpn c <> None;
  sk_send : tells n_send_hb c <> None;
  sk_echo : tells n_echo_hb c <> None;
  sk_mfl : tells n_mfl c <> None;
  sk_sct : tells n_sct c <> None;
  sk_ocsp : tells n_want_ocsp c <> None }.
(* the handshake is over *)
Definition over (c : conn) : Prop := match c_state c with Connected | Closed _ _ | Failed => True | _ => False end.
