(* configuration.py *)
From Verif Require Import Base Iana.

(* configuration.py:22-70.  Keys, certificates, trust stores and revocation
   lists are opaque: keys and certificates by their DER encoding, stores and
   lists by a number. log_keys is a parameter of KeyLog.key_lines. *)
Record config := mkConfig {
  g_side : side;
  g_suites : list N;
  g_groups : list N;
  g_sigalgs : list N;
  g_trust : option N;
  g_crl : option N;
  g_depth : N;
  g_trusted_keys : list bytes;
  g_private : option bytes;
  g_public : option bytes;
  g_chain : option (list bytes);
  g_mfl : N;
  g_echo : bool;
  g_alpn : list str;
  g_hostnames : list str
}.

(* configuration.py:72-74 *)
Definition require_peer_auth (g : config) : bool :=
  opt_bool (g_trust g) || negb (is_nil (g_trusted_keys g)).

Definition has_chain (g : config) : bool :=
  match g_chain g with Some (_ :: _) => true | _ => false end.

(* configuration.py:76-83 *)
Definition certificate_types (g : config) : list N :=
  (if has_chain g then [CT_X509] else []) ++
  (if opt_bool (g_public g) then [CT_RAW_PUBLIC_KEY] else []).

(* configuration.py:85-92 *)
Definition peer_certificate_types (g : config) : list N :=
  (if opt_bool (g_trust g) then [CT_X509] else []) ++
  (if is_nil (g_trusted_keys g) then [] else [CT_RAW_PUBLIC_KEY]).

(* configuration.py:106-148 __post_init__ *)
Definition check_mandatory (g : config) : res unit :=
  if is_nil (g_suites g) then Err XValue
  else if is_nil (g_groups g) then Err XValue
  else if is_nil (g_sigalgs g) then Err XValue
  else Ok tt.
Definition check_server (g : config) : res unit :=
  if negb (g_mfl g =? 16384) then Err XValue
  else if negb (opt_bool (g_private g)) then Err XValue
  else if negb (has_chain g || opt_bool (g_public g)) then Err XValue
  else Ok tt.
Definition check_client (g : config) : res unit :=
  if negb (is_nil (g_hostnames g)) then Err XValue else Ok tt.
Definition check_config (g : config) : res unit :=
  let* _ := check_mandatory g in
  match g_side g with Server => check_server g | Client => check_client g end.

(* dataclasses.replace(config, cipher_suites=..., key_exchanges=..., [signature_algorithms=...]).
   __post_init__ runs again and cannot fail: the three lists are not empty and
   nothing else changes. *)
Definition restrict (g : config) (suite group : N) (sigalgs : list N) : config :=
  mkConfig (g_side g) [suite] [group] sigalgs (g_trust g) (g_crl g) (g_depth g)
    (g_trusted_keys g) (g_private g) (g_public g) (g_chain g) (g_mfl g) (g_echo g)
    (g_alpn g) (g_hostnames g).

(* configuration.py:151-179 TLSNegotiatedConfiguration; n_alpn is None for
   Ellipsis, Some None for None.  freeze() is never called. *)
Record nconfig := mkNconfig {
  n_suite : option N;
  n_group : option N;
  n_sigalg : option N;
  n_alpn : option (option str);
  n_send_hb : option bool;
  n_echo_hb : option bool;
  n_mfl : option N;
  n_cct : option N;
  n_sct : option N;
  n_want_ocsp : option bool;
  n_peer_cert : option bytes;
  n_peer_key : option bytes
}.
Definition nconfig_new (suite : option N) : nconfig :=
  mkNconfig suite None None None None None None None None None None None.
Definition nset_suite (n : nconfig) v : nconfig :=
  mkNconfig v (n_group n) (n_sigalg n) (n_alpn n) (n_send_hb n) (n_echo_hb n) (n_mfl n) (n_cct n) (n_sct n) (n_want_ocsp n) (n_peer_cert n) (n_peer_key n).
Definition nset_group (n : nconfig) v : nconfig :=
  mkNconfig (n_suite n) v (n_sigalg n) (n_alpn n) (n_send_hb n) (n_echo_hb n) (n_mfl n) (n_cct n) (n_sct n) (n_want_ocsp n) (n_peer_cert n) (n_peer_key n).
Definition nset_sigalg (n : nconfig) v : nconfig :=
  mkNconfig (n_suite n) (n_group n) v (n_alpn n) (n_send_hb n) (n_echo_hb n) (n_mfl n) (n_cct n) (n_sct n) (n_want_ocsp n) (n_peer_cert n) (n_peer_key n).
Definition nset_alpn (n : nconfig) v : nconfig :=
  mkNconfig (n_suite n) (n_group n) (n_sigalg n) v (n_send_hb n) (n_echo_hb n) (n_mfl n) (n_cct n) (n_sct n) (n_want_ocsp n) (n_peer_cert n) (n_peer_key n).
Definition nset_send_hb (n : nconfig) v : nconfig :=
  mkNconfig (n_suite n) (n_group n) (n_sigalg n) (n_alpn n) v (n_echo_hb n) (n_mfl n) (n_cct n) (n_sct n) (n_want_ocsp n) (n_peer_cert n) (n_peer_key n).
Definition nset_echo_hb (n : nconfig) v : nconfig :=
  mkNconfig (n_suite n) (n_group n) (n_sigalg n) (n_alpn n) (n_send_hb n) v (n_mfl n) (n_cct n) (n_sct n) (n_want_ocsp n) (n_peer_cert n) (n_peer_key n).
Definition nset_mfl (n : nconfig) v : nconfig :=
  mkNconfig (n_suite n) (n_group n) (n_sigalg n) (n_alpn n) (n_send_hb n) (n_echo_hb n) v (n_cct n) (n_sct n) (n_want_ocsp n) (n_peer_cert n) (n_peer_key n).
Definition nset_cct (n : nconfig) v : nconfig :=
  mkNconfig (n_suite n) (n_group n) (n_sigalg n) (n_alpn n) (n_send_hb n) (n_echo_hb n) (n_mfl n) v (n_sct n) (n_want_ocsp n) (n_peer_cert n) (n_peer_key n).
Definition nset_sct (n : nconfig) v : nconfig :=
  mkNconfig (n_suite n) (n_group n) (n_sigalg n) (n_alpn n) (n_send_hb n) (n_echo_hb n) (n_mfl n) (n_cct n) v (n_want_ocsp n) (n_peer_cert n) (n_peer_key n).
Definition nset_want_ocsp (n : nconfig) v : nconfig :=
  mkNconfig (n_suite n) (n_group n) (n_sigalg n) (n_alpn n) (n_send_hb n) (n_echo_hb n) (n_mfl n) (n_cct n) (n_sct n) v (n_peer_cert n) (n_peer_key n).
Definition nset_peer_cert (n : nconfig) v : nconfig :=
  mkNconfig (n_suite n) (n_group n) (n_sigalg n) (n_alpn n) (n_send_hb n) (n_echo_hb n) (n_mfl n) (n_cct n) (n_sct n) (n_want_ocsp n) v (n_peer_key n).
Definition nset_peer_key (n : nconfig) v : nconfig :=
  mkNconfig (n_suite n) (n_group n) (n_sigalg n) (n_alpn n) (n_send_hb n) (n_echo_hb n) (n_mfl n) (n_cct n) (n_sct n) (n_want_ocsp n) (n_peer_cert n) v.
