(* iana.py: numeric values of the enumerations. *)
From Verif Require Import Base.

(* iana.py:21-48 AlertDescription *)
Definition CLOSE_NOTIFY := 0.
Definition UNEXPECTED_MESSAGE := 10.
Definition BAD_RECORD_MAC := 20.
Definition RECORD_OVERFLOW := 22.
Definition HANDSHAKE_FAILURE := 40.
Definition BAD_CERTIFICATE := 42.
Definition UNSUPPORTED_CERTIFICATE := 43.
Definition ILLEGAL_PARAMETER := 47.
Definition DECODE_ERROR := 50.
Definition DECRYPT_ERROR := 51.
Definition PROTOCOL_VERSION := 70.
Definition INSUFFICIENT_SECURITY := 71.
Definition INTERNAL_ERROR := 80.
Definition USER_CANCELED := 90.
Definition MISSING_EXTENSION := 109.
Definition UNRECOGNIZED_NAME := 112.
Definition NO_APPLICATION_PROTOCOL := 120.
Definition alert_descriptions : list N :=
  [0; 10; 20; 22; 40; 42; 43; 44; 45; 46; 47; 48; 49; 50; 51; 70; 71; 80; 86; 90;
   109; 110; 112; 113; 115; 116; 120].

(* iana.py:51-53 AlertLevel *)
Definition WARNING := 1.
Definition FATAL := 2.

(* iana.py:92-100 *)
Definition STATUS_OCSP := 1.
Definition CT_X509 := 0.
Definition CT_OPENPGP := 1.
Definition CT_RAW_PUBLIC_KEY := 2.
Definition CT_1609DOT2 := 3.
Definition certificate_types_enum : list N := [0; 1; 2; 3].

(* iana.py:103-111 CipherSuites *)
Definition TLS_AES_128_GCM_SHA256 := 0x1301.
Definition TLS_AES_256_GCM_SHA384 := 0x1302.
Definition TLS_CHACHA20_POLY1305_SHA256 := 0x1303.
Definition TLS_AES_128_CCM_SHA256 := 0x1304.
Definition TLS_AES_128_CCM_8_SHA256 := 0x1305.

(* iana.py:114-120 ContentType *)
Definition CT_INVALID := 0.
Definition CT_CCS := 20.
Definition CT_ALERT := 21.
Definition CT_HANDSHAKE := 22.
Definition CT_APPDATA := 23.
Definition CT_HEARTBEAT := 24.

(* iana.py:123-145 ExtensionType *)
Definition SERVER_NAME := 0.
Definition MAX_FRAGMENT_LENGTH := 1.
Definition STATUS_REQUEST := 5.
Definition SUPPORTED_GROUPS := 10.
Definition SIGNATURE_ALGORITHMS := 13.
Definition USE_SRTP := 14.
Definition HEARTBEAT := 15.
Definition ALPN := 16.
Definition SIGNED_CERTIFICATE_TIMESTAMP := 18.
Definition CLIENT_CERTIFICATE_TYPE := 19.
Definition SERVER_CERTIFICATE_TYPE := 20.
Definition PADDING := 21.
Definition PRE_SHARED_KEY := 41.
Definition EARLY_DATA := 42.
Definition SUPPORTED_VERSIONS := 43.
Definition COOKIE := 44.
Definition PSK_KEY_EXCHANGE_MODES := 45.
Definition CERTIFICATE_AUTHORITIES := 47.
Definition OID_FILTERS := 48.
Definition POST_HANDSHAKE_AUTH := 49.
Definition SIGNATURE_ALGORITHMS_CERT := 50.
Definition KEY_SHARE := 51.

(* iana.py:147-162 HandshakeType; HandshakeType_.HELLO_RETRY_REQUEST has the
   same value 2 as SERVER_HELLO *)
Definition CLIENT_HELLO := 1.
Definition SERVER_HELLO := 2.
Definition NEW_SESSION_TICKET := 4.
Definition END_OF_EARLY_DATA := 5.
Definition ENCRYPTED_EXTENSIONS := 8.
Definition CERTIFICATE := 11.
Definition CERTIFICATE_REQUEST := 13.
Definition CERTIFICATE_VERIFY := 15.
Definition FINISHED := 20.
Definition KEY_UPDATE := 24.
Definition MESSAGE_HASH := 254.

(* iana.py:170-192 *)
Definition PEER_ALLOWED_TO_SEND := 1.
Definition PEER_NOT_ALLOWED_TO_SEND := 2.

(* MaxFragmentLengthCode.to_octets, iana.py:174-189 *)
Definition mfl_octets (code : N) : option N :=
  if code =? 1 then Some 512
  else if code =? 2 then Some 1024
  else if code =? 3 then Some 2048
  else if code =? 4 then Some 4096
  else None.

(* iana.py:195-208 NamedGroup *)
Definition secp256r1 := 0x0017.
Definition secp384r1 := 0x0018.
Definition secp521r1 := 0x0019.
Definition x25519 := 0x001D.
Definition x448 := 0x001E.
Definition ffdhe2048 := 0x0100.
Definition ffdhe3072 := 0x0101.
Definition ffdhe4096 := 0x0102.
Definition ffdhe6144 := 0x0103.
Definition ffdhe8192 := 0x0104.
Definition named_groups : list N :=
  [secp256r1; secp384r1; secp521r1; x25519; x448;
   ffdhe2048; ffdhe3072; ffdhe4096; ffdhe6144; ffdhe8192].

(* iana.py:220-247 SignatureScheme *)
Definition rsa_pkcs1_sha256 := 0x0401.
Definition rsa_pkcs1_sha384 := 0x0501.
Definition rsa_pkcs1_sha512 := 0x0601.
Definition ecdsa_secp256r1_sha256 := 0x0403.
Definition ecdsa_secp384r1_sha384 := 0x0503.
Definition ecdsa_secp521r1_sha512 := 0x0603.
Definition rsa_pss_rsae_sha256 := 0x0804.
Definition rsa_pss_rsae_sha384 := 0x0805.
Definition rsa_pss_rsae_sha512 := 0x0806.
Definition ed25519 := 0x0807.
Definition ed448 := 0x0808.
Definition rsa_pss_pss_sha256 := 0x0809.
Definition rsa_pss_pss_sha384 := 0x080a.
Definition rsa_pss_pss_sha512 := 0x080b.
Definition rsa_pkcs1_sha1 := 0x0201.
Definition ecdsa_sha1 := 0x0203.

(* iana.py:250-254 TLSVersion *)
Definition TLS_1_2 := 0x0303.
Definition TLS_1_3 := 0x0304.
Definition tls_versions : list N := [0x0301; 0x0302; 0x0303; 0x0304].

Inductive side := Client | Server.
Definition side_eqb (a b : side) : bool :=
  match a, b with Client, Client | Server, Server => true | _, _ => false end.
(* configuration.py:102-104 *)
Definition other_side (s : side) : side := match s with Client => Server | Server => Client end.
