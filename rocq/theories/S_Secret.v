(* What shows of the private keys of an endpoint. *)
From Verif Require Import Base Iana Crypto Config Serial Ext Msg Cipher Kex Conn S_Hist S_Conn S_Auth.

(* two ephemeral keys that nobody can tell apart by their public values and the
   secrets that they share with others *)
Definition twin_keys (C : crypto) (p p' : bytes) : Prop :=
  forall group, kx_init C group p' = kx_init C group p /\ forall peer, kx_resume C group p' peer = kx_resume C group p peer.
(* two keys that make the same signatures in a CertificateVerify of a server,
   RFC 8446 4.4.3; what else they sign does not matter *)
Definition twin_signers (C : crypto) (k k' : option bytes) : Prop :=
  match k, k' with
  | None, None => True
  | Some a, Some b => forall alg th, cr_sign C alg b (signed_content Server th) = cr_sign C alg a (signed_content Server th)
  | _, _ => False
  end.

(* the same connection with other private keys *)
Definition with_private (k : option bytes) (g : config) : config :=
  mkConfig (g_side g) (g_suites g) (g_groups g) (g_sigalgs g) (g_trust g) (g_crl g) (g_depth g) (g_trusted_keys g) k
    (g_public g) (g_chain g) (g_mfl g) (g_echo g) (g_alpn g) (g_hostnames g).
Definition disguise (k : option bytes) (r : N -> bytes) (c : conn) : conn :=
  mkConn (with_private k (c_config c)) (c_host c) (c_ocsp c) (c_nc c) (c_cipher c) (c_sig c) (c_tr c) (c_in c) (c_inhs c)
    (c_out c) (c_app c) (c_cunique c) (c_sunique c) (c_state c) r (c_rngi c) (c_log c) (c_hs c).

(* what the methods and attributes of a connection tell: the negotiated
   configuration, what waits to be sent and read, and how far it is *)
Definition told (c : conn) : option nconfig * bytes * bytes * bool * bool :=
  (c_nc c, c_out c, c_app c, is_post_handshake c, is_connected c).
(* what was passed to the key log *)
Definition logged (c : conn) : list (String.string * bytes) := match c_cipher c with Some x => cs_klog x | None => [] end.

(* the ClientHellos among the messages of a handshake, oldest first *)
Definition hellos_of (l : list (side * N * bytes)) : list bytes :=
  flat_map (fun e => match e with (Client, 1, d) => [d] | _ => [] end) l.
(* the ClientHello [d] carries one key share, the public value of [secret] *)
Definition carries (C : crypto) (secret d : bytes) : Prop :=
  exists random sid suites exts group pub, ser_content C (KHandshake (HClientHello random sid suites exts)) = Ok d /\
    ext_get 51 exts = Some (EKeyShareReq [(group, pub)]) /\ kx_init C group secret = Ok pub.
(* increasing numbers from [a] to below [b] *)
Fixpoint climbing (a : N) (l : list N) (b : N) : Prop :=
  match l with [] => a <= b | i :: l' => a <= i /\ climbing (i + 1) l' b end.
