(* RFC 8446 4.1.2, 9.3 and RFC 8701: a server ignores what it does not know in
   a ClientHello. *)
From Verif Require Import Base Iana Config Ext Msg.

(* two lists that name the same of [ours]: they may differ in order, in
   repetitions and in everything that we do not support *)
Definition agree {A} (ours a b : list A) : Prop := forall x, In x ours -> (In x a <-> In x b).

(* the extensions of a ClientHello that this library reads *)
Definition heard : list N :=
  [SUPPORTED_VERSIONS; SUPPORTED_GROUPS; SIGNATURE_ALGORITHMS; KEY_SHARE; CLIENT_CERTIFICATE_TYPE;
   SERVER_CERTIFICATE_TYPE; MAX_FRAGMENT_LENGTH; ALPN; HEARTBEAT; STATUS_REQUEST].

Inductive same (g : config) : ext -> ext -> Prop :=
| same_refl e : same g e e
| same_versions l l' : agree [TLS_1_3] l l' -> same g (ESupVersionsReq l) (ESupVersionsReq l')
| same_groups l l' : agree (g_groups g) l l' -> same g (ESupportedGroups l) (ESupportedGroups l')
| same_algs l l' : agree (g_sigalgs g) l l' -> same g (ESigAlgs l) (ESigAlgs l')
| same_shares l l' : NoDup (map fst l) -> NoDup (map fst l') ->
    (forall gr k, In gr (g_groups g) -> (In (gr, k) l <-> In (gr, k) l')) -> same g (EKeyShareReq l) (EKeyShareReq l')
| same_client_types l l' : agree (peer_certificate_types g) l l' -> same g (EClientCertTypeReq l) (EClientCertTypeReq l')
| same_server_types l l' : agree (certificate_types g) l l' -> same g (EServerCertTypeReq l) (EServerCertTypeReq l')
| same_alpn l l' : agree (g_alpn g) l l' -> same g (EAlpn l) (EAlpn l')
| same_status l e l' e' : same g (EStatusReq l e) (EStatusReq l' e').

(* the same offer to a server configured so, in any order, with any extension
   besides those read *)
Definition alike (g : config) (a b : list ext) : Prop :=
  NoDup (map ext_type a) /\ NoDup (map ext_type b) /\
  (forall e, In e a -> In (ext_type e) heard -> exists e', In e' b /\ same g e e') /\
  (forall e, In e b -> In (ext_type e) heard -> exists e', In e' a /\ same g e' e).
