(* What the program promises its user. *)
From Verif Require Import Base Iana Crypto Config Kex Sig Conn Wrapper Examples Main S_Hist S_Codec S_Http S_Server S_Auth S_Honest.
Local Open Scope string_scope.
Local Open Scope N_scope.
Local Open Scope list_scope.

(* where the distributions keep the certificates of the authorities *)
Definition bundle (id : text) (path : bytes) : Prop :=
  (In id [txt "alpine"; txt "debian"; txt "ubuntu"] /\ path = ascii_bytes "/etc/ssl/certs/ca-certificates.crt") \/
  (id = txt "arch" /\ path = ascii_bytes "/etc/ca-certificates/extracted/tls-ca-bundle.pem") \/
  (id = txt "fedora" /\ path = ascii_bytes "/etc/pki/ca-trust/extracted/pem/tls-ca-bundle.pem") \/
  (id = txt "suse" /\ path = ascii_bytes "/var/lib/ca-certificates/ca-bundle.pem").
Definition known (id : text) : Prop := exists path, bundle id path.

(* a command line *)
Definition asks (o : options) (s : side) (insecure : bool) : Prop := o_side o = s /\ o_insecure o = insecure.

(* the files of the server, and that it listens *)
Definition sets_up (w : world) (o : options) (key : bytes) (chain : list bytes) : Prop :=
  o_side o = Server /\ (forall p, o_keylog o = Some p -> w_handler w p = Ok tt) /\ w_listen w = Ok tt /\ chain <> [] /\
  exists a b fa fb, o_cert o = Some a /\ o_key o = Some b /\ w_readable w a = true /\ w_readable w b = true /\
    w_file w a = Ok fa /\ w_file w b = Ok fb /\ w_load_chain w fa = Ok chain /\ w_load_key w fb = Ok key.

(* The client [o] of the world [wc] and the server with [key] and [chain], and
   what each of them draws for this connection: the certificate of the server
   is one that the client accepts. *)
Record suits (C : crypto) (wc : world) (o : options) (key : bytes) (chain : list bytes) (rnd : bytes) (rng : N -> bytes) : Prop := {
  su_client : o_side o = Client /\ (forall p, o_keylog o = Some p -> w_handler wc p = Ok tt) /\
    (forall p, o_cert o = Some p \/ o_key o = Some p -> w_readable wc p = true);
  su_randoms : blen (w_random wc) = 32 /\ blen rnd = 32 /\ rnd <> retry_random;
  su_group : forall i j, dh_agrees C x25519 (w_rng wc i) (rng j);
  su_store : o_insecure o = false -> exists store, system_store wc = Ok store;
  su_cert : exists leaf rest st sg, chain = leaf :: rest /\ Forall (fun cert => cr_load_cert C cert = Ok cert) chain /\
    prefers (fun x => In x (schemes_of_key (cr_cert_pubkey_oid C leaf)) /\ In x default_sigalgs) default_sigalgs sg /\
    key_of_cert C sg key leaf /\
    stapling C (negb (o_insecure o)) true chain st /\
    chain_size chain + match st with Some der => blen der | None => 0 end <= 16350 /\
    (forall store, o_insecure o = false -> system_store wc = Ok store ->
       (exists v, cr_verify_chain C (Some store) 5 (Some (o_host o)) leaf rest = Ok v) /\
       forall pre e i post, chain = pre ++ e :: i :: post -> pre = [] /\ st <> None \/ download_fine C true e i);
  (* the name: printable ASCII, of the length of a name *)
  su_host : o_host o <> [] /\ Forall (fun c => 32 <= bN c < 127) (o_host o) /\ blen (o_host o) <= 255 /\
    host_fine C (Some (o_host o)) }.

(* the same world, with another socket for the client, or other clients *)
Definition dials (w : world) (k : sock) : world :=
  mkWorld (w_version w) (w_handler w) (w_readable w) (w_file w) (w_load_key w) (w_load_chain w) (w_load_store w) (w_system w) (w_release w)
    (Ok k) (w_flip w) (w_random w) (w_rng w) (w_listen w) (w_accept w).
Definition accepts (w : world) (l : list accepted) : world :=
  mkWorld (w_version w) (w_handler w) (w_readable w) (w_file w) (w_load_key w) (w_load_chain w) (w_load_store w) (w_system w) (w_release w)
    (w_dial w) (w_flip w) (w_random w) (w_rng w) (w_listen w) l.
