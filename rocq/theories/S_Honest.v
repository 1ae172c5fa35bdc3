(* C27: two endpoints of this library that talk to each other, and the
   configurations with which they should understand each other. *)
From Verif Require Import Base Iana Crypto Config Ext Msg Cipher Kex Sig Ocsp Conn S_Hist S_Conn S_Utils S_Keys S_Codec S_Server S_Deliver.

(* --- the exchange: whole flights, no bytes lost ------------------------- *)
Definition flight1 (C : crypto) (c : conn) : bytes := returned C OFlush (run C [OInit] c).
Definition flight2 (C : crypto) (c s : conn) : bytes :=
  returned C OFlush (run C [OInit; ORecv (flight1 C c)] s).
Definition flight3 (C : crypto) (c s : conn) : bytes :=
  returned C OFlush (run C [OInit; OFlush; ORecv (flight2 C c s)] c).
Definition client_ops (C : crypto) (c s : conn) : list op :=
  [OInit; OFlush; ORecv (flight2 C c s); OFlush].
Definition server_ops (C : crypto) (c s : conn) : list op :=
  [OInit; ORecv (flight1 C c); OFlush; ORecv (flight3 C c s)].
(* the same with flights that arrive in pieces, cut anywhere *)
Definition cut (b : bytes) (ds : list bytes) : Prop := concat ds = b /\ forall d, In d ds -> d <> [].
Definition client_cut (ds2 : list bytes) : list op := OInit :: OFlush :: map ORecv ds2 ++ [OFlush].
Definition server_cut (ds1 ds3 : list bytes) : list op := OInit :: map ORecv ds1 ++ OFlush :: map ORecv ds3.
(* none of the calls raises *)
Fixpoint smooth (C : crypto) (ops : list op) (c : conn) : Prop :=
  match ops with
  | [] => True
  | o :: ops' => (exists b, fst (step C o c) = Ok b) /\ smooth C ops' (after C o c)
  end.

(* --- the primitives behave ----------------------------------------------- *)
Record honest_crypto (C : crypto) : Prop := {
  hc_correct : aead_correct C;
  hc_aead : aead_sized C;
  hc_hmac : hmac_sized C;
  hc_hash : hash_sized C }.
(* the two private keys give the same secret *)
Definition dh_agrees (C : crypto) (group : N) (a b : bytes) : Prop :=
  exists pa pb z, kx_init C group a = Ok pa /\ kx_init C group b = Ok pb /\
    kx_resume C group a pb = Ok z /\ kx_resume C group b pa = Ok z /\ z <> [] /\
    blen pa <= 2048 /\ blen pb <= 2048.
(* [key] is the private key of the certificate [leaf] *)
Definition key_of_cert (C : crypto) (scheme : N) (key leaf : bytes) : Prop :=
  forall msg, exists sig, cr_sign C scheme key msg = Ok sig /\ blen sig <= 8192 /\
    cr_sig_verify C scheme (cr_cert_pubkey C leaf) sig msg = Ok tt.

(* --- certificates -------------------------------------------------------- *)
(* the OCSP answer that the server sends along *)
Inductive stapling (C : crypto) (asked service : bool) (chain : list bytes) : option bytes -> Prop :=
| st_off : asked = false \/ service = false \/ (length chain < 2)%nat -> stapling C asked service chain None
| st_good subject issuer rest url req der until : asked = true -> service = true ->
    chain = subject :: issuer :: rest -> cr_ocsp_url C subject = Ok url ->
    cr_make_ocsp_req C subject issuer = Ok req -> cr_ocsp_fetch C url req = Ok der ->
    validate_ocsp C issuer req der = Ok until -> stapling C asked service chain (Some der)
| st_bad subject issuer rest url req der : asked = true -> service = true ->
    chain = subject :: issuer :: rest -> cr_ocsp_url C subject = Ok url ->
    cr_make_ocsp_req C subject issuer = Ok req -> cr_ocsp_fetch C url req = Ok der ->
    validate_ocsp C issuer req der = Err XValue -> stapling C asked service chain None.
(* a client with an OCSP service downloads a good answer for [subject] *)
Definition download_fine (C : crypto) (service : bool) (subject issuer : bytes) : Prop :=
  service = true -> exists url, cr_ocsp_url C subject = Ok url /\
    forall x u, url = Some (x :: u) -> exists req der until, cr_make_ocsp_req C subject issuer = Ok req /\
      cr_ocsp_fetch C url req = Ok der /\ validate_ocsp C issuer req der = Ok until.
Definition chain_size (chain : list bytes) : N := fold_right (fun c n => blen c + 5 + n) 0 chain.

(* what the client demands of the chain of the server *)
Definition chain_trusted (C : crypto) (gc : config) (c : conn) (leaf : bytes) (rest : list bytes)
  (st : option bytes) : Prop :=
  g_trust gc <> None ->
  g_crl gc = None /\
  (exists v, cr_verify_chain C (g_trust gc) (g_depth gc)
     (match c_host c with Some (x :: h) => Some (x :: h) | _ => None end) leaf rest = Ok v) /\
  forall pre e i post, leaf :: rest = pre ++ e :: i :: post ->
    pre = [] /\ st <> None \/ download_fine C (c_ocsp c) e i.

(* --- the configurations -------------------------------------------------- *)
Definition code_points (l : list N) : Prop := (length l <= 1000)%nat /\ Forall (fun x => x < 65536) l.
Definition names_size (l : list bytes) : N := fold_right (fun p n => blen p + 1 + n) 0 l.

Record compatible (C : crypto) (gc gs : config) (c s : conn) : Prop := {
  cp_sides : g_side gc = Client /\ g_side gs = Server;
  cp_created : created gc c /\ created gs s;
  cp_randoms : (exists u, c_cunique c = Some u /\ blen u = 32) /\ own_random s;
  (* enumerations of the IANA, lists of a reasonable length *)
  cp_codes : (length (g_suites gc) <= 1000)%nat /\ code_points (g_groups gc) /\ code_points (g_sigalgs gc);
  (* a common suite, a common group, the primitive of which is good for every
     private key drawn *)
  cp_suite : exists suite, prefers (fun x => In x (g_suites gc)) (g_suites gs) suite;
  cp_group : exists group, prefers (fun x => In x (g_groups gc)) (g_groups gs) group /\
    forall i j, dh_agrees C group (c_rng c i) (c_rng s j);
  (* certificates on the server's side only, no raw public keys *)
  cp_auth : g_public gc = None /\ g_trusted_keys gc = [] /\ g_trust gs = None /\ g_trusted_keys gs = [];
  cp_cert : exists leaf rest key st, g_chain gs = Some (leaf :: rest) /\ g_private gs = Some key /\
    Forall (fun cert => cr_load_cert C cert = Ok cert) (leaf :: rest) /\
    (* a common signature scheme, for which the key is good *)
    (exists sg, prefers (fun x => In x (schemes_of_key (cr_cert_pubkey_oid C leaf)) /\ In x (g_sigalgs gc)) (g_sigalgs gs) sg /\
       key_of_cert C sg key leaf) /\
    stapling C (opt_bool (g_trust gc)) (c_ocsp s) (leaf :: rest) st /\
    chain_size (leaf :: rest) + match st with Some der => blen der | None => 0 end <= 16350 /\
    chain_trusted C gc c leaf rest st;
  (* application protocols *)
  cp_alpn : Forall (fun p => blen p <= 255 /\ Forall (fun c => 32 <= bN c <= 126) p) (g_alpn gc) /\
    names_size (g_alpn gc) <= 10000 /\
    (g_alpn gc = [] \/ g_alpn gs = [] \/ exists p, In p (g_alpn gc) /\ In p (g_alpn gs));
  (* the name of the server *)
  cp_host : host_fine C (c_host c) /\ match c_host c with Some h => str_len h <= 1000 | None => True end }.

(* Three restrictions that the library needs: the client has the default
   max_fragment_length or the largest of the others, it sends a key share for the group that the server
   prefers among the common ones, and the suite that the server prefers is not
   of CCM. *)
Definition wide_fragments (gc : config) : Prop := In (g_mfl gc) [4096; 16384].
Definition first_share (gc gs : config) : Prop := exists group, hd_error (g_groups gc) = Some group /\
  prefers (fun x => In x (g_groups gc)) (g_groups gs) group.
Definition no_ccm (gc gs : config) : Prop := exists suite,
  prefers (fun x => In x (g_suites gc)) (g_suites gs) suite /\ In suite [0x1301; 0x1302; 0x1303].

(* Both endpoints, each getting whatever the other one has to send, for [n]
   rounds: without the restrictions more than three flights may be needed. *)
Definition give (C : crypto) (b : bytes) (c : conn) : conn :=
  if is_nil b then c else after C (ORecv b) c.
Definition round (C : crypto) (w : conn * conn) : conn * conn :=
  let (c, s) := w in
  let s' := give C (returned C OFlush c) s in
  (give C (returned C OFlush s') (after C OFlush c), after C OFlush s').
Definition pump (C : crypto) (n : nat) (c s : conn) : conn * conn :=
  Nat.iter n (round C) (after C OInit c, after C OInit s).
Definition never_connected (C : crypto) (c s : conn) : Prop :=
  forall n, c_state (fst (pump C n c s)) <> Connected /\ c_state (snd (pump C n c s)) <> Connected.

(* the protocol both sides settled on *)
Definition alpn_agreed (gc gs : config) (c s : conn) : Prop :=
  exists n m v, c_nc c = Some n /\ c_nc s = Some m /\ n_alpn n = Some v /\ n_alpn m = Some v /\
    match v with
    | Some p => prefers (fun x => In x (g_alpn gc)) (g_alpn gs) p
    | None => g_alpn gc = [] \/ g_alpn gs = []
    end.
