(* C73 *)
From Verif Require Import Base P_Base Iana Crypto Config Kex Sig Conn KeyLog Wrapper Examples Main S_Hist S_Conn S_Utils S_Speak S_Close S_Enter S_Send S_Codec S_Http S_Auth S_Keys S_Honest S_Main
  P_Http P_Main P_Main2 Toy P_Toy P_HonestToy T_Enter.
Local Open Scope string_scope.
Local Open Scope N_scope.
Local Open Scope list_scope.

(* a small world *)
Definition c73_world (k : sock) (l : list accepted) : world :=
  mkWorld (txt "0.1") (fun _ => Ok tt) (fun _ => true) (fun p => Ok p) (fun _ => Ok toy_cert) (fun _ => Ok [toy_cert]) (fun _ => Ok 1)
    (txt "Linux") (Ok (txt "linuxmint", txt "ubuntu debian")) (Ok k) false (toy_rng 1 100) (toy_rng 1) (Ok tt) l.
Definition c73_client (insecure : bool) : options :=
  mkOptions Client (ascii_bytes "example.org") None None (Some (ascii_bytes "keys.txt")) insecure.
Definition c73_server : options := mkOptions Server (ascii_bytes "localhost") (Some [x61]) (Some [x62]) None false.
Definition c73_date : text := txt "Thu, 01 Jan 1970 00:00:00 GMT".
Definition c73_none : sock := mkSock [] [] [].

(* Both programs, with their default configurations and whatever each recv
   returns of what the other one sent: the client shows the page and exits
   with 0, the server has answered.  [p] is what arrives of the close_notify of
   the server, [ds6] the pieces the client leaves unread. *)
Theorem c73_talk : forall C wc oc ws os key chain flip rnd rng date, honest_crypto C -> suits C wc oc key chain rnd rng -> sets_up ws os key chain ->
  visible (w_version wc) -> (length (w_version wc) <= 32)%nat -> visible (w_version ws) -> (length (w_version ws) <= 32)%nat ->
  visible date -> (length date <= 64)%nat ->
  exists m1 m2 m3 m4 nc ns res s', nc <> [] /\ ns <> [] /\
    carries res (map Nb (txt "Hello from siotls" ++ [10])) /\ (exists r, res = map Nb (txt "HTTP/1.1 200 OK" ++ CRLF) ++ r) /\
    c_state s' = Closed true false /\
    forall ds1 ds2 ds3 ds4 p r lc ls l, cut m1 ds1 -> cut m2 ds2 -> cut m3 ds3 -> ns = p ++ r -> cut (m4 ++ p) ds4 ->
      (exists c' ds5 ds6, ds4 = ds5 ++ ds6 /\ c_state c' = Closed true false /\
        main C (dials wc (mkSock (map Ok (ds2 ++ ds4) ++ lc) [] [])) oc =
          mkRan (Exits 0) (Some res) [(Ok tt, Some (c', mkSock (map Ok ds6 ++ lc) [] (m1 ++ m3 ++ nc)))]) /\
      hd_error (r_ended (main C (accepts ws (AClient (mkSock (map Ok (ds1 ++ ds3) ++ ls) [] []) flip rnd rng date :: l)) os)) =
        Some (Ok tt, Some (s', mkSock ls [] (m2 ++ m4 ++ ns))).
Proof. exact programs. Qed.
Print Assumptions c73_talk.
Example c73_talk_case : honest_crypto toy /\ suits toy (c73_world c73_none []) (c73_client false) toy_cert [toy_cert] (toy_rng 2 100) (toy_rng 2) /\
  sets_up (c73_world c73_none []) c73_server toy_cert [toy_cert] /\ visible (txt "0.1") /\ visible c73_date.
Proof.
  split; [exact toy_honest|]. split; [|split; [|split; apply visible_b; reflexivity]].
  - constructor.
    + split; [reflexivity|]. split; [reflexivity|]. intros p [H|H]; discriminate H.
    + split; [vm_compute; reflexivity|]. split; [vm_compute; reflexivity | discriminate].
    + intros i j. apply toy_dh. cbn; auto.
    + intros _. exists 1. vm_compute. reflexivity.
    + exists toy_cert, [], None, ed25519. split; [reflexivity|]. split; [repeat constructor|]. split.
      { exists []. eexists. split; [reflexivity|]. split; [vm_compute; auto | intros y []]. }
      split; [apply toy_key|]. split; [apply st_off; cbn; auto with arith|]. split; [vm_compute; discriminate|].
      intros store _ _. split; [exists tt; vm_compute; reflexivity|].
      intros pre e i post E. exfalso. apply (f_equal (@length bytes)) in E. rewrite app_length in E. cbn in E. lia.
    + split; [discriminate|]. split; [repeat (constructor; [vm_compute; split; [discriminate | reflexivity]|]); constructor|].
      split; [vm_compute; discriminate|]. intros _ _. exists (ascii_bytes "example.org"). repeat split.
  - split; [reflexivity|]. split; [discriminate|]. split; [reflexivity|]. split; [discriminate|].
    exists [x61], [x62], [x61], [x62]. repeat split.
Qed.

(* What a client that was not told --insecure shows comes from a host that a
   certificate of the system's authorities names, which signed the handshake;
   unless the connection was closed before the end of the handshake.  Full
   statement: without this exception. *)
Theorem c73_verified_partial : forall C w o b, aead_sized C -> hmac_sized C -> hash_sized C ->
  o_side o = Client -> o_insecure o = false -> o_host o <> [] -> r_shown (main C w o) = Some b ->
  exists store k c ds l, system_store w = Ok store /\ w_dial w = Ok k /\
    new_conn (w_flip w) (client_config (Some store)) (Some (o_host o)) true (w_random w) (w_rng w) = Ok c /\
    sk_recv k = map Ok ds ++ l /\
    (no_close_notify C (handshake_calls Client ds) c \/ (forall r t, c_state (run C (handshake_calls Client ds) c) <> Closed r t) ->
     c_state (run C (handshake_calls Client ds) c) = Connected /\
     exists pre post h hc leaf rest alg sig, c_hs (run C (handshake_calls Client ds) c) = pre ++ post /\
       cr_verify_chain C (Some store) 5 (Some (o_host o)) leaf rest = Ok tt /\
       In alg default_sigalgs /\
       cr_sig_verify C alg (cr_cert_pubkey C leaf) sig (signed_content Server (heard_hash C h hc false pre)) = Ok tt).
Proof. exact verified. Qed.
Print Assumptions c73_verified_partial.
Definition c73_c : conn := get_ok (new_conn false (client_config (Some 1)) (Some (ascii_bytes "example.org")) true (toy_rng 1 100) (toy_rng 1)).
Definition c73_s : conn := get_ok (new_conn false (server_config toy_cert [toy_cert]) None true (toy_rng 2 100) (toy_rng 2)).
Definition c73_f2 : bytes := flight2 toy c73_c c73_s.
Definition c73_page : bytes := c_out (run toy [OInit; ORecv (flight1 toy c73_c); OFlush; ORecv (flight3 toy c73_c c73_s); OSend [x68; x69]] c73_s).
Definition c73_run : ran := main toy (c73_world (mkSock [Ok c73_f2; Ok c73_page] [] []) []) (c73_client false).
Example c73_verified_case : r_shown c73_run = Some [x68; x69] /\ r_outcome c73_run = Exits 0 /\
  c_state (run toy (handshake_calls Client [c73_f2]) c73_c) = Connected.
Proof. split; [vm_compute; reflexivity|]. split; vm_compute; reflexivity. Qed.
(* Two records that anybody can write: the program verifies nothing, shows the
   second one and exits with 0. *)
Definition c73_strange : ran :=
  main toy (c73_world (mkSock [Ok c69_notify; Ok (record CT_APPDATA [x6f; x6b])] [] []) []) (c73_client false).
Theorem c73_verified_refuted : exists C w o k b, o_side o = Client /\ o_insecure o = false /\ w_dial w = Ok k /\
  sk_recv k = [Ok c69_notify; Ok (record CT_APPDATA b)] /\ b <> [] /\
  r_outcome (main C w o) = Exits 0 /\ r_shown (main C w o) = Some b /\
  map (fun x => option_map (fun s => map fst (c_hs (fst s))) (snd x)) (r_ended (main C w o)) = [Some [(Client, CLIENT_HELLO)]].
Proof.
  exists toy, (c73_world (mkSock [Ok c69_notify; Ok (record CT_APPDATA [x6f; x6b])] [] []) []), (c73_client false).
  exists (mkSock [Ok c69_notify; Ok (record CT_APPDATA [x6f; x6b])] [] []), [x6f; x6b].
  split; [reflexivity|]. split; [reflexivity|]. split; [reflexivity|]. split; [reflexivity|]. split; [discriminate|].
  split; [vm_compute; reflexivity|]. split; vm_compute; reflexivity.
Qed.
Print Assumptions c73_verified_refuted.

(* The authorities are those of the file of the distribution, by its name or
   else by the first name known among those it is like; on other systems the
   client that must verify does not even connect. *)
Theorem c73_store : forall w store, system_store w = Ok store <-> w_system w = txt "Linux" /\
  exists id like path data pre i post, w_release w = Ok (id, like) /\ (exists ws, words like ws /\ id :: ws = pre ++ i :: post) /\
    bundle i path /\ (forall j, In j pre -> ~ known j) /\ w_file w path = Ok data /\ w_load_store w data = Ok store.
Proof. exact store_iff. Qed.
Print Assumptions c73_store.
Theorem c73_platform : forall C w o, o_side o = Client -> o_insecure o = false -> w_system w <> txt "Linux" ->
  r_shown (main C w o) = None /\ Forall (fun x => snd x = None) (r_ended (main C w o)).
Proof. exact no_store. Qed.
Print Assumptions c73_platform.
Example c73_store_case : system_store (c73_world c73_none []) = Ok 1 /\ bundle (txt "ubuntu") (ascii_bytes "/etc/ssl/certs/ca-certificates.crt") /\
  ~ known (txt "linuxmint") /\ txt "Windows" <> txt "Linux".
Proof.
  split; [vm_compute; reflexivity|]. split; [left; split; [cbn; auto | reflexivity]|]. split.
  - intros [p B]. apply path_iff in B. vm_compute in B. discriminate B.
  - intro E. apply text_eqb_iff in E. vm_compute in E. discriminate E.
Qed.

(* What a client did or met is its own affair: the one that comes after is
   served as if it were the first, and only an exception of accept, or Ctrl-C,
   ends the server. *)
Theorem c73_served : forall C w o key chain pre k flip rnd rng date post,
  (forall x, In x pre -> exists k f u r t, x = AClient k f u r t) ->
  sets_up (accepts w (pre ++ AClient k flip rnd rng date :: post)) o key chain ->
  exists x, nth_error (r_ended (main C (accepts w (pre ++ AClient k flip rnd rng date :: post)) o)) (length pre) = Some x /\
    r_ended (main C (accepts w [AClient k flip rnd rng date]) o) = [x].
Proof. exact served. Qed.
Print Assumptions c73_served.
Theorem c73_ends : forall C w o key chain, sets_up w o key chain ->
  (r_outcome (main C w o) = Waits <-> forall x, In x (w_accept w) -> exists k f u r t, x = AClient k f u r t) /\
  (r_outcome (main C w o) = Exits 0 -> In AInterrupt (w_accept w)) /\
  (r_outcome (main C w o) = Exits 1 -> exists e, In (AFail e) (w_accept w)).
Proof. exact server_ends. Qed.
Print Assumptions c73_ends.
(* a client that closes, one that sends garbage, one that asks for the page *)
Definition c73_ask : bytes := c_out (run toy [OInit; OFlush; ORecv c73_f2; OSend (ascii_bytes "GET / HTTP/1.1")] c73_c).
Definition c73_three : list accepted :=
  map (fun l => AClient (mkSock l [] []) false (toy_rng 2 100) (toy_rng 2) c73_date)
    [[Ok []]; [Ok [x80; x80; x80; x80; x80; x80]]; [Ok (flight1 toy c73_c); Ok c73_ask]].
Example c73_served_case : sets_up (accepts (c73_world c73_none []) c73_three) c73_server toy_cert [toy_cert] /\
  map (fun x => match fst x with Ok _ => true | Err _ => false end) (r_ended (main toy (accepts (c73_world c73_none []) c73_three) c73_server))
   = [false; false; true].
Proof.
  split; [|vm_compute; reflexivity]. split; [reflexivity|]. split; [discriminate|]. split; [reflexivity|]. split; [discriminate|].
  exists [x61], [x62], [x61], [x62]. repeat split.
Qed.

(* The client exits with 0 when it has shown a response, and only then. *)
Theorem c73_exit : forall C w o, o_side o = Client ->
  (r_outcome (main C w o) = Exits 0 /\ exists b, r_shown (main C w o) = Some b) \/
  (r_shown (main C w o) = None /\
   (r_outcome (main C w o) = Exits 1 \/ exists p e, o_keylog o = Some p /\ w_handler w p = Err e /\ r_outcome (main C w o) = Raises e)).
Proof. exact client_exit. Qed.
Print Assumptions c73_exit.

(* --keylogfile: nothing is ever written, whatever the connections agreed on. *)
Theorem c73_keylog : forall C w o, key_file o (main C w o) = [].
Proof. intros. apply no_keys. Qed.
Print Assumptions c73_keylog.
Theorem c73_keylog_refuted : exists C w o, o_keylog o <> None /\ r_outcome (main C w o) = Exits 0 /\
  map (fun x => option_map (fun s => length (klog (fst s))) (snd x)) (r_ended (main C w o)) = [Some 5%nat] /\ key_file o (main C w o) = [].
Proof.
  exists toy, (c73_world (mkSock [Ok c73_f2; Ok c73_page] [] []) []), (c73_client false).
  split; [discriminate|]. split; [vm_compute; reflexivity|]. split; [vm_compute; reflexivity | apply no_keys].
Qed.
Print Assumptions c73_keylog_refuted.

(* --tlscert and --tlskey of a client must be readable, and that is all. *)
Theorem c73_client_cert : forall C w o, o_side o = Client -> missing w (o_cert o) = false -> missing w (o_key o) = false ->
  main C w o = main C w (without_cert o).
Proof. exact cert_unused. Qed.
Print Assumptions c73_client_cert.
