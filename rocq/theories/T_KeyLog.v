From Verif Require Import Base Iana Crypto Config Serial Ext Msg Cipher Kex Sig Transcript Conn KeyLog Toy P_Toy
  S_Utils S_Hist S_Conn S_Send S_Speak S_Keys S_Auth S_Server S_Codec S_Agree S_Honest S_KeyLog
  P_Base P_Client P_Server P_KeyLog P_KeyLog2 P_KeyLog3 P_HonestToy T_Alert T_Server T_Agree T_Honest.

(* C62.  With log_keys, the lines passed to key_logger are a key log file that
   opens every record the connection ever sealed. *)
Theorem c62_sealed : forall C g c u s, hmac_sized C -> reachable C g c -> c_cunique c = Some u -> u <> [] ->
  In s (c_log c) -> opened_by C (key_lines true c) u s.
Proof. exact sealed_filed. Qed.
Print Assumptions c62_sealed.

(* the keys in use, in both directions, are those of a secret that was filed *)
Theorem c62_in_use : forall C g c u x, hmac_sized C -> reachable C g c -> c_cunique c = Some u -> u <> [] ->
  c_cipher c = Some x ->
  (d_seq (cs_w x) <> None -> keys_filed C (key_lines true c) u (cs_side x) (cs_suite x) (cs_w x)) /\
  (d_seq (cs_r x) <> None -> keys_filed C (key_lines true c) u (other_side (cs_side x)) (cs_suite x) (cs_r x)).
Proof. exact in_use_filed. Qed.
Print Assumptions c62_in_use.

(* a connected endpoint filed the five secrets of RFC 8446 7.1 under their NSS
   labels, in this order, once each, and nothing else *)
Theorem c62_client C g c u : aead_sized C -> hmac_sized C -> hash_sized C ->
  g_side g = Client -> reachable C g c -> c_state c = Connected ->
  Forall (Forall (fun b => 32 <= bN b <= 126)) (g_alpn g) -> host_fine C (c_host c) ->
  c_cunique c = Some u -> u <> [] ->
  exists hello sh ee cd vd sd fd junk suite h hc group pub shared j,
    c_hs c = hello ++ [(Server, SERVER_HELLO, sh); EE ee; Cert cd; CV vd; SFin sd; CFin fd] ++ junk /\ (few c -> junk = []) /\
    suite_hash suite = Some h /\ offers_share C hello group (c_rng c j) /\ answers_share C sh suite group pub /\
    kx_resume C group (c_rng c j) pub = Ok shared /\
    holds (key_lines true c) u (five_lines C h shared
      (heard_hash C h hc false (hello ++ [(Server, SERVER_HELLO, sh)]))
      (heard_hash C h hc false (hello ++ [(Server, SERVER_HELLO, sh); EE ee; Cert cd; CV vd; SFin sd]))).
Proof. exact (fun As Hs Hh => client_log C As Hs Hh g c u). Qed.
Print Assumptions c62_client.

Theorem c62_server C g s u : aead_sized C -> hmac_sized C -> hash_sized C ->
  g_side g = Server -> started C g s -> c_state s = Connected ->
  c_cunique s = Some u -> u <> [] ->
  exists hello sh ee cd vd sd j1 fd j2 dn suite h group sg pub shared j,
    c_hs s = hello ++ [(Server, SERVER_HELLO, sh); EE ee; Cert cd; CV vd; SFin sd] ++ j1 ++ [CFin fd] ++ j2 /\
    (few s -> j1 = [] /\ j2 = []) /\
    suite_hash suite = Some h /\ hellos C g hello dn suite group sg /\ answers_share C sh suite group pub /\
    kx_init C group (c_rng s j) = Ok pub /\
    (exists random sid suites exts l peer, says C None dn (HClientHello random sid suites exts) /\
       ext_get KEY_SHARE exts = Some (EKeyShareReq l) /\ In (group, peer) l /\ kx_resume C group (c_rng s j) peer = Ok shared) /\
    holds (key_lines true s) u (five_lines C h shared
      (rfc_transcript C h (hello ++ [(Server, SERVER_HELLO, sh)]))
      (rfc_transcript C h (hello ++ [(Server, SERVER_HELLO, sh); EE ee; Cert cd; CV vd; SFin sd]))).
Proof. exact (fun As Hs Hh => server_log C As Hs Hh g s u). Qed.
Print Assumptions c62_server.

(* two honest endpoints (C27) write the same file, for the random that is in the
   ClientHello on the wire: whoever captured the bytes finds the session *)
Theorem c62_honest : forall C gc gs c s, honest_crypto C -> compatible C gc gs c s ->
  wide_fragments gc -> first_share gc gs -> no_ccm gc gs ->
  exists u h shared th th_sf, btake 32 (bdrop 11 (flight1 C c)) = u /\
    holds (key_lines true (run C (client_ops C c s) c)) u (five_lines C h shared th th_sf) /\
    key_lines true (run C (server_ops C c s) s) = key_lines true (run C (client_ops C c s) c).
Proof. exact honest_log. Qed.
Print Assumptions c62_honest.

(* without log_keys nothing leaves *)
Theorem c62_off : forall c, key_lines false c = [].
Proof. exact off_silent. Qed.
Print Assumptions c62_off.

(* --- the toy endpoints ---------------------------------------------------- *)
Example c62_case_client : hmac_sized toy /\ reachable toy toy_client c43_c /\ c_cunique c43_c = Some (toy_rng 1 100) /\
  toy_rng 1 100 <> [] /\ N.of_nat (length (c_log c43_c)) = 1 /\ c_state c43_c = Connected /\
  Forall (Forall (fun b => 32 <= bN b <= 126)) (g_alpn toy_client) /\ host_fine toy (c_host c43_c).
Proof.
  destruct c50_case as (_ & B & _ & _ & R & S & _ & _ & _ & _ & _ & A & H & _).
  split; [exact B|]. split; [exact R|]. split; [vm_compute; reflexivity|]. split; [vm_compute; discriminate|].
  split; [vm_compute; reflexivity|]. split; [exact S|]. split; assumption.
Qed.
Example c62_case_server : started toy toy_server c17_s /\ c_cunique c17_s = Some (toy_rng 1 100).
Proof. split; [apply toy_started | vm_compute; reflexivity]. Qed.
(* the toy handshake's lines, as a reader of the file sees them *)
Example c62_case_lines :
  map (fun l => option_map (fun e => fst (fst e)) (read_line l)) (key_lines true c43_c) =
    map (fun l => Some (ascii_bytes l)) ["CLIENT_HANDSHAKE_TRAFFIC_SECRET"; "SERVER_HANDSHAKE_TRAFFIC_SECRET";
      "CLIENT_TRAFFIC_SECRET_0"; "SERVER_TRAFFIC_SECRET_0"; "EXPORTER_SECRET"]%string /\
  length (nodup (list_eq_dec Byte.byte_eq_dec) (map (fun l => match read_line l with Some (_, _, s) => s | None => [] end) (key_lines true c43_c))) = 5%nat /\
  forallb (fun l => match read_line l with Some (_, r, _) => beqb r (toy_rng 1 100) | None => false end) (key_lines true c43_c) = true.
Proof. split; [vm_compute; reflexivity|]. split; vm_compute; reflexivity. Qed.
Example c62_case_honest : honest_crypto toy /\ compatible toy c27_gc c27_gs (toy_c c27_gc) (toy_s c27_gs) /\
  wide_fragments c27_gc /\ first_share c27_gc c27_gs /\ no_ccm c27_gc c27_gs.
Proof. exact c27_case. Qed.
