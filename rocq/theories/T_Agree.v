(* C25 (connections), C50, C51 *)
From Verif Require Import Base Iana Crypto Config Ext Msg Cipher Kex Conn S_Hist S_Conn S_Send S_Utils S_Keys S_Auth S_Server S_Codec S_Agree
  Toy P_Toy P_Agree P_AgreeToy T_Alert T_Server.

(* C25.  A connected client encrypts and decrypts with the keys that RFC 8446
   7.1 derives from its own key share, that of the ServerHello, and what it
   hashed ([heard_hash]: the messages up to the server's Finished, c24_client). *)
Theorem c25_client_keys C g c : aead_sized C -> hmac_sized C -> hash_sized C ->
  g_side g = Client -> reachable C g c -> c_state c = Connected ->
  Forall (Forall (fun b => 32 <= bN b <= 126)) (g_alpn g) -> host_fine C (c_host c) ->
  exists hello sh ee cd vd sd fd junk suite h hc group pub shared j,
    c_hs c = hello ++ [(Server, SERVER_HELLO, sh); EE ee; Cert cd; CV vd; SFin sd; CFin fd] ++ junk /\ (few c -> junk = []) /\
    suite_hash suite = Some h /\ offers_share C hello group (c_rng c j) /\ answers_share C sh suite group pub /\
    kx_resume C group (c_rng c j) pub = Ok shared /\
    rfc_keys C Client suite h shared (heard_hash C h hc false (hello ++ [(Server, SERVER_HELLO, sh); EE ee; Cert cd; CV vd; SFin sd])) c.
Proof. exact (fun As Hs Hh => client_keys C As Hs Hh g c). Qed.
Print Assumptions c25_client_keys.

(* the same for a server; [hellos] tells which ClientHello [dn] is answered *)
Theorem c25_server_keys C g s : aead_sized C -> hmac_sized C -> hash_sized C ->
  g_side g = Server -> started C g s -> c_state s = Connected ->
  exists hello sh ee cd vd sd j1 fd j2 dn suite h group sg pub shared j,
    c_hs s = hello ++ [(Server, SERVER_HELLO, sh); EE ee; Cert cd; CV vd; SFin sd] ++ j1 ++ [CFin fd] ++ j2 /\
    (few s -> j1 = [] /\ j2 = []) /\
    suite_hash suite = Some h /\ hellos C g hello dn suite group sg /\ answers_share C sh suite group pub /\
    kx_init C group (c_rng s j) = Ok pub /\
    (exists random sid suites exts l peer, says C None dn (HClientHello random sid suites exts) /\
       ext_get KEY_SHARE exts = Some (EKeyShareReq l) /\ In (group, peer) l /\ kx_resume C group (c_rng s j) peer = Ok shared) /\
    rfc_keys C Server suite h shared (rfc_transcript C h (hello ++ [(Server, SERVER_HELLO, sh); EE ee; Cert cd; CV vd; SFin sd])) s.
Proof. exact (fun As Hs Hh => server_keys C As Hs Hh g s). Qed.
Print Assumptions c25_server_keys.

(* C50.  Full statement: two connected endpoints that saw the same messages up
   to the server's Finished share their keys.  Missing: handshakes with a
   HelloRetryRequest, which the client hashes wrongly (c24_client_refuted). *)
Theorem c50_same_keys_partial C gc gs c s : aead_sized C -> hmac_sized C -> hash_sized C ->
  g_side gc = Client -> reachable C gc c -> c_state c = Connected -> few c ->
  g_side gs = Server -> started C gs s -> c_state s = Connected -> few s ->
  Forall (Forall (fun b => 32 <= bN b <= 126)) (g_alpn gc) -> host_fine C (c_host c) -> dh_commutes C (c_rng c) (c_rng s) ->
  same_start (c_hs c) (c_hs s) -> forallb (fun m => negb (is_retry m)) (c_hs c) = true ->
  exists ms sd r suite h shared, c_hs c = ms ++ SFin sd :: r /\
    rfc_keys C Client suite h shared (rfc_transcript C h (ms ++ [SFin sd])) c /\
    rfc_keys C Server suite h shared (rfc_transcript C h (ms ++ [SFin sd])) s.
Proof. exact (fun As Hs Hh => same_keys_c C As Hs Hh gc gs c s). Qed.
Print Assumptions c50_same_keys_partial.

Example c50_case : aead_sized toy /\ hmac_sized toy /\ hash_sized toy /\
  g_side toy_client = Client /\ reachable toy toy_client c43_c /\ c_state c43_c = Connected /\ few c43_c /\
  g_side toy_server = Server /\ started toy toy_server c17_s /\ c_state c17_s = Connected /\ few c17_s /\
  Forall (Forall (fun b => 32 <= bN b <= 126)) (g_alpn toy_client) /\ host_fine toy (c_host c43_c) /\
  dh_commutes toy (c_rng c43_c) (c_rng c17_s) /\ same_start (c_hs c43_c) (c_hs c17_s) /\
  forallb (fun m => negb (is_retry m)) (c_hs c43_c) = true.
Proof.
  destruct c17_case as (A & B & D & _ & St & Cs & Fs). destruct c24_case as (_ & Fc & _ & _ & Eh & N & _).
  split; [exact A|]. split; [exact B|]. split; [exact D|]. split; [reflexivity|].
  split; [exists toy_c0; eexists; split; [exact toy_c0_created | reflexivity]|]. split; [vm_compute; reflexivity|]. split; [exact Fc|].
  split; [reflexivity|]. split; [exact St|]. split; [exact Cs|]. split; [exact Fs|].
  split; [repeat constructor; vm_compute; discriminate|].
  split; [assert (E : c_host c43_c = Some (ascii_bytes "example.org"%string)) by (vm_compute; reflexivity); rewrite E;
          intros _ _; exists (ascii_bytes "example.org"%string); repeat split|].
  split; [assert (E1 : c_rng c43_c = toy_rng 1) by (vm_compute; reflexivity); assert (E2 : c_rng c17_s = toy_rng 2) by (vm_compute; reflexivity);
          rewrite E1, E2; apply toy_commutes|].
  split; [rewrite <- Eh; apply (same_start_at _ 5); vm_compute; exact I | exact N].
Qed.

(* C51.  The server's Finished ties the two endpoints together: when a client accepts the very
   Finished that a server computed, both saw the same messages before it,
   without a retry, unless the two computed it from different inputs, or a
   digest was mistaken for a message. *)
Theorem c51_bound C gc gs c s sd : aead_sized C -> hmac_sized C -> hash_sized C ->
  g_side gc = Client -> reachable C gc c -> c_state c = Connected -> few c ->
  g_side gs = Server -> started C gs s -> c_state s = Connected -> few s ->
  In (SFin sd) (c_hs c) -> In (SFin sd) (c_hs s) ->
  (exists ms r r', c_hs c = ms ++ SFin sd :: r /\ c_hs s = ms ++ SFin sd :: r' /\
     forallb (fun m => negb (is_retry m)) (c_hs c) = true) \/
  finished_clash C c s \/ digest_mixup C gc c s.
Proof. exact (fun As Hs Hh => bound C As Hs Hh gc gs c s sd). Qed.
Print Assumptions c51_bound.

(* so they share their keys (C50) *)
Theorem c51_keys C gc gs c s sd : aead_sized C -> hmac_sized C -> hash_sized C ->
  g_side gc = Client -> reachable C gc c -> c_state c = Connected -> few c ->
  g_side gs = Server -> started C gs s -> c_state s = Connected -> few s ->
  Forall (Forall (fun b => 32 <= bN b <= 126)) (g_alpn gc) -> host_fine C (c_host c) -> dh_commutes C (c_rng c) (c_rng s) ->
  In (SFin sd) (c_hs c) -> In (SFin sd) (c_hs s) ->
  (exists ms r suite h shared, c_hs c = ms ++ SFin sd :: r /\
    rfc_keys C Client suite h shared (rfc_transcript C h (ms ++ [SFin sd])) c /\
    rfc_keys C Server suite h shared (rfc_transcript C h (ms ++ [SFin sd])) s) \/
  finished_clash C c s \/ digest_mixup C gc c s.
Proof. exact (fun As Hs Hh => bound_keys C As Hs Hh gc gs c s sd). Qed.
Print Assumptions c51_keys.

Lemma c51_one_hash : one_hash toy_client.
Proof. exists SHA256. intros suite [<-|[<-|[]]]; reflexivity. Qed.
Example c51_case : exists sd, In (SFin sd) (c_hs c43_c) /\ In (SFin sd) (c_hs c17_s).
Proof.
  destruct c50_case as (_ & _ & _ & _ & _ & _ & _ & _ & _ & _ & _ & _ & _ & _ & (ms & sd & r & r' & E & E') & _).
  exists sd. rewrite E, E'. split; apply in_or_app; right; left; reflexivity.
Qed.
(* after a HelloRetryRequest the two endpoints can only agree by a collision:
   with a hash that is constant they do, and the theorem tells it *)
Example c51_retry_case : aead_sized flat /\ hmac_sized flat /\ hash_sized flat /\
  g_side toy_client = Client /\ reachable flat toy_client flat_c /\ c_state flat_c = Connected /\ few flat_c /\
  g_side flat_server = Server /\ started flat flat_server flat_s /\ c_state flat_s = Connected /\ few flat_s /\
  one_hash toy_client /\ (exists sd, In (SFin sd) (c_hs flat_c) /\ In (SFin sd) (c_hs flat_s)) /\
  map token_of (c_hs flat_c) = word 1 false /\ finished_clash flat flat_c flat_s.
Proof.
  assert (S1 : c_state flat_c = Connected) by (vm_compute; reflexivity). assert (S2 : c_state flat_s = Connected) by (vm_compute; reflexivity).
  assert (F1 : few flat_c) by (vm_compute; reflexivity). assert (F2 : few flat_s) by (vm_compute; reflexivity).
  assert (Eh : c_hs flat_c = c_hs flat_s) by (vm_compute; reflexivity).
  assert (W : map token_of (c_hs flat_c) = word 1 false) by (vm_compute; reflexivity).
  assert (Sd : exists sd, In (SFin sd) (c_hs flat_c) /\ In (SFin sd) (c_hs flat_s)).
  { assert (St : same_start (c_hs flat_c) (c_hs flat_c)) by (apply (same_start_at _ 7); vm_compute; exact I).
    destruct St as (ms & sd & r & r' & E & _). exists sd. rewrite <- Eh, E. split; apply in_or_app; right; left; reflexivity. }
  split; [exact flat_aead_sized|]. split; [exact flat_hmac_sized|]. split; [exact flat_hash_sized|]. split; [reflexivity|].
  split; [exact flat_c_reachable|]. split; [exact S1|]. split; [exact F1|]. split; [reflexivity|]. split; [exact flat_s_started|].
  split; [exact S2|]. split; [exact F2|]. split; [exact c51_one_hash|]. split; [exact Sd|]. split; [exact W|].
  destruct Sd as (sd & I1 & I2).
  destruct (c51_bound flat toy_client flat_server flat_c flat_s sd flat_aead_sized flat_hmac_sized flat_hash_sized eq_refl flat_c_reachable S1 F1 eq_refl flat_s_started S2 F2
    I1 I2) as [(ms & r & r' & _ & _ & N)|[X|[X _]]]; [|exact X | destruct (X c51_one_hash)].
  assert (N' : forallb (fun m => negb (is_retry m)) (c_hs flat_c) = false) by (vm_compute; reflexivity). rewrite N in N'. discriminate N'.
Qed.
