(* When two endpoints share their traffic keys. *)
From Verif Require Import Base Iana Crypto Config Ext Msg Cipher Kex Conn S_Utils S_Keys S_Auth S_Server.

(* the key exchange of the library: whoever draws which secret, both compute the
   same value (the groups of RFC 7919 are modelled and proved, C35) *)
Definition dh_commutes (C : crypto) (a b : N -> bytes) : Prop :=
  forall group i j za zb, cr_kx_shared C group (a i) (cr_kx_pub C group (b j)) = Ok za ->
    cr_kx_shared C group (b j) (cr_kx_pub C group (a i)) = Ok zb -> za = zb.

(* the traffic keys of [c] are those of RFC 8446 for the secret [shared] and the
   transcript hash [th] *)
Definition rfc_keys (C : crypto) (sd : side) (suite : N) (h : hashalg) (shared th : bytes) (c : conn) : Prop :=
  exists x klen, c_cipher c = Some x /\ cs_suite x = suite /\ In (suite, (h, klen)) suite_table /\
    uses C h klen (ap_traffic C h sd shared th) (cs_w x) /\
    uses C h klen (ap_traffic C h (other_side sd) shared th) (cs_r x).

(* the last ClientHello of [ms] offers the public value of [secret] for [group],
   and nothing else *)
Definition offers_share (C : crypto) (ms : list hmsg) (group : N) (secret : bytes) : Prop :=
  exists ms0 d random sid suites exts pub, ms = ms0 ++ [(Client, CLIENT_HELLO, d)] /\
    says C None d (HClientHello random sid suites exts) /\
    ext_get KEY_SHARE exts = Some (EKeyShareReq [(group, pub)]) /\ kx_init C group secret = Ok pub.
(* the ServerHello answers with the public value [pub] *)
Definition answers_share (C : crypto) (d : bytes) (suite group : N) (pub : bytes) : Prop :=
  exists random sid exts, says C None d (HServerHello false random sid suite exts) /\
    ext_get KEY_SHARE exts = Some (EKeyShareResp group pub).

(* both endpoints saw the same messages up to the server's Finished *)
Definition same_start (a b : list hmsg) : Prop :=
  exists ms sd r r', a = ms ++ SFin sd :: r /\ b = ms ++ SFin sd :: r'.
(* what the endpoint [c] computed the server's Finished from, [ms] being the
   messages before it and [hashed] the bytes it hashes for a list of messages:
   the key [k] comes from a secret of its own, the suite is that of the
   ServerHello *)
Definition finished_input (C : crypto) (c : conn) (h : hashalg) (k : bytes) (hashed : list hmsg -> bytes) (ms : list hmsg) : Prop :=
  exists hello sh tail suite group pub j peer shared, ms = hello ++ (Server, SERVER_HELLO, sh) :: tail /\
    is_retry (Server, SERVER_HELLO, sh) = false /\ answers_share C sh suite group pub /\ suite_hash suite = Some h /\
    kx_resume C group (c_rng c j) peer = Ok shared /\
    k = finished_key C h (hs_traffic C h Server shared (cr_hash C h (hashed (hello ++ [(Server, SERVER_HELLO, sh)])))).
(* two different inputs of a function with the same output *)
Definition hmac_clash (C : crypto) (a b : hashalg * bytes * bytes) : Prop :=
  a <> b /\ cr_hmac C (fst (fst a)) (snd (fst a)) (snd a) = cr_hmac C (fst (fst b)) (snd (fst b)) (snd b).
Definition hash_clash (C : crypto) (h : hashalg) (a b : bytes) : Prop :=
  a <> b /\ cr_hash C h a = cr_hash C h b.
(* all suites of a configuration use the same hash *)
Definition one_hash (g : config) : Prop := exists h, forall suite, In suite (g_suites g) -> suite_hash suite = Some h.

(* the two endpoints computed the same Finished from different inputs; [heard]
   tells what a client hashes after a HelloRetryRequest, see C24 *)
Definition finished_clash (C : crypto) (c s : conn) : Prop :=
  exists ms ms' r r' sd h h' hc k k', c_hs c = ms ++ SFin sd :: r /\ c_hs s = ms' ++ SFin sd :: r' /\
    finished_input C c h k (heard C h hc false) ms /\ finished_input C s h' k' (rfc_messages C h') ms' /\
    (hmac_clash C (h, k, heard_hash C h hc false ms) (h', k', rfc_transcript C h' ms') \/
     hash_clash C h (heard C h hc false ms) (rfc_messages C h ms')).
(* after a retry the client has hashed its first hello with another function
   than that of the suite, and the digest is taken for the beginning of the
   server's messages; only with suites of several hashes *)
Definition digest_mixup (C : crypto) (g : config) (c s : conn) : Prop :=
  ~ one_hash g /\ exists ms ms' r r' sd h hc, c_hs c = ms ++ SFin sd :: r /\ c_hs s = ms' ++ SFin sd :: r' /\
    hc <> h /\ existsb is_retry ms = true /\ heard C h hc false ms = rfc_messages C h ms'.
