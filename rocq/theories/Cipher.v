(* crypto/ciphers.py: key schedule and AEAD protection. *)
From Verif Require Import Base Iana Crypto Hkdf.

(* ciphers.py:308-366 attributes of the cipher suites.  None: not in the
   registry. *)
Definition suite_hash (s : N) : option hashalg :=
  if s =? TLS_AES_128_GCM_SHA256 then Some SHA256
  else if s =? TLS_AES_256_GCM_SHA384 then Some SHA384
  else if s =? TLS_CHACHA20_POLY1305_SHA256 then Some SHA256
  else if s =? TLS_AES_128_CCM_SHA256 then Some SHA256
  else if s =? TLS_AES_128_CCM_8_SHA256 then Some SHA256
  else None.
(* for a suite known to be in the registry *)
Definition hash_of (s : N) : hashalg := if s =? TLS_AES_256_GCM_SHA384 then SHA384 else SHA256.
Definition key_length (s : N) : N :=
  if (s =? TLS_AES_256_GCM_SHA384) || (s =? TLS_CHACHA20_POLY1305_SHA256) then 32 else 16.
Definition tag_length (s : N) : N := if s =? TLS_AES_128_CCM_8_SHA256 then 8 else 16.
Definition nonce_length : N := 12.
(* int(2 ** 23.5); Ellipsis (None) for the CCM suites *)
Definition usage_limit (s : N) : option N :=
  if (s =? TLS_AES_128_GCM_SHA256) || (s =? TLS_AES_256_GCM_SHA384) then Some 11863283
  else if s =? TLS_CHACHA20_POLY1305_SHA256 then Some 18446744073709551616
  else None.
(* ciphers.py:18 *)
Definition REKEY_THRESHOLD := 1024.

(* peekable(iter(range(limit))).  utils.peekable is modelled in Utils.v, where
   it is proved to behave as the list of its elements whatever peeks are made
   (C39); here it is that list, given by its first element and its bound. *)
Record seq := mkSeq { q_next : N; q_limit : N }.
Definition seq_new (limit : N) : seq := mkSeq 0 limit.
(* utils.py:115-120 __next__ *)
Definition seq_next (q : seq) : res N * seq :=
  if q_next q <? q_limit q
  then (Ok (q_next q), mkSeq (q_next q + 1) (q_limit q))
  else (Err XStop, q).
(* utils.py:122-130 peek without default *)
Definition seq_peek (q : seq) : res N :=
  if q_next q <? q_limit q then Ok (q_next q) else Err XStop.

(* One direction: _write_cipher/_write_iv/_write_seq or _read_*.  [d_epoch] is
   ghost: how many keys were ever installed in this direction by the connection,
   also in cipher objects it replaced. *)
Record dir := mkDir { d_key : option bytes; d_iv : option N; d_seq : option seq; d_epoch : N }.
Definition dir_none (epoch : N) : dir := mkDir None None None epoch.

(* The TLSCipherSuite object together with its _TLSSecrets (ciphers.py:31-37,
   121-126).  Key schedule state: 0 EARLY, 1 HANDSHAKE, 2 APPLICATION.
   Finished keys: None attribute missing, Some None set to None.
   [cs_klog] is what the object passes to key_logger.info when log_keys is set:
   the labels and the secrets, in order (see KeyLog.v for the lines). *)
Record cs := mkCs {
  cs_suite : N; cs_side : side; cs_state : N; cs_salt : bytes;
  cs_cfin : option (option bytes); cs_sfin : option (option bytes);
  cs_w : dir; cs_r : dir; cs_klog : list (String.string * bytes) }.

(* ciphers.py:121-126, 32-37.  [we] and [re] are ghost, see dir. *)
Definition cs_new (we re : N) (suite : N) (sd : side) : cs :=
  mkCs suite sd 0 (zeros (digest_size (hash_of suite))) None None (dir_none we) (dir_none re) [].

Definition cs_set_w (c : cs) (d : dir) : cs :=
  mkCs (cs_suite c) (cs_side c) (cs_state c) (cs_salt c) (cs_cfin c) (cs_sfin c) d (cs_r c) (cs_klog c).
Definition cs_set_r (c : cs) (d : dir) : cs :=
  mkCs (cs_suite c) (cs_side c) (cs_state c) (cs_salt c) (cs_cfin c) (cs_sfin c) (cs_w c) d (cs_klog c).
Definition cs_set_fin (c : cs) (a b : option (option bytes)) : cs :=
  mkCs (cs_suite c) (cs_side c) (cs_state c) (cs_salt c) a b (cs_w c) (cs_r c) (cs_klog c).
Definition cs_advance (c : cs) (salt : bytes) : cs :=
  mkCs (cs_suite c) (cs_side c) (cs_state c + 1) salt (cs_cfin c) (cs_sfin c) (cs_w c) (cs_r c) (cs_klog c).
(* key_logger.info (ciphers.py:256-260 and 296-302) *)
Definition cs_logs (l : list (String.string * bytes)) (c : cs) : cs :=
  mkCs (cs_suite c) (cs_side c) (cs_state c) (cs_salt c) (cs_cfin c) (cs_sfin c) (cs_w c) (cs_r c) (cs_klog c ++ l).

Definition must_encrypt (c : cs) : bool := opt_bool (d_key (cs_w c)).    (* ciphers.py:140-142 *)
Definition must_decrypt (c : cs) : bool := opt_bool (d_key (cs_r c)).    (* ciphers.py:136-138 *)

(* labels *)
Definition l_derived := ascii_bytes "derived"%string.
Definition l_chs := ascii_bytes "c hs traffic"%string.
Definition l_shs := ascii_bytes "s hs traffic"%string.
Definition l_cap := ascii_bytes "c ap traffic"%string.
Definition l_sap := ascii_bytes "s ap traffic"%string.
Definition l_exp := ascii_bytes "exp master"%string.
Definition l_res := ascii_bytes "res master"%string.
Definition l_finished := ascii_bytes "finished"%string.
Definition l_key := ascii_bytes "key"%string.
Definition l_iv := ascii_bytes "iv"%string.

(* ciphers.py:19,21 hashempty *)
Definition hash_empty (C : crypto) (h : hashalg) : bytes := cr_hash C h [].

(* ciphers.py:39-47 with update_salt=True.  CipherState(state + 1) raises
   ValueError when the state was already APPLICATION, after the salt is set;
   the callers' assertions exclude it. *)
Definition extract_and_advance (C : crypto) (ikm : bytes) (c : cs) : res bytes * cs :=
  let h := hash_of (cs_suite c) in
  let secret := hkdf_extract C h (cs_salt c) ikm in
  match derive_secret C h secret l_derived (hash_empty C h) with
  | Ok salt => (Ok secret, cs_advance c salt)
  | Err e => (Err e, c)
  end.

(* ciphers.py:206-207, 49-52 *)
Definition skip_early_secrets (C : crypto) (c : cs) : res unit * cs :=
  if negb (cs_state c =? 0) then (Err XAssert, c)
  else match extract_and_advance C (zeros (digest_size (hash_of (cs_suite c)))) c with
       | (Ok _, c1) => (Ok tt, c1)
       | (Err e, c1) => (Err e, c1)
       end.

(* ciphers.py:199-204 *)
Definition derive_key_and_iv (C : crypto) (suite : N) (secret : bytes) : res (bytes * bytes) :=
  let h := hash_of suite in
  let* k := hkdf_expand_label C h secret l_key [] (key_length suite) in
  let* iv := hkdf_expand_label C h secret l_iv [] nonce_length in
  Ok (k, iv).

(* three consecutive assignments; peekable(iter(range(...))) raises TypeError
   for the suites whose usage_limit is Ellipsis, leaving the old sequence *)
Definition install (suite : N) (k iv : bytes) (d : dir) : res unit * dir :=
  match usage_limit suite with
  | Some lim => (Ok tt, mkDir (Some k) (Some (of_bytes iv)) (Some (seq_new lim)) (d_epoch d + 1))
  | None => (Err XType, mkDir (Some k) (Some (of_bytes iv)) (d_seq d) (d_epoch d + 1))
  end.

(* ciphers.py:242-255 and 278-291 *)
Definition install_both (ck civ sk siv : bytes) (c : cs) : res unit * cs :=
  let '(wk, wiv, rk, riv) :=
    match cs_side c with Client => (ck, civ, sk, siv) | Server => (sk, siv, ck, civ) end in
  match install (cs_suite c) wk wiv (cs_w c) with
  | (Err e, w) => (Err e, cs_set_w c w)
  | (Ok _, w) =>
    let c1 := cs_set_w c w in
    match install (cs_suite c) rk riv (cs_r c) with
    | (Err e, r) => (Err e, cs_set_r c1 r)
    | (Ok _, r) => (Ok tt, cs_set_r c1 r)
    end
  end.

(* The pure derivations of ciphers.py:76-77, 235-241 *)
Record hs_secrets := mkHsSecrets {
  h_cts : bytes; h_sts : bytes; h_cfin : bytes; h_sfin : bytes;
  h_ckey : bytes * bytes; h_skey : bytes * bytes }.
Definition derive_hs (C : crypto) (suite : N) (secret th : bytes) : res hs_secrets :=
  let h := hash_of suite in
  let* cts := derive_secret C h secret l_chs th in
  let* sts := derive_secret C h secret l_shs th in
  let* cf := derive_secret C h cts l_finished [] in
  let* sf := derive_secret C h sts l_finished [] in
  let* ck := derive_key_and_iv C suite cts in
  let* sk := derive_key_and_iv C suite sts in
  Ok (mkHsSecrets cts sts cf sf ck sk).

(* ciphers.py:230-261 derive_handshake_secrets.  Derivation errors cannot
   happen once the digests have their size; they are raised before any
   assignment here, while Python would already have set the finished keys. *)
Definition derive_handshake_secrets (C : crypto) (shared th : bytes) (c : cs) : res unit * cs :=
  if negb (cs_state c =? 1) then (Err XAssert, c)
  else match extract_and_advance C shared c with
       | (Err e, c1) => (Err e, c1)
       | (Ok secret, c1) =>
         match derive_hs C (cs_suite c) secret th with
         | Err e => (Err e, c1)
         | Ok s =>
           let c2 := cs_set_fin c1 (Some (Some (h_cfin s))) (Some (Some (h_sfin s))) in
           match install_both (fst (h_ckey s)) (snd (h_ckey s)) (fst (h_skey s)) (snd (h_skey s)) c2 with
           | (Err e, c3) => (Err e, c3)
           | (Ok _, c3) => (Ok tt, cs_logs [("CLIENT_HANDSHAKE_TRAFFIC_SECRET"%string, h_cts s);
                                            ("SERVER_HANDSHAKE_TRAFFIC_SECRET"%string, h_sts s)] c3)
           end
         end
       end.

(* ciphers.py:90-94, 276-277 *)
Record ap_secrets := mkApSecrets {
  a_cts : bytes; a_sts : bytes; a_exp : bytes; a_res : bytes;
  a_ckey : bytes * bytes; a_skey : bytes * bytes }.
Definition derive_ap (C : crypto) (suite : N) (secret th_sf th_cf : bytes) : res ap_secrets :=
  let h := hash_of suite in
  let* cts := derive_secret C h secret l_cap th_sf in
  let* sts := derive_secret C h secret l_sap th_sf in
  let* ex := derive_secret C h secret l_exp th_sf in
  let* rs := derive_secret C h secret l_res th_cf in
  let* ck := derive_key_and_iv C suite cts in
  let* sk := derive_key_and_iv C suite sts in
  Ok (mkApSecrets cts sts ex rs ck sk).

(* ciphers.py:263-305 derive_master_secrets; returns exporter and resumption
   secrets, unused by the callers *)
Definition derive_master_secrets (C : crypto) (th_sf th_cf : bytes) (c : cs)
  : res (bytes * bytes) * cs :=
  if negb (cs_state c =? 2) then (Err XAssert, c)
  else
    let h := hash_of (cs_suite c) in
    let secret := hkdf_extract C h (cs_salt c) (zeros (digest_size h)) in
    match derive_ap C (cs_suite c) secret th_sf th_cf with
    | Err e => (Err e, c)
    | Ok s =>
      match install_both (fst (a_ckey s)) (snd (a_ckey s)) (fst (a_skey s)) (snd (a_skey s)) c with
      | (Err e, c1) => (Err e, c1)
      | (Ok _, c1) =>
        (Ok (a_exp s, a_res s),
         cs_logs [("CLIENT_TRAFFIC_SECRET_0"%string, a_cts s); ("SERVER_TRAFFIC_SECRET_0"%string, a_sts s);
                  ("EXPORTER_SECRET"%string, a_exp s)] (cs_set_fin c1 (Some None) (Some None)))
      end
    end.

(* hmac.digest(key, ...) with key possibly missing or None *)
Definition fin_key (k : option (option bytes)) : res bytes :=
  match k with
  | None => Err XAttr
  | Some None => Err XType
  | Some (Some b) => Ok b
  end.

(* ciphers.py:170-176 *)
Definition sign_finish (C : crypto) (th : bytes) (c : cs) : res bytes :=
  let* k := fin_key (match cs_side c with Client => cs_cfin c | Server => cs_sfin c end) in
  Ok (cr_hmac C (hash_of (cs_suite c)) k th).

(* ciphers.py:178-187 *)
Definition verify_finish (C : crypto) (th other : bytes) (c : cs) : res unit :=
  let* k := fin_key (match cs_side c with Client => cs_sfin c | Server => cs_cfin c end) in
  if beqb (cr_hmac C (hash_of (cs_suite c)) k th) other then Ok tt else Err XValue.

(* ciphers.py:155-157 and 162-164: iv ^ next(seq), to_bytes *)
Definition next_nonce (d : dir) : res bytes * dir :=
  match d_iv d, d_seq d with
  | Some iv, Some q =>
    match seq_next q with
    | (Ok n, q1) =>
      (to_bytes 12 (N.lxor iv n), mkDir (d_key d) (d_iv d) (Some q1) (d_epoch d))
    | (Err e, q1) => (Err e, mkDir (d_key d) (d_iv d) (Some q1) (d_epoch d))
    end
  | _, _ => (Err XType, d)
  end.

(* ciphers.py:149-153.  Also returns the nonce used. *)
Definition decrypt (C : crypto) (data aad : bytes) (c : cs) : res bytes * cs :=
  match d_key (cs_r c) with
  | None => (Err XAttr, c)
  | Some k =>
    match next_nonce (cs_r c) with
    | (Err e, r) => (Err e, cs_set_r c r)
    | (Ok nonce, r) =>
      match cr_open C (cs_suite c) k nonce data aad with
      | Some p => (Ok p, cs_set_r c r)
      | None => (Err (XAlert DECRYPT_ERROR), cs_set_r c r)
      end
    end
  end.

(* One AEAD sealing operation, for the ghost log *)
Record sealing := mkSealing {
  se_suite : N; se_epoch : N; se_key : bytes; se_nonce : bytes; se_data : bytes; se_aad : bytes }.

(* ciphers.py:159-160 *)
Definition encrypt (C : crypto) (data aad : bytes) (c : cs) : res (bytes * sealing) * cs :=
  match d_key (cs_w c) with
  | None => (Err XAttr, c)
  | Some k =>
    match next_nonce (cs_w c) with
    | (Err e, w) => (Err e, cs_set_w c w)
    | (Ok nonce, w) =>
      (Ok (cr_seal C (cs_suite c) k nonce data aad,
           mkSealing (cs_suite c) (d_epoch (cs_w c)) k nonce data aad), cs_set_w c w)
    end
  end.

(* ciphers.py:144-147 *)
Definition should_rekey (c : cs) : res bool :=
  match d_seq (cs_w c) with
  | None => Ok false
  | Some q =>
    let* n := seq_peek q in
    match usage_limit (cs_suite c) with
    | None => Err XType
    | Some lim => Ok (lim - REKEY_THRESHOLD <=? n)
    end
  end.
