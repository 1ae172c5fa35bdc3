(* RFC 8446 7.1, 7.3, 4.4.4: the key schedule (without pre-shared keys), on top
   of HMAC and the T(i) of RFC 5869. *)
From Verif Require Import Base Iana Crypto Cipher S_Utils.
Local Open Scope string_scope.
Local Open Scope list_scope.
Local Open Scope N_scope.

(* B.4: hash and key length *)
Definition suite_table : list (N * (hashalg * N)) :=
  [(0x1301, (SHA256, 16)); (0x1302, (SHA384, 32)); (0x1303, (SHA256, 32));
   (0x1304, (SHA256, 16)); (0x1305, (SHA256, 16))].

Section schedule.
Variable C : crypto.
Variable h : hashalg.
Definition zero_block : bytes := repeat x00 (N.to_nat (digest_size h)).
(* HKDF-Expand-Label(Secret, Label, Context, Length) *)
Definition label_struct (label : String.string) (context : bytes) (len : N) : bytes :=
  [Nb (len / 256); Nb (len mod 256)]
  ++ Nb (blen (ascii_bytes label) + 6) :: ascii_bytes "tls13 " ++ ascii_bytes label
  ++ Nb (blen context) :: context.
Definition expand_label (secret : bytes) (label : String.string) (context : bytes) (len : N) : bytes :=
  btake len (rfc5869_stream C h secret (label_struct label context len)
               (N.to_nat ((len + digest_size h - 1) / digest_size h))).
(* Derive-Secret(Secret, Label, Messages), given Transcript-Hash(Messages) *)
Definition derived (secret : bytes) (label : String.string) (th : bytes) : bytes :=
  expand_label secret label th (digest_size h).

Definition early_secret : bytes := cr_hmac C h zero_block zero_block.
Definition handshake_secret (shared : bytes) : bytes :=
  cr_hmac C h (derived early_secret "derived" (cr_hash C h [])) shared.
Definition master_secret (shared : bytes) : bytes :=
  cr_hmac C h (derived (handshake_secret shared) "derived" (cr_hash C h [])) zero_block.
Definition hs_traffic (sd : side) (shared th : bytes) : bytes :=
  derived (handshake_secret shared) (match sd with Client => "c hs traffic" | Server => "s hs traffic" end) th.
Definition ap_traffic (sd : side) (shared th : bytes) : bytes :=
  derived (master_secret shared) (match sd with Client => "c ap traffic" | Server => "s ap traffic" end) th.
Definition traffic_key (klen : N) (secret : bytes) : bytes := expand_label secret "key" [] klen.
Definition traffic_iv (secret : bytes) : bytes := expand_label secret "iv" [] 12.
Definition finished_key (secret : bytes) : bytes := expand_label secret "finished" [] (digest_size h).
End schedule.

(* one direction of the record protection uses the key and iv of a secret *)
Definition uses (C : crypto) (h : hashalg) (klen : N) (secret : bytes) (d : dir) : Prop :=
  d_key d = Some (traffic_key C h klen secret) /\ d_iv d = Some (of_bytes (traffic_iv C h secret)).
(* same object, except that records were sent and received meanwhile *)
Definition same_keys (x y : cs) : Prop :=
  cs_suite y = cs_suite x /\ cs_side y = cs_side x /\ cs_state y = cs_state x /\ cs_salt y = cs_salt x /\
  cs_cfin y = cs_cfin x /\ cs_sfin y = cs_sfin x /\
  d_key (cs_w y) = d_key (cs_w x) /\ d_iv (cs_w y) = d_iv (cs_w x) /\ d_epoch (cs_w y) = d_epoch (cs_w x) /\
  d_key (cs_r y) = d_key (cs_r x) /\ d_iv (cs_r y) = d_iv (cs_r x) /\ d_epoch (cs_r y) = d_epoch (cs_r x) /\
  cs_klog y = cs_klog x.

(* what the connections do with a new cipher object *)
Definition handshake_keys (C : crypto) (suite : N) (sd : side) (shared th : bytes) (x : cs) : Prop :=
  exists we re x1 x2, skip_early_secrets C (cs_new we re suite sd) = (Ok tt, x1) /\
    derive_handshake_secrets C shared th x1 = (Ok tt, x2) /\ same_keys x2 x.
Definition application_keys (C : crypto) (suite : N) (sd : side) (shared th th_sf : bytes) (x : cs) : Prop :=
  exists x2 th_cf v x3, handshake_keys C suite sd shared th x2 /\
    derive_master_secrets C th_sf th_cf x2 = (Ok v, x3) /\ same_keys x3 x.

Definition hash_sized (C : crypto) : Prop := forall h m, blen (cr_hash C h m) = digest_size h.
