(* Specification for C26: the order of the key schedule. *)
From Verif Require Import Base Iana Crypto Config Cipher Conn S_Hist S_Server.

(* how far the key schedule of a connection went: 0 early, 1 handshake,
   2 application *)
Definition stage (c : conn) : N := match c_cipher c with Some x => cs_state x | None => 0 end.
(* how many keys the connection installed to send, to receive *)
Definition installed_w (c : conn) : N := match c_cipher c with Some x => d_epoch (cs_w x) | None => 0 end.
Definition installed_r (c : conn) : N := match c_cipher c with Some x => d_epoch (cs_r x) | None => 0 end.

(* nothing goes back *)
Definition forward (c c' : conn) : Prop :=
  stage c <= stage c' /\ installed_w c <= installed_w c' /\ installed_r c <= installed_r c'.

(* the external code does not raise AssertionError *)
Definition unasserting (C : crypto) : Prop :=
  (forall g a b, cr_kx_shared C g a b <> Err XAssert) /\
  (forall s k m, cr_sign C s k m <> Err XAssert) /\
  (forall s k g m, cr_sig_verify C s k g m <> Err XAssert) /\
  (forall b, cr_load_cert C b <> Err XAssert) /\ (forall b, cr_load_pubkey C b <> Err XAssert) /\
  (forall t d h l r, cr_verify_chain C t d h l r <> Err XAssert) /\
  (forall b, cr_idna_decode C b <> Err XAssert) /\ (forall b, cr_idna_encode C b <> Err XAssert) /\
  (forall b, cr_load_ocsp_req C b <> Err XAssert) /\ (forall b, cr_load_ocsp_res C b <> Err XAssert) /\
  (forall b, cr_ocsp_url C b <> Err XAssert) /\ (forall a b, cr_make_ocsp_req C a b <> Err XAssert) /\
  (forall a b, cr_ocsp_fetch C a b <> Err XAssert).

(* what the life of a connection leads to; a server does not draw the random
   that marks a HelloRetryRequest *)
Definition alive (C : crypto) (g : config) (c : conn) : Prop :=
  exists c0 ops, created g c0 /\ (g_side g = Server -> own_random c0) /\ c = run C ops c0.
(* the handshake has neither succeeded nor failed *)
Definition before_end (s : state) : bool :=
  match s with Connected | Closed _ _ | Failed => false | _ => true end.
