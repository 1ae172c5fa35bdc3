(* A toy AEAD that cannot be forged, for the examples about an active attacker:
   under one key it opens the two records that the sender seals and nothing
   else. *)
From Verif Require Import Base P_Base Iana Crypto Config Cipher Conn S_Hist S_Conn S_Send S_Nonce S_Alert S_Auth S_Deliver S_Integrity
  P_Send P_Deliver Toy P_Toy.

Definition with_open (C : crypto) (o : N -> bytes -> bytes -> bytes -> bytes -> option bytes) : crypto := {|
  cr_hash := cr_hash C; cr_hmac := cr_hmac C; cr_seal := cr_seal C; cr_open := o;
  cr_kx_pub := cr_kx_pub C; cr_kx_shared := cr_kx_shared C; cr_sign := cr_sign C; cr_sig_verify := cr_sig_verify C;
  cr_load_cert := cr_load_cert C; cr_load_pubkey := cr_load_pubkey C; cr_cert_pubkey := cr_cert_pubkey C;
  cr_cert_pubkey_oid := cr_cert_pubkey_oid C; cr_cert_sig_oid := cr_cert_sig_oid C; cr_cert_hash_alg := cr_cert_hash_alg C;
  cr_verify_chain := cr_verify_chain C; cr_is_ip := cr_is_ip C; cr_idna_decode := cr_idna_decode C; cr_idna_encode := cr_idna_encode C;
  cr_load_ocsp_req := cr_load_ocsp_req C; cr_load_ocsp_res := cr_load_ocsp_res C; cr_ocsp_url := cr_ocsp_url C;
  cr_make_ocsp_req := cr_make_ocsp_req C; cr_ocsp_fetch := cr_ocsp_fetch C; cr_now := cr_now C; cr_sig_args := cr_sig_args C |}.

(* the client's application key, the two nonces and the two contents *)
Definition st_key : bytes := be_bytes 32 0x287462154f.
Definition st_data (b : byte) : bytes := inner_bytes CT_APPDATA 16384 16 [b].
Definition st_nonce (n : N) : bytes := be_bytes 12 n.
Definition st_table : list (bytes * bytes) := [(st_nonce 0, st_data x61); (st_nonce 1, st_data x62)].
Definition st_open (suite : N) (key nonce ct aad : bytes) : option bytes :=
  match toy_open suite key nonce ct aad with
  | Some p => if beqb key st_key
              then if existsb (fun e => beqb (fst e) nonce && beqb (snd e) p) st_table then Some p else None
              else Some p
  | None => None
  end.
Definition strict : crypto := with_open toy st_open.
Lemma strict_aead_sized : aead_sized strict.
Proof. exact toy_aead_sized. Qed.

Definition st_a_ops : list op := [OInit; ORecv (c_out toy_s2); OFlush].
Definition st_b_ops : list op := [OInit; ORecv (c_out toy_c1); OFlush; ORecv (c_out toy_c2)].
Definition st_a : conn := run strict st_a_ops toy_c0.
Definition st_b : conn := run strict st_b_ops toy_s0.
Lemma st_a_reachable : reachable strict toy_client st_a.
Proof. exists toy_c0, st_a_ops. split; [exact toy_c0_created | reflexivity]. Qed.
Lemma st_b_reachable : reachable strict toy_server st_b.
Proof. exists toy_s0, st_b_ops. split; [exact toy_s0_created | reflexivity]. Qed.
(* the client writes "a" and then "b" *)
Definition st_ops : list op := [OSend [x61]; OSend [x62]].
Definition st_record (n : N) (b : byte) : bytes :=
  record CT_APPDATA (toy_seal TLS_CHACHA20_POLY1305_SHA256 st_key (st_nonce n) (st_data b) (aad_of (blen (st_data b) + 16))).
Definition st_forged : bytes := record CT_APPDATA (zeros 20).

Definition roomb (c : conn) : bool :=
  match c_cipher c with
  | Some x => existsb (fun e => (fst e =? cs_suite x) && match d_seq (cs_w x) with Some q => q_next q <? snd e | None => true end) limit_table
  | None => true
  end.
Lemma roomb_ok c : roomb c = true -> room c.
Proof.
  unfold roomb. intros H x Ex _. rewrite Ex in H. apply existsb_exists in H. destruct H as ([s lim] & I & H).
  apply andb_prop in H. destruct H as [H1 H2]. apply N.eqb_eq in H1. cbn [fst snd] in *. subst s. exists lim. split; [exact I|].
  intros q Eq. rewrite Eq in H2. apply N.ltb_lt. exact H2.
Qed.
Definition safeb (a : conn) (log : list sealing) : bool :=
  match c_cipher a with
  | Some x =>
    match d_key (cs_w x) with
    | Some k => beqb k st_key && forallb (fun s => negb (beqb (se_key s) st_key)) (c_log a) &&
        forallb (fun e => existsb (fun s => beqb (se_key s) st_key && beqb (se_nonce s) (fst e) && beqb (se_data s) (snd e)) log) st_table
    | None => false
    end
  | None => false
  end.
Lemma safeb_ok a log : safeb a log = true -> unforgeable strict a log.
Proof.
  unfold safeb. destruct (c_cipher a) as [x|] eqn:Ex; [|discriminate]. destruct (d_key (cs_w x)) as [k|] eqn:Ek; [|discriminate].
  rewrite !andb_true_iff. intros ((H1 & H2) & H3). apply beqb_eq in H1. subst k. split.
  - intros x1 s Ex1 Is Ks. rewrite Ex in Ex1. injection Ex1; intros <-. rewrite Ek in Ks. injection Ks; intros Ks'. exfalso.
    rewrite forallb_forall in H2. specialize (H2 s Is). rewrite Ks' in H2.
    assert (beqb st_key st_key = true) as Z by (apply beqb_eq; reflexivity). rewrite Z in H2. discriminate.
  - intros x1 k Ex1 Ek1 nonce ct aad p H. rewrite Ex in Ex1. injection Ex1; intros <-. rewrite Ek in Ek1. injection Ek1; intros <-.
    change (cr_open strict) with st_open in H. unfold st_open in H. destruct (toy_open _ _ _ _ _) as [p'|]; [|discriminate].
    assert (beqb st_key st_key = true) as Z by (apply beqb_eq; reflexivity). rewrite Z in H.
    destruct (existsb _ st_table) eqn:Eb; [|discriminate]. injection H; intros <-.
    apply existsb_exists in Eb. destruct Eb as (e & Ie & He). apply andb_prop in He. destruct He as [He1 He2].
    apply beqb_eq in He1, He2. rewrite forallb_forall in H3. specialize (H3 e Ie). apply existsb_exists in H3.
    destruct H3 as (s & Is & Hs). rewrite !andb_true_iff in Hs. destruct Hs as ((S1 & S2) & S3). apply beqb_eq in S1, S2, S3.
    exists s. split; [exact Is|]. split; [exact S1|]. split; congruence.
Qed.
(* all that the examples need, evaluated at once *)
Lemma st_ok : quiet_link st_a st_b /\ room st_a /\ established (c_state st_a) = true /\ can_send (c_state st_b) = true /\
  unforgeable strict st_a (c_log (run strict st_ops st_a)).
Proof.
  assert (H : quiet_linkb st_a st_b && roomb st_a && established (c_state st_a) && can_send (c_state st_b) && safeb st_a (c_log (run strict st_ops st_a)) = true)
    by (vm_compute; reflexivity).
  apply andb_prop in H. destruct H as [H H5]. apply andb_prop in H. destruct H as [H H4].
  apply andb_prop in H. destruct H as [H H3]. apply andb_prop in H. destruct H as [H1 H2]. split; [apply quiet_linkb_ok; exact H1|]. split; [apply roomb_ok; exact H2|].
  split; [exact H3|]. split; [exact H4 | apply safeb_ok; exact H5].
Qed.
