(* A client that is told two messages in one record, and in two. *)
From Verif Require Import Base P_Base Iana Crypto Config Serial Ext Msg Cipher Conn S_Hist S_Conn S_Send S_Nonce S_Alert S_Pack S_Split P_Rec P_Split P_Alert P_Pack Toy P_Toy.

(* the client that has read the ServerHello, in the first record of the server *)
Definition pk_hello : bytes := btake (5 + record_length (c_out toy_s2)) (c_out toy_s2).
Definition pk_c := run toy [OInit; ORecv pk_hello; OFlush] toy_c0.
(* the messages of the server: EncryptedExtensions, Certificate *)
Definition pk_msg (ty : N) : bytes :=
  concat (map snd (filter (fun e => match fst (fst e) with Server => snd (fst e) =? ty | Client => false end) (c_hs toy_s2))).
Definition pk_a := pk_msg ENCRYPTED_EXTENSIONS.
Definition pk_b := pk_msg CERTIFICATE.
(* the [i]-th record from now on *)
Definition pk_seal (c : conn) (i : N) (ct : N) (f : bytes) : bytes :=
  let inner := f ++ [Nb ct] in
  match c_cipher c with
  | Some x =>
    match d_key (cs_r x), d_iv (cs_r x), d_seq (cs_r x) with
    | Some k, Some iv, Some q =>
      cr_seal toy (cs_suite x) k (be_bytes 12 (N.lxor iv (q_next q + i))) inner (Nb CT_APPDATA :: x03 :: x03 :: be_bytes 2 (blen inner + 16))
    | _, _, _ => []
    end
  | None => []
  end.
(* decides [packed] for such a record *)
Definition pk_ok (c : conn) (i ct : N) (f : bytes) : bool :=
  let p := pk_seal c i ct f in
  match c_cipher c with
  | Some x =>
    match d_key (cs_r x), d_iv (cs_r x), d_seq (cs_r x) with
    | Some k, Some iv, Some q =>
      (cs_suite x =? TLS_CHACHA20_POLY1305_SHA256) && (q_next q + i <? 2 ^ 64) && (blen p <=? max_frag c + 256) &&
      match cr_open toy (cs_suite x) k (be_bytes 12 (N.lxor iv (q_next q + i))) p (Nb CT_APPDATA :: x03 :: x03 :: be_bytes 2 (blen p)) with
      | Some inner => beqb inner (f ++ [Nb ct]) | None => false end
    | _, _, _ => false
    end
  | None => false
  end && (0 <? ct) && (ct <? 256) && negb (ct =? CT_CCS).
Lemma pk_packed c i ct f l b : pk_ok c i ct f = true -> packed toy c (i + 1) l b ->
  packed toy c i ((ct, f) :: l) (record CT_APPDATA (pk_seal c i ct f) ++ b).
Proof.
  intros H K. unfold pk_ok in H. cbv zeta in H. apply andb_prop in H as [H H3]. apply andb_prop in H as [H H2]. apply andb_prop in H as [H H1].
  destruct (c_cipher c) as [x|] eqn:Ex; [|discriminate H]. destruct (d_key (cs_r x)) as [k|] eqn:Ek; [|discriminate H].
  destruct (d_iv (cs_r x)) as [iv|] eqn:Ei; [|discriminate H]. destruct (d_seq (cs_r x)) as [q|] eqn:Eq; [|discriminate H].
  apply andb_prop in H as [H Ho]. apply andb_prop in H as [H Hl]. apply andb_prop in H as [Hs Hq].
  apply N.ltb_lt in H1, H2, Hq. apply N.leb_le in Hl. apply N.eqb_eq in Hs. apply negb_true_iff, N.eqb_neq in H3.
  apply (packed_sealed toy c i ct f l b x (pk_seal c i ct f) (f ++ [Nb ct])); try assumption.
  - unfold dec_on. rewrite Ex. unfold must_decrypt. rewrite Ek. reflexivity.
  - exists (2 ^ 64). rewrite Hs. split; [cbn; tauto|]. intros q' E'. congruence.
  - split; assumption.
  - intros k' iv' q' E1 E2 E3. rewrite Ek in E1. rewrite Ei in E2. rewrite Eq in E3. injection E1; intros <-. injection E2; intros <-. injection E3; intros <-.
    destruct (cr_open _ _ _ _ _ _) as [inner|]; [|discriminate Ho]. apply beqb_eq in Ho. rewrite Ho. reflexivity.
  - exists 0%nat. reflexivity.
Qed.
Definition pk_whole (m : bytes) : bool :=
  match m with ty :: r => beqb r (be_bytes 3 (blen (bdrop 3 r)) ++ bdrop 3 r) && (blen (bdrop 3 r) <? 2 ^ 24) | [] => false end.
Lemma pk_whole_ok m : pk_whole m = true -> whole m.
Proof.
  destruct m as [|ty r]; [discriminate|]. cbn [pk_whole]. intro H. apply andb_prop in H as [H L]. apply beqb_eq in H. apply N.ltb_lt in L.
  exists ty, (bdrop 3 r). split; [rewrite <- H; reflexivity | exact L].
Qed.
Definition pk_two : bytes := record CT_APPDATA (pk_seal pk_c 0 CT_HANDSHAKE pk_a) ++ record CT_APPDATA (pk_seal pk_c 1 CT_HANDSHAKE pk_b) ++ [].
Definition pk_one : bytes := record CT_APPDATA (pk_seal pk_c 0 CT_HANDSHAKE (pk_a ++ pk_b)) ++ [].
Lemma pk_two_packed : packed toy pk_c 0 [(CT_HANDSHAKE, pk_a); (CT_HANDSHAKE, pk_b)] pk_two.
Proof.
  apply pk_packed; [vm_compute; reflexivity|]. apply (pk_packed pk_c (0 + 1)); [vm_compute; reflexivity | constructor].
Qed.
Lemma pk_one_packed : packed toy pk_c 0 [(CT_HANDSHAKE, pk_a ++ pk_b)] pk_one.
Proof. apply pk_packed; [vm_compute; reflexivity | constructor]. Qed.
Lemma pk_reachable : reachable toy toy_client pk_c.
Proof. exists toy_c0; eexists; split; [exact toy_c0_created | reflexivity]. Qed.
Lemma pk_idle : idle pk_c.
Proof. split; vm_compute; reflexivity. Qed.
