(* A client that is answered oddly. *)
From Verif Require Import Base P_Base Iana Crypto Config Serial Ext Msg Cipher Kex Conn S_Hist S_Conn S_Split S_Auth S_Hello P_Rec S_Pack S_Send S_Nonce P_Answer2 Toy P_Toy P_PackToy.

Definition he_c := run toy [OInit; OFlush] toy_c0.
Lemma he_reachable : reachable toy toy_client he_c.
Proof. exists toy_c0; eexists; split; [exact toy_c0_created | reflexivity]. Qed.
Definition he_ch : bytes := match c_hs he_c with (_, _, d) :: _ => d | [] => [] end.
Definition he_after (d : bytes) : conn := run toy [OInit; OFlush; ORecv (record CT_HANDSHAKE d)] toy_c0.
Lemma he_after_reachable d : reachable toy toy_client (he_after d).
Proof. exists toy_c0; eexists; split; [exact toy_c0_created | reflexivity]. Qed.
(* the ServerHello of the server, with another session id *)
Definition he_sh : bytes := pk_msg SERVER_HELLO.
Definition he_sid : bytes :=
  [x02] ++ be_bytes 3 (blen he_sh - 4 + 1) ++ btake 34 (bdrop 4 he_sh) ++ [x01; xaa] ++ bdrop 39 he_sh.
(* a HelloRetryRequest for the group of the share, without supported_versions *)
Definition he_same : bytes := ser_or (HServerHello true hrr_random [] (hd 0 toy_suites) [ESupVersionsResp 772; EKeyShareRetry x25519]).
Definition he_bare : bytes := ser_or (HServerHello true hrr_random [] (hd 0 toy_suites) [EKeyShareRetry secp256r1]).
Definition he_retry : bytes := ser_or (HServerHello true hrr_random [] (hd 0 toy_suites) [ESupVersionsResp 772; EKeyShareRetry secp256r1]).
Definition he_second (d : bytes) : bytes := match c_hs (he_after d) with [_; _; (_, _, d)] => d | _ => [] end.
Definition he_suites (d : bytes) : list N := match parse_content toy None CT_HANDSHAKE d with Ok (KHandshake (HClientHello _ _ s _)) => s | _ => [] end.
Definition he_said (d : bytes) : list ext := match parse_content toy None CT_HANDSHAKE d with Ok (KHandshake (HServerHello _ _ _ _ e)) => e | _ => [] end.
Lemma fst_ok A B (p : A * B) a : fst p = a -> p = (a, snd p).
Proof. intros <-. destruct p; reflexivity. Qed.
Lemma other_suites r r' s s' l l' e e' : l <> l' -> ~ same_hello (HClientHello r s l e) (HClientHello r' s' l' e').
Proof. intros N (a & b & d & x & y & E & E' & _). injection E. injection E'. intros. subst. contradiction. Qed.
