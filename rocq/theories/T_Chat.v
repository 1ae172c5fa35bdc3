(* C56 *)
From Verif Require Import Base Iana Crypto Config Conn S_Hist S_Conn S_Send S_Nonce S_Alert S_Deliver S_Honest Wrapper S_Net S_Chat P_Chat P_Chat2 Toy P_Toy P_Base T_Alert T_Server T_Deliver T_Honest.

(* what the calls of read return is a beginning of what the calls of write were
   given, whatever the order of the calls and however the network cuts *)
Theorem c56_prefix : forall C w w', aead_correct C -> linked w -> chat C w w' ->
  prefix (w_got_b w') (w_sent_a w') /\ prefix (w_got_a w') (w_sent_b w') /\
  c_state (w_a w') = c_state (w_a w) /\ c_state (w_b w') = c_state (w_b w).
Proof. intros C w w' A. exact (chat_prefix C A w w'). Qed.
Print Assumptions c56_prefix.

(* A call of read returns data, never an empty string, which would mean the end
   of the stream; or waits for the network, and only if nothing is left to read
   when the network has handed over all it had; or raises, and only when the
   key to write with is nearly used up. *)
Theorem c56_read : forall C w w' ds rest r b' k, aead_correct C -> linked w -> chat C w w' ->
  w_ab w' = concat ds ++ rest -> (forall p, In p ds -> p <> []) ->
  wread C (w_b w', mkSock (map Ok ds) [] []) = (r, (b', k)) ->
  (exists d, r = Ok d /\ d <> []) \/
  (r = Err XFuel /\ sk_recv k = [] /\ (rest = [] -> w_got_b w' = w_sent_a w')) \/
  (exists e, r = Err e /\ worn b').
Proof. intros C w w' ds rest r b' k A. exact (chat_read C A w w' ds rest r b' k). Qed.
Print Assumptions c56_read.

(* a call of write returns as long as the key may be used *)
Theorem c56_write : forall C g a d k, aead_sized C -> reachable C g a -> room a -> enc_on a = true ->
  can_send_app (c_state a) = true -> short a d -> exists a' k', wwrite C d (a, k) = (Ok tt, (a', k')).
Proof. exact write_works. Qed.
Print Assumptions c56_write.

(* the same from the calls of do_handshake on (C27, C47) *)
Theorem c56_wrapped : forall C gc gs c s ds1 ds2 ds3 c1 s1 kc ks w', honest_crypto C -> compatible C gc gs c s ->
  wide_fragments gc -> first_share gc gs -> no_ccm gc gs ->
  cut (flight1 C c) ds1 -> cut (flight2 C c s) ds2 -> cut (flight3 C c s) ds3 ->
  snd (do_handshake C (c, mkSock (map Ok ds2) [] [])) = (c1, kc) ->
  snd (do_handshake C (s, mkSock (map Ok (ds1 ++ ds3)) [] [])) = (s1, ks) ->
  chat C (mkWorld c1 s1 [] [] [] [] [] []) w' ->
  prefix (w_got_b w') (w_sent_a w') /\ prefix (w_got_a w') (w_sent_b w') /\
  (forall ds rest r s' k, w_ab w' = concat ds ++ rest -> (forall p, In p ds -> p <> []) ->
   wread C (w_b w', mkSock (map Ok ds) [] []) = (r, (s', k)) ->
   (exists d, r = Ok d /\ d <> []) \/
   (r = Err XFuel /\ sk_recv k = [] /\ (rest = [] -> w_got_b w' = w_sent_a w')) \/
   (exists e, r = Err e /\ worn s')) /\
  (forall ds rest r c' k, w_ba w' = concat ds ++ rest -> (forall p, In p ds -> p <> []) ->
   wread C (w_a w', mkSock (map Ok ds) [] []) = (r, (c', k)) ->
   (exists d, r = Ok d /\ d <> []) \/
   (r = Err XFuel /\ sk_recv k = [] /\ (rest = [] -> w_got_a w' = w_sent_b w')) \/
   (exists e, r = Err e /\ worn c')).
Proof. exact wrapped_chat. Qed.
Print Assumptions c56_wrapped.

(* the toy endpoints of c01_case: "hi" written, cut after three bytes, read *)
Example c56_case : exists w', chat toy c01_world w' /\ w_sent_a w' = [x68; x69] /\ w_got_b w' = [x68; x69] /\ w_ab w' = [].
Proof.
  destruct c01_case as (_ & _ & _ & Sh).
  assert (G : (let '(r, (a', k)) := wwrite toy [x68; x69] (c43_c, fresh) in
    match r with
    | Ok _ =>
      let p1 := firstn 3 (sk_sent k) in let p2 := skipn 3 (sk_sent k) in
      match wread toy (c17_s, mkSock (map Ok [p1; p2]) [] []) with
      | (Ok d, (b', k')) => beqb d [x68; x69] && is_nil (sk_recv k') && negb (is_nil p1) && negb (is_nil p2)
      | _ => false
      end
    | Err _ => false
    end) = true) by (vm_compute; reflexivity).
  destruct (wwrite toy [x68; x69] (c43_c, fresh)) as [[[]|e] [a' k]] eqn:W; [|discriminate G]. cbv zeta in G.
  destruct (wread toy (c17_s, mkSock (map Ok [firstn 3 (sk_sent k); skipn 3 (sk_sent k)]) [] [])) as [[d|e] [b' k']] eqn:R; [|discriminate G].
  apply andb_prop in G as [G G4]. apply andb_prop in G as [G G3]. apply andb_prop in G as [G1 G2].
  apply beqb_eq in G1. subst d.
  eexists. split; [eapply chat_more; [eapply chat_more; [apply chat_none|]|]|].
  - apply (ch_write toy c01_world [x68; x69] a' k Sh W).
  - apply (ch_read toy _ [firstn 3 (sk_sent k); skipn 3 (sk_sent k)] [] (Ok [x68; x69]) b' k'); [| | exact R].
    + cbn [w_ab c01_world app concat]. rewrite !app_nil_r, firstn_skipn. reflexivity.
    + intros p [<-|[<-|[]]] Z; [rewrite Z in G3 | rewrite Z in G4]; discriminate.
  - cbn [w_sent_a w_got_b w_ab c01_world app read_of]. split; [reflexivity|]. split; [reflexivity|].
    destruct (sk_recv k'); [reflexivity | discriminate G2].
Qed.
