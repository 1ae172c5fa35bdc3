(* C56 after an honest handshake *)
From Verif Require Import Base Iana Crypto Config Conn S_Hist S_Conn S_Deliver S_Honest Wrapper S_Net S_Chat P_Honest10 P_Net3 P_Chat.

Lemma swap_swap w : swap (swap w) = w. Proof. destruct w; reflexivity. Qed.
Lemma chat_swap C w w' : chat C w w' -> chat C (swap w) (swap w').
Proof.
  induction 1 as [w | w w1 w2 T IH M]; [constructor|]. eapply chat_more; [exact IH|]. apply ch_swap. rewrite swap_swap. exact M.
Qed.
Lemma linked_swap w : linked w -> linked (swap w).
Proof. intros (A & B & E1 & E2 & E3 & E4 & E5 & E6). repeat (split; [assumption|]). assumption. Qed.
Lemma wrapped_chat C gc gs c s ds1 ds2 ds3 c1 s1 kc ks w' : honest_crypto C -> compatible C gc gs c s ->
  wide_fragments gc -> first_share gc gs -> no_ccm gc gs ->
  cut (flight1 C c) ds1 -> cut (flight2 C c s) ds2 -> cut (flight3 C c s) ds3 ->
  snd (do_handshake C (c, mkSock (map Ok ds2) [] [])) = (c1, kc) ->
  snd (do_handshake C (s, mkSock (map Ok (ds1 ++ ds3)) [] [])) = (s1, ks) ->
  chat C (mkWorld c1 s1 [] [] [] [] [] []) w' ->
  prefix (w_got_b w') (w_sent_a w') /\ prefix (w_got_a w') (w_sent_b w') /\
  (forall ds rest r s' k, w_ab w' = concat ds ++ rest -> (forall p, In p ds -> p <> []) ->
   wread C (w_b w', mkSock (map Ok ds) [] []) = (r, (s', k)) ->
   (exists d, r = Ok d /\ d <> []) \/
   (r = Err XFuel /\ sk_recv k = [] /\ (rest = [] -> w_got_b w' = w_sent_a w')) \/
   (exists e, r = Err e /\ worn s')) /\
  (forall ds rest r c' k, w_ba w' = concat ds ++ rest -> (forall p, In p ds -> p <> []) ->
   wread C (w_a w', mkSock (map Ok ds) [] []) = (r, (c', k)) ->
   (exists d, r = Ok d /\ d <> []) \/
   (r = Err XFuel /\ sk_recv k = [] /\ (rest = [] -> w_got_a w' = w_sent_b w')) \/
   (exists e, r = Err e /\ worn c')).
Proof.
  intros HC Cp Mc Sh Nc D1 D2 D3 E1 E2 T.
  destruct (honest_wrapped C gc gs c s ds1 ds2 ds3 HC Cp Mc Sh Nc D1 D2 D3) as [W1 W2].
  rewrite W1 in E1. rewrite W2 in E2. cbn [snd] in E1, E2. injection E1; intros _ <-. injection E2; intros _ <-.
  destruct (honest_handshake C gc gs c s HC Cp Mc Sh Nc) as (_ & _ & _ & _ & L & _).
  destruct (chat_prefix C (hc_correct _ HC) _ _ L T) as (P1 & P2 & _).
  split; [exact P1|]. split; [exact P2|]. split.
  - intros ds rest r s' k. exact (chat_read C (hc_correct _ HC) _ w' ds rest r s' k L T).
  - intros ds rest r c' k. exact (chat_read C (hc_correct _ HC) _ (swap w') ds rest r c' k (linked_swap _ L) (chat_swap _ _ _ T)).
Qed.
