(* C47 *)
From Verif Require Import Base Iana Crypto Config Conn S_Hist S_Conn S_Deliver S_Honest Wrapper S_Net P_Net3 Toy P_Toy P_HonestToy T_Honest.

(* Whatever the network does with the bytes short of losing them, and in
   whatever order the endpoints make their turns: no turn raises, as long as
   one of the two has not left do_handshake one of them can go on, after at
   most as many turns as bytes were sent both have left, and they have left in
   the state of the exchange of whole flights (C27: connected, with matching
   keys), with nothing under way. *)
Theorem c47_schedules : forall C gc gs c s n w, honest_crypto C -> compatible C gc gs c s ->
  wide_fragments gc -> first_share gc gs -> no_ccm gc gs ->
  net_run C n (net_start C c s) w ->
  (n <= length (flight1 C c) + length (flight2 C c s) + length (flight3 C c s))%nat /\
  (forall r w', net_step C w r w' -> r = Ok tt) /\
  (net_done w \/ exists w', net_step C w (Ok tt) w') /\
  (net_done w -> w = mkNet (run C (client_ops C c s) c) (run C (server_ops C c s) s) [] []).
Proof. exact honest_schedules. Qed.
Print Assumptions c47_schedules.

(* hence every schedule can be completed *)
Theorem c47_finishes : forall C gc gs c s n w, honest_crypto C -> compatible C gc gs c s ->
  wide_fragments gc -> first_share gc gs -> no_ccm gc gs ->
  net_run C n (net_start C c s) w -> exists m w', net_run C m w w' /\ net_done w'.
Proof. exact honest_finishes. Qed.
Print Assumptions c47_finishes.

(* the same seen from the call of do_handshake of either side *)
Theorem c47_wrapped : forall C gc gs c s ds1 ds2 ds3, honest_crypto C -> compatible C gc gs c s ->
  wide_fragments gc -> first_share gc gs -> no_ccm gc gs ->
  cut (flight1 C c) ds1 -> cut (flight2 C c s) ds2 -> cut (flight3 C c s) ds3 ->
  do_handshake C (c, mkSock (map Ok ds2) [] []) =
    (Ok tt, (run C (client_ops C c s) c, mkSock [] [] (flight1 C c ++ flight3 C c s))) /\
  do_handshake C (s, mkSock (map Ok (ds1 ++ ds3)) [] []) =
    (Ok tt, (run C (server_ops C c s) s, mkSock [] [] (flight2 C c s))).
Proof. exact honest_wrapped. Qed.
Print Assumptions c47_wrapped.

(* the hypotheses are those of c27_case; a schedule of the toy endpoints: the
   server takes the first byte of the hello *)
Example c47_case : exists w, net_run toy 1 (net_start toy (toy_c c27_gc) (toy_s c27_gs)) w /\
  length (n_up w) = (length (flight1 toy (toy_c c27_gc)) - 1)%nat.
Proof.
  assert (E : exists b rest, flight1 toy (toy_c c27_gc) = b :: rest) by (vm_compute; eexists _, _; reflexivity).
  assert (P : is_post_handshake (run toy [OInit] (toy_s c27_gs)) = false) by (vm_compute; reflexivity).
  assert (M : 1 <= max_frag (run toy [OInit] (toy_s c27_gs))) by (vm_compute; discriminate).
  assert (G : (match fst (turn toy [match flight1 toy (toy_c c27_gc) with b :: _ => b | [] => x00 end] (run toy [OInit] (toy_s c27_gs), fresh)) with Ok tt => true | Err _ => false end) = true) by (vm_compute; reflexivity).
  destruct E as (b & rest & E). unfold net_start. rewrite E in G |- *.
  destruct (turn toy [b] (run toy [OInit] (toy_s c27_gs), fresh)) as [[[]|e] [s' k]] eqn:T; [|discriminate].
  eexists. split; [eapply net_trans; [apply net_refl|]; apply (server_turn toy _ _ [b] rest [] (Ok tt) s' k P); [discriminate | exact M | exact T]|].
  cbn [n_up length]. lia.
Qed.
