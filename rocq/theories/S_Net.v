(* C47: two wrapped sockets that talk to each other over a network that loses
   nothing, cuts the streams anywhere and delays as it likes. *)
From Verif Require Import Base Iana Crypto Config Conn S_Hist S_Conn Wrapper S_Honest.

(* the two connections, and the bytes under way in each direction *)
Record net := mkNet { n_client : conn; n_server : conn; n_up : bytes; n_down : bytes }.
(* a socket whose send takes all it is given *)
Definition fresh : sock := mkSock [] [] [].

(* Both endpoints run do_handshake (wrapper.py:15-27).  After its first lines
   the hello of the client is under way; from then on either endpoint may make
   a turn of its loop with whatever recv returns: some of the bytes under way,
   at most max_fragment_length. *)
Definition net_start (C : crypto) (c s : conn) : net :=
  mkNet (run C [OInit; OFlush] c) (run C [OInit] s) (flight1 C c) [].
Inductive net_step (C : crypto) : net -> res unit -> net -> Prop :=
| client_turn c s up p rest r c' k : is_post_handshake c = false -> p <> [] -> blen p <= max_frag c ->
    turn C p (c, fresh) = (r, (c', k)) ->
    net_step C (mkNet c s up (p ++ rest)) r (mkNet c' s (up ++ sk_sent k) rest)
| server_turn c s p rest down r s' k : is_post_handshake s = false -> p <> [] -> blen p <= max_frag s ->
    turn C p (s, fresh) = (r, (s', k)) ->
    net_step C (mkNet c s (p ++ rest) down) r (mkNet c s' rest (down ++ sk_sent k)).
(* [n] turns, none of which raised *)
Inductive net_run (C : crypto) : nat -> net -> net -> Prop :=
| net_refl w : net_run C 0 w w
| net_trans n w w1 w2 : net_run C n w w1 -> net_step C w1 (Ok tt) w2 -> net_run C (S n) w w2.
(* both have left do_handshake *)
Definition net_done (w : net) : Prop := is_post_handshake (n_client w) = true /\ is_post_handshake (n_server w) = true.
