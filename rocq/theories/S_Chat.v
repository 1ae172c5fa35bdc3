(* C56: two wrapped sockets, joined by a network that loses nothing, that talk
   to each other after their handshake. *)
From Verif Require Import Base Iana Crypto Config Cipher Conn S_Hist S_Conn S_Nonce S_Alert Wrapper S_Net S_Deliver.

(* what the calls of recv still to come would return *)
Fixpoint pending (l : list (res bytes)) : bytes :=
  match l with Ok p :: l' => p ++ pending l' | _ => [] end.
Definition read_of (r : res bytes) : bytes := match r with Ok d => d | Err _ => [] end.

Inductive chat_step (C : crypto) : world -> world -> Prop :=
(* a.write(d) returned *)
| ch_write w d a' k : short (w_a w) d -> wwrite C d (w_a w, fresh) = (Ok tt, (a', k)) ->
    chat_step C w (mkWorld a' (w_b w) (w_ab w ++ sk_sent k) (w_ba w)
                     (w_sent_a w ++ d) (w_sent_b w) (w_got_a w) (w_got_b w))
(* b.read(), whose calls of recv return the first bytes under way cut in any
   pieces; it returned, raised, or has used all the pieces and waits for more.
   (A call that waits has nothing to return: it behaves as one made anew.) *)
| ch_read w ds rest r b' k : w_ab w = concat ds ++ rest -> (forall p, In p ds -> p <> []) ->
    wread C (w_b w, mkSock (map Ok ds) [] []) = (r, (b', k)) ->
    chat_step C w (mkWorld (w_a w) b' (pending (sk_recv k) ++ rest) (w_ba w ++ sk_sent k)
                     (w_sent_a w) (w_sent_b w) (w_got_a w) (w_got_b w ++ read_of r))
| ch_swap w w' : chat_step C (swap w) w' -> chat_step C w (swap w').
Inductive chat (C : crypto) : world -> world -> Prop :=
| chat_none w : chat C w w
| chat_more w w1 w2 : chat C w w1 -> chat_step C w1 w2 -> chat C w w2.

(* the key that c writes with has been used up, or is within 1024 records of the
   limit of its suite *)
Definition worn (c : conn) : Prop :=
  exists x q, c_cipher c = Some x /\ d_seq (cs_w x) = Some q /\
    (q_limit q <= q_next q \/ forall lim, In (cs_suite x, lim) limit_table -> lim <= q_next q + 1024).
