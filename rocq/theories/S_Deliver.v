(* Two endpoints joined by a network that neither loses nor reorders bytes but
   cuts the stream wherever it likes. *)
From Verif Require Import Base Iana Crypto Config Cipher Conn S_Hist S_Conn S_Send.

Record world := mkWorld {
  w_a : conn; w_b : conn;
  w_ab : bytes;      (* flushed by a, not yet given to b *)
  w_ba : bytes;
  w_sent_a : bytes;  (* everything given to a's send_data, in order *)
  w_sent_b : bytes;
  w_got_a : bytes;   (* everything returned by a's data_to_read, in order *)
  w_got_b : bytes }.
Definition swap (w : world) : world :=
  mkWorld (w_b w) (w_a w) (w_ba w) (w_ab w) (w_sent_b w) (w_sent_a w) (w_got_b w) (w_got_a w).

(* the payload fits in one record, without reaching the size at which the
   padding makes the record too long for its receiver (C04) *)
Definition short (c : conn) (d : bytes) : Prop := blen d < limit_of c.

Inductive moves (C : crypto) : world -> world -> Prop :=
(* a.send_data(d) returned *)
| mv_send w d : short (w_a w) d -> fst (step C (OSend d) (w_a w)) = Ok [] ->
    moves C w (mkWorld (after C (OSend d) (w_a w)) (w_b w) (w_ab w) (w_ba w)
                 (w_sent_a w ++ d) (w_sent_b w) (w_got_a w) (w_got_b w))
(* network.write(a.data_to_send()) *)
| mv_flush w :
    moves C w (mkWorld (after C OFlush (w_a w)) (w_b w) (w_ab w ++ returned C OFlush (w_a w)) (w_ba w)
                 (w_sent_a w) (w_sent_b w) (w_got_a w) (w_got_b w))
(* b.receive_data(network.read()), raising or not *)
| mv_deliver w p rest : w_ab w = p ++ rest -> p <> [] ->
    moves C w (mkWorld (w_a w) (after C (ORecv p) (w_b w)) rest (w_ba w)
                 (w_sent_a w) (w_sent_b w) (w_got_a w) (w_got_b w))
(* b.data_to_read() *)
| mv_read w :
    moves C w (mkWorld (w_a w) (after C ORead (w_b w)) (w_ab w) (w_ba w)
                 (w_sent_a w) (w_sent_b w) (w_got_a w) (w_got_b w ++ returned C ORead (w_b w)))
| mv_swap w w' : moves C (swap w) w' -> moves C w (swap w').

Inductive traffic (C : crypto) : world -> world -> Prop :=
| tf_none w : traffic C w w
| tf_more w w1 w2 : traffic C w w1 -> moves C w1 w2 -> traffic C w w2.

(* b reads what a writes: same suite, key, iv and sequence number *)
Definition keyed (a b : conn) : Prop :=
  exists x y k, c_cipher a = Some x /\ c_cipher b = Some y /\ cs_suite x = cs_suite y /\
    d_key (cs_w x) = Some k /\ d_key (cs_r y) = Some k /\
    d_iv (cs_w x) = d_iv (cs_r y) /\ d_seq (cs_w x) = d_seq (cs_r y).
(* nothing pending, b accepts records as long as those of a *)
Definition quiet_link (a b : conn) : Prop :=
  keyed a b /\ valid_mfl (max_frag a) /\ max_frag a <= max_frag b + 256 /\
  c_out a = [] /\ established (c_state b) = true /\ c_in b = [] /\ c_inhs b = [] /\ c_app b = [].
Definition linked (w : world) : Prop :=
  quiet_link (w_a w) (w_b w) /\ quiet_link (w_b w) (w_a w) /\
  w_ab w = [] /\ w_ba w = [] /\ w_sent_a w = [] /\ w_sent_b w = [] /\ w_got_a w = [] /\ w_got_b w = [].

Definition prefix (p l : bytes) : Prop := exists r, l = p ++ r.
