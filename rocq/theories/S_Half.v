(* The two endpoints of S_Deliver, each of which may also close its sending end
   once, and writes nothing afterwards. *)
From Verif Require Import Base Iana Crypto Config Cipher Conn S_Hist S_Conn S_Send S_Deliver.

(* the world, and whether a and b have closed *)
Record ending := mkEnding { e_w : world; e_a : bool; e_b : bool }.
Definition eswap (e : ending) : ending := mkEnding (swap (e_w e)) (e_b e) (e_a e).

Inductive ends_moves (C : crypto) : ending -> ending -> Prop :=
(* a.send_data(d) returned, a had not closed *)
| em_send w x d : short (w_a w) d -> fst (step C (OSend d) (w_a w)) = Ok [] ->
    ends_moves C (mkEnding w false x)
      (mkEnding (mkWorld (after C (OSend d) (w_a w)) (w_b w) (w_ab w) (w_ba w)
                   (w_sent_a w ++ d) (w_sent_b w) (w_got_a w) (w_got_b w)) false x)
(* a.close_sending_end() returned, for the first time *)
| em_close w x : fst (step C OCloseS (w_a w)) = Ok [] ->
    ends_moves C (mkEnding w false x)
      (mkEnding (mkWorld (after C OCloseS (w_a w)) (w_b w) (w_ab w) (w_ba w)
                   (w_sent_a w) (w_sent_b w) (w_got_a w) (w_got_b w)) true x)
(* network.write(a.data_to_send()) *)
| em_flush w y x :
    ends_moves C (mkEnding w y x)
      (mkEnding (mkWorld (after C OFlush (w_a w)) (w_b w) (w_ab w ++ returned C OFlush (w_a w)) (w_ba w)
                   (w_sent_a w) (w_sent_b w) (w_got_a w) (w_got_b w)) y x)
(* b.receive_data(network.read()), raising or not *)
| em_deliver w y x p rest : w_ab w = p ++ rest -> p <> [] ->
    ends_moves C (mkEnding w y x)
      (mkEnding (mkWorld (w_a w) (after C (ORecv p) (w_b w)) rest (w_ba w)
                   (w_sent_a w) (w_sent_b w) (w_got_a w) (w_got_b w)) y x)
(* b.data_to_read() *)
| em_read w y x :
    ends_moves C (mkEnding w y x)
      (mkEnding (mkWorld (w_a w) (after C ORead (w_b w)) (w_ab w) (w_ba w)
                   (w_sent_a w) (w_sent_b w) (w_got_a w) (w_got_b w ++ returned C ORead (w_b w))) y x)
| em_swap e e' : ends_moves C (eswap e) e' -> ends_moves C e (eswap e').

Inductive ending_traffic (C : crypto) : ending -> ending -> Prop :=
| et_none e : ending_traffic C e e
| et_more e e1 e2 : ending_traffic C e e1 -> ends_moves C e1 e2 -> ending_traffic C e e2.

(* two connected endpoints *)
Definition fresh_pair (w : world) : Prop := linked w /\ c_state (w_a w) = Connected /\ c_state (w_b w) = Connected.
Definition opened (w : world) : ending := mkEnding w false false.
(* nothing of what a flushed or is to flush is still on its way *)
Definition arrived (w : world) : Prop := w_ab w = [] /\ c_out (w_a w) = [].
