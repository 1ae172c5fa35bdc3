(* What a close_notify says about the data that came before it. *)
From Verif Require Import Base Crypto Config Conn S_Hist S_Integrity.

(* the call [o], made after [o1] and before [o2], ended what [a] had to say: it
   closed the sending end, or made the connection fail *)
Definition last_call (C : crypto) (ops : list op) (a : conn) (o1 : list op) (o : op) (o2 : list op) : Prop :=
  ops = o1 ++ o :: o2 /\ (o = OCloseS \/ c_state (run C (o1 ++ [o]) a) = Failed).
(* nothing is written after such a call *)
Definition last_words (C : crypto) (ops : list op) (a : conn) : Prop :=
  forall o1 o o2, last_call C ops a o1 o o2 -> written C o2 (run C (o1 ++ [o]) a) = [].
(* the peer's close_notify was received *)
Definition was_closed (s : state) : Prop := exists w, s = Closed true w.
