(* How much of its key an endpoint has used: the number of records written
   under it, q_next, against the limit of RFC 8446 5.5, and against the point, 1024
   records earlier, where the code wants new keys (ciphers.py:18, 144-147). *)
From Verif Require Import Base Iana Crypto Config Cipher Conn S_Hist S_Conn S_Nonce S_Deliver S_Honest.

Definition used (P : N -> N -> Prop) (c : conn) : Prop :=
  exists x lim q, c_cipher c = Some x /\ In (cs_suite x, lim) limit_table /\
    d_seq (cs_w x) = Some q /\ P (q_next q) lim.
Definition fresh : conn -> Prop := used (fun n lim => n + 1024 < lim).
Definition tired : conn -> Prop := used (fun n lim => lim <= n + 1024 /\ n < lim).
Definition worn : conn -> Prop := used (fun n lim => lim <= n).

(* two endpoints built by the library *)
Definition built (C : crypto) (w : world) : Prop :=
  (exists g, reachable C g (w_a w)) /\ (exists g, reachable C g (w_b w)).
(* a client and a server at the end of their handshake (C27) *)
Definition honest_world (C : crypto) (c s : conn) : world :=
  mkWorld (run C (client_ops C c s) c) (run C (server_ops C c s) s) [] [] [] [] [] [].
