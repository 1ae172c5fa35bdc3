(* C50: what it means that two endpoints read what the other writes. *)
From Verif Require Import Base Cipher Conn.

(* what one endpoint writes the other reads with the same key and iv *)
Definition keys_meet (c s : conn) : Prop :=
  exists x y, c_cipher c = Some x /\ c_cipher s = Some y /\ cs_suite x = cs_suite y /\
    d_key (cs_w x) <> None /\ d_key (cs_w y) <> None /\
    d_key (cs_w x) = d_key (cs_r y) /\ d_iv (cs_w x) = d_iv (cs_r y) /\
    d_key (cs_w y) = d_key (cs_r x) /\ d_iv (cs_w y) = d_iv (cs_r x).
