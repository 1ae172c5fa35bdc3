(* C89: for whom a certificate has to be *)
From Verif Require Import Base Crypto Config Verify.

(* what the application gave names this subject *)
Definition named (is_ip : str -> bool) (host : str) (s : subject) : Prop :=
  host <> [] /\ (is_ip host = true /\ s = SIp host \/ is_ip host = false /\ s = SDns host /\ forall b, In b host -> bN b < 128).
(* a name that is no address and has a character outside of ASCII *)
Definition international (is_ip : str -> bool) (host : str) : Prop := is_ip host = false /\ exists b, In b host /\ 128 <= bN b.
