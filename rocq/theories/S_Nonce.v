(* RFC 8446 5.3, 5.5: what the nonces of one traffic key must satisfy. *)
From Verif Require Import Base Iana Crypto Config Cipher Conn S_Send.

(* the sealing operations made since the connection exists under the [e]-th
   traffic key it installed for writing, latest first *)
Definition under (e : N) (log : list sealing) : list sealing := filter (fun s => se_epoch s =? e) log.

(* connection limits, RFC 8446 5.5 and ciphers.py:308-366 *)
Definition limit_table : list (N * N) :=
  [(0x1301, 11863283); (0x1302, 11863283); (0x1303, 2 ^ 64)].

(* all by one key, no nonce twice, at most the limit of the suite *)
Definition one_key (l : list sealing) : Prop :=
  NoDup (map se_nonce l) /\
  (forall s t, In s l -> In t l -> se_key s = se_key t /\ se_suite s = se_suite t) /\
  (forall s, In s l -> exists lim, In (se_suite s, lim) limit_table /\ N.of_nat (length l) <= lim).

(* the records of a stretch of output against the sealing operations made
   meanwhile, in order: a record is in the clear or is the result of the next
   sealing; a sealing whose record was abandoned by an error gives none *)
Inductive carried (C : crypto) : list bytes -> list sealing -> Prop :=
| carried_nil : carried C [] []
| carried_clear ty f rs ss :
    carried C rs ss -> carried C (record ty f :: rs) ss
| carried_sealed s rs ss :
    carried C rs ss -> carried C (sealed_record C (se_suite s) s :: rs) (s :: ss)
| carried_lost s rs ss : carried C rs ss -> carried C rs (s :: ss).
