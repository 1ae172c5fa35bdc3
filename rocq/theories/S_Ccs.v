(* change_cipher_spec records (RFC 8446, section 5 and appendix D.4). *)
From Verif Require Import Base Iana.
Local Open Scope N_scope.

(* a record: type, version, length of the fragment, fragment *)
Definition framed (ct : byte) (v : byte * byte) (f : bytes) : bytes :=
  [ct; fst v; snd v; Nb (blen f / 256); Nb (blen f mod 256)] ++ f.
Definition a_record (r : bytes) : Prop := exists ct v f, blen f < 65536 /\ r = framed ct v f.
(* the single byte 1 in a record of type 20, whatever its version *)
Definition a_ccs (r : bytes) : Prop := exists v, r = framed x14 v [x01].

(* [sprinkled x y]: [y] is [x] with such records put in, anywhere between two
   records *)
Inductive sprinkled : bytes -> bytes -> Prop :=
| sprinkled_rest x : sprinkled x x
| sprinkled_ccs u x y : a_ccs u -> sprinkled x y -> sprinkled x (u ++ y)
| sprinkled_record r x y : a_record r -> sprinkled x y -> sprinkled (r ++ x) (r ++ y).
