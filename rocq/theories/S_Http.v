(* UTF-8, words, lines and HTTP messages, as their standards define them. *)
From Verif Require Import Base.
Local Open Scope N_scope.

(* RFC 3629, section 3: the bits of the number are spread over the octets, the
   shortest form is the only one, surrogates have none *)
Definition scalar (n : N) : Prop := n <= 0x10FFFF /\ ~ (0xD800 <= n <= 0xDFFF).
Inductive spelt : N -> bytes -> Prop :=
| spelt1 n : n <= 0x7F -> spelt n [Nb n]
| spelt2 n a b : 0x80 <= n -> a < 32 -> b < 64 -> n = a * 2 ^ 6 + b ->
    spelt n [Nb (0xC0 + a); Nb (0x80 + b)]
| spelt3 n a b c : 0x800 <= n -> a < 16 -> b < 64 -> c < 64 -> n = a * 2 ^ 12 + b * 2 ^ 6 + c ->
    spelt n [Nb (0xE0 + a); Nb (0x80 + b); Nb (0x80 + c)]
| spelt4 n a b c d : 0x10000 <= n -> a < 8 -> b < 64 -> c < 64 -> d < 64 -> n = a * 2 ^ 18 + b * 2 ^ 12 + c * 2 ^ 6 + d ->
    spelt n [Nb (0xF0 + a); Nb (0x80 + b); Nb (0x80 + c); Nb (0x80 + d)].
Inductive utf8 : list N -> bytes -> Prop :=
| utf8_nil : utf8 [] []
| utf8_cons n s u b : scalar n -> spelt n u -> utf8 s b -> utf8 (n :: s) (u ++ b).

(* the line that starts a text *)
Definition first_line (s l : list N) : Prop :=
  (s = l \/ exists r, s = l ++ [13; 10] ++ r) /\ forall p q, s = p ++ [13; 10] ++ q -> (length l <= length p)%nat.

(* the characters of the property White_Space, and the four separators U+001C to U+001F *)
Definition white (c : N) : Prop :=
  In c [9; 10; 11; 12; 13; 28; 29; 30; 31; 32; 0x85; 0xA0; 0x1680; 0x2000; 0x2001; 0x2002; 0x2003; 0x2004; 0x2005; 0x2006;
        0x2007; 0x2008; 0x2009; 0x200A; 0x2028; 0x2029; 0x202F; 0x205F; 0x3000].
Definition black (c : N) : Prop := ~ white c.
Inductive words : list N -> list (list N) -> Prop :=
| words_none s : Forall white s -> words s []
| words_more s w r l : Forall white s -> w <> [] -> Forall black w ->
    (r = [] \/ exists c r', r = c :: r' /\ white c) -> words r l -> words (s ++ w ++ r) (w :: l).

(* what the server makes of a request *)
Inductive judged : bytes -> N -> Prop :=
| judged_garbage q : (forall s, ~ utf8 s q) -> judged q 400
| judged_shape q s l ws : utf8 s q -> first_line s l -> words l ws -> length ws <> 3%nat -> judged q 400
| judged_method q s l m p v : utf8 s q -> first_line s l -> words l [m; p; v] -> m <> [71; 69; 84] -> judged q 405
| judged_path q s l p v : utf8 s q -> first_line s l -> words l [[71; 69; 84]; p; v] -> p <> [47] -> judged q 404
| judged_fine q s l v : utf8 s q -> first_line s l -> words l [[71; 69; 84]; [47]; v] -> judged q 200.

(* RFC 9112: a header section with a length, which is that of the octets
   between the empty line and the end of the message *)
Definition numeral (n : N) (d : list N) : Prop :=
  d <> [] /\ Forall (fun c => 48 <= c <= 57) d /\ (forall c r, d = c :: r -> c = 48 -> r = []) /\
  n = fold_left (fun v c => 10 * v + (c - 48)) d 0.
Definition content_length : list N := [67; 111; 110; 116; 101; 110; 116; 45; 76; 101; 110; 103; 116; 104; 58; 32].
Definition carries (message body : bytes) : Prop :=
  exists head n d, message = map Nb (head ++ [13; 10] ++ content_length ++ d ++ [13; 10; 13; 10]) ++ body /\
    Forall (fun c => c < 128) head /\ numeral n d /\ n = blen body /\
    (forall p q, head ++ [13; 10] ++ content_length ++ d <> p ++ [13; 10; 13; 10] ++ q).
