(* Finite field Diffie-Hellman, RFC 7919 and RFC 8446 7.4.1. *)
From Verif Require Import Base Iana.

(* the groups of RFC 7919: size in bits, and the X of their definition *)
Definition ffdhe_groups : list (N * (N * N)) :=
  [(ffdhe2048, (2048, 560316)); (ffdhe3072, (3072, 2625351)); (ffdhe4096, (4096, 5736041));
   (ffdhe6144, (6144, 15705020)); (ffdhe8192, (8192, 10965728))].

(* 1 + 1/1! + ... + 1/k! = n / d with d = k! *)
Fixpoint e_sum (k : nat) : N * N :=
  match k with
  | O => (1, 1)
  | S k' => let (n, d) := e_sum k' in (n * N.of_nat k + 1, d * N.of_nat k)
  end.
(* E = floor (2^m * e), as n / k! < e < (n + 1) / k! *)
Definition floor_e (m E : N) : Prop :=
  exists k n d, e_sum k = (n, d) /\ E * d <= n * 2 ^ m /\ (n + 1) * 2 ^ m < (E + 1) * d.
(* RFC 7919 appendix A: p = 2^b - 2^{b-64} + {[2^{b-130} e] + X} * 2^64 - 1;
   of the digits of e, the first [m] are checked *)
Definition rfc7919_prime (m b X p : N) : Prop :=
  exists E, floor_e (N.min m (b - 130)) (E / 2 ^ (b - 130 - m)) /\ p + 2 ^ (b - 64) + 1 = 2 ^ b + (E + X) * 2 ^ 64.

(* the secret of the private exponents x and y: 2^(x*y) mod p *)
Definition dh_shared (p x y : N) : N := 2 ^ (x * y) mod p.

(* the number of bytes without the leading zeros *)
Definition significant (b : bytes) (n : N) : Prop :=
  exists z s, b = repeat x00 z ++ s /\ blen s = n /\ match s with x :: _ => x <> x00 | [] => True end.
