(* C84: what class statements declare *)
From Verif Require Import Base Sig Suites.

(* the last of them for which [f] holds *)
Fixpoint last_of (f : klass -> bool) (ks : list klass) : option klass :=
  match ks with
  | [] => None
  | k :: ks' => match last_of f ks' with Some j => Some j | None => if f k then Some k else None end
  end.
Definition is_some (o : option N) (n : N) : bool := match o with Some m => n =? m | None => false end.
Definition given (o : option N) : bool := match o with Some _ => true | None => false end.

(* which statements put something under a key: those of direct subclasses, up to
   the first attribute that is missing *)
Definition puts_all (i : N) (k : klass) : bool := k_direct k && given (k_pubkey k) && is_some (k_iana k) i.
Definition puts_sign (s : N) (k : klass) : bool := k_direct k && given (k_pubkey k) && given (k_iana k) && is_some (k_sign k) s.
Definition puts_pub (o : N) (k : klass) : bool := k_direct k && is_some (k_pubkey k) o.
Definition puts_inner (o i : N) (k : klass) : bool := puts_pub o k && is_some (k_iana k) i.
(* the identifiers under a public key algorithm, in the order of their first
   declaration *)
Fixpoint firsts (seen : list N) (l : list N) : list N :=
  match l with [] => [] | i :: l' => if memN i seen then firsts seen l' else i :: firsts (i :: seen) l' end.
Definition ids_of (o : N) (ks : list klass) : list N :=
  flat_map (fun k => if puts_pub o k then match k_iana k with Some i => [i] | None => [] end else []) ks.
