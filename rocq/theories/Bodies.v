(* The two extension classes that cannot be built: their methods as plain
   functions.  serialize_body, which these classes do not define, is what the
   messages call; `serialize` is defined where it would be (Ext.v). *)
From Verif Require Import Base Serial Crypto Ext.

Fixpoint pairs_of (b : bytes) : list (byte * byte) :=
  match b with
  | x :: y :: r => (x, y) :: pairs_of r
  | _ => []
  end.
Definition flat (l : list (byte * byte)) : bytes := concat (map (fun p => [fst p; snd p]) l).

(* use_srtp.py:36-43, what cls(...) is called with *)
Definition srtp_parse (s : stream) : res ((list (byte * byte) * bytes) * stream) :=
  let* (b, s1) := read_var 2 s in
  if negb (blen b mod 2 =? 0) then Err XValue          (* zip(strict=True) *)
  else let* (m, s2) := read_var 1 s1 in Ok ((pairs_of b, m), s2).
(* use_srtp.py:45-51; the profiles are pairs of bytes, as they are read *)
Definition srtp_serialize (profiles : list (byte * byte)) (mki : bytes) : res bytes :=
  let* l := to_bytes 2 (blen mki * 2) in
  let* k := to_bytes 1 (blen mki) in
  Ok (l ++ flat profiles ++ k ++ mki).

(* certificate_authorities.py:30-33 *)
Definition authorities_parse (s : stream) : res (list bytes * stream) := read_listvar 2 2 s.
(* certificate_authorities.py:35-46 *)
Definition authorities_serialize (l : list bytes) : res bytes :=
  let* a := join_map (put_var 2) l in put_var 2 a.
