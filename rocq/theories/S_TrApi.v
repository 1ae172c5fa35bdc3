(* C86: handshakes as sequences of messages *)
From Verif Require Import Base Iana Crypto Transcript TrApi.

(* RFC 8446 section 2, figure 1: who sends what; numbers from section B.3 *)
Definition flow (w : list (side * N)) : Prop := exists cr eoed cert cv : bool,
  w = [(Client, 1); (Server, 2); (Server, 8)] ++ (if cr then [(Server, 13)] else []) ++ [(Server, 11); (Server, 15); (Server, 20)] ++
      (if eoed then [(Client, 5)] else []) ++ (if cert then [(Client, 11)] else []) ++ (if cv then [(Client, 15)] else []) ++ [(Client, 20)].
Definition begins (ms w : list (side * N)) : Prop := exists rest, w = ms ++ rest.

(* messages: their bytes, who sends them, their type *)
Definition tmsg : Type := bytes * (side * N).
Definition upd (m : tmsg) : tcall := TUpdate (fst m) (fst (snd m)) (snd (snd m)).
Definition said (ms : list tmsg) : bytes := concat (map fst ms).
Definition order (ms : list tmsg) : list (side * N) := map snd ms.

(* hexadecimal, without a table *)
Definition nibble (d : N) : byte := nth (N.to_nat d) [x30; x31; x32; x33; x34; x35; x36; x37; x38; x39; x61; x62; x63; x64; x65; x66] x00.
Fixpoint in_hex (b : bytes) : bytes :=
  match b with [] => [] | x :: b' => nibble (bN x / 16) :: nibble (bN x mod 16) :: in_hex b' end.

(* what each method may give; clone() never works *)
Definition may (o : tcall) (r : res tret) : Prop :=
  match o with
  | TUpdate _ _ _ => r = Ok RNone \/ r = Err (XAlert UNEXPECTED_MESSAGE)
  | TPost _ => r = Ok RNone \/ r = Err XValue
  | TDance _ _ => r = Ok RNone
  | TDigest | THex => exists b, r = Ok (RBytes b)
  | TClone => r = Err XAttr
  end.
Definition fine (r : res tret) : Prop := r = Ok RNone.
