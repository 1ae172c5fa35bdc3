(* What the context manager of the wrapper promises. *)
From Verif Require Import Base Iana Crypto Config Conn S_Hist.

(* the calls that a handshake makes on its connection when the socket returns
   the strings [ds], one after the other; the empty one is the end of the stream *)
Definition calls (d : bytes) : list op := match d with [] => [OCloseR] | _ => [ORecv d; OFlush] end.
Definition handshake_calls (s : side) (ds : list bytes) : list op :=
  OInit :: (match s with Client => [OFlush] | Server => [] end) ++ flat_map calls ds.
