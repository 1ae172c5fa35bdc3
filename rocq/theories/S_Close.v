(* RFC 8446 6.1: closing. *)
From Verif Require Import Base Iana Crypto Config Conn S_Hist S_Conn.

(* a received content that is a close_notify alert *)
Definition close_notify (x : state * N * bytes) : Prop :=
  let '(_, ct, d) := x in ct = CT_ALERT /\ exists level, d = [level; x00].
(* no receive_data call of the history meets a close_notify *)
Fixpoint no_close_notify (C : crypto) (ops : list op) (c : conn) : Prop :=
  match ops with
  | [] => True
  | o :: ops' =>
    (match o with
     | ORecv d => forall l, handles C (cset_in (c_in c ++ d) c) l -> ~ Exists close_notify l
     | _ => True
     end) /\ no_close_notify C ops' (after C o c)
  end.
