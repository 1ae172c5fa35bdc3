(* A caller that heeds the exceptions of receive_data. *)
From Verif Require Import Base Crypto Config Conn S_Hist.

(* receive_data is not called again once it has raised *)
Fixpoint heeded (C : crypto) (ops : list op) (c : conn) : Prop :=
  match ops with
  | [] => True
  | o :: ops' =>
    (match o with
     | ORecv d => forall e, fst (receive_data C d c) = Err e -> forall d', ~ In (ORecv d') ops'
     | _ => True
     end) /\ heeded C ops' (after C o c)
  end.
(* none of the calls of receive_data raised *)
Fixpoint calm (C : crypto) (ops : list op) (c : conn) : Prop :=
  match ops with
  | [] => True
  | o :: ops' =>
    (match o with ORecv d => fst (receive_data C d c) = Ok tt | _ => True end) /\ calm C ops' (after C o c)
  end.
