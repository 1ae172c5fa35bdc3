(* The life of a wrapped socket: the methods its user calls, one after the
   other, whatever each of them raised. *)
From Verif Require Import Base Iana Crypto Config Conn Wrapper.

Inductive wcall := CHandshake | CRead | CWrite (d : bytes) | CClose.
Definition call (C : crypto) (w : wcall) : W bytes :=
  match w with
  | CHandshake => do_handshake C ;;; wret []
  | CRead => wread C
  | CWrite d => wwrite C d ;;; wret []
  | CClose => wclose C ;;; wret []
  end.
Fixpoint session (C : crypto) (l : list wcall) (s : conn * sock) : conn * sock :=
  match l with [] => s | w :: l' => session C l' (snd (call C w s)) end.
(* all that read returned *)
Fixpoint reads (C : crypto) (l : list wcall) (s : conn * sock) : bytes :=
  match l with
  | [] => []
  | w :: l' =>
    (match w with CRead => match fst (call C w s) with Ok d => d | Err _ => [] end | _ => [] end)
    ++ reads C l' (snd (call C w s))
  end.
(* all that write was given while the connection accepted data *)
Fixpoint writes (C : crypto) (l : list wcall) (s : conn * sock) : bytes :=
  match l with
  | [] => []
  | w :: l' =>
    (match w with CWrite d => if can_send_app (c_state (fst s)) then d else [] | _ => [] end)
    ++ writes C l' (snd (call C w s))
  end.
(* the user does not read again once a call has raised while reading *)
Definition listens (w : wcall) : bool := match w with CHandshake | CRead => true | _ => false end.
Fixpoint prudent (C : crypto) (l : list wcall) (s : conn * sock) : Prop :=
  match l with
  | [] => True
  | w :: l' =>
    (listens w = true -> forall e, fst (call C w s) = Err e -> forall w', In w' l' -> listens w' = false) /\
    prudent C l' (snd (call C w s))
  end.
