(* Executions of threads that receive alerts with one registry. *)
From Verif Require Import Base Serial Iana Ext Msg Conn AlertReg.

(* a thread parses an alert, later the state of its connection processes it *)
Inductive aevent := AParse (i : nat) (s : stream) | AProcess (i : nat).
(* what became of an alert *)
Inductive ahap := AHap (i : nat) (s : stream) (v : verdict).
Record aworld := mkAW { a_reg : areg; a_held : list (nat * (stream * alert)); a_past : list ahap }.
Fixpoint a_find (i : nat) (l : list (nat * (stream * alert))) : option (stream * alert) :=
  match l with [] => None | (j, x) :: l' => if Nat.eqb i j then Some x else a_find i l' end.
Definition a_drop (i : nat) (l : list (nat * (stream * alert))) := filter (fun x => negb (Nat.eqb i (fst x))) l.
Definition ado (e : aevent) (w : aworld) : aworld :=
  match e with
  | AParse i s =>
    match a_find i (a_held w) with
    | Some _ => w                                    (* it has one to process *)
    | None =>
      match parse_alert_reg s (a_reg w) with
      | (Err x, g) => mkAW g (a_held w) (AHap i s (VRaised x) :: a_past w)
      | (Ok (a, _), g) => mkAW g ((i, (s, a)) :: a_held w) (a_past w)
      end
    end
  | AProcess i =>
    match a_find i (a_held w) with
    | None => w
    | Some (s, a) => mkAW (a_reg w) (a_drop i (a_held w)) (AHap i s (process_alert_reg a (a_reg w)) :: a_past w)
    end
  end.
Fixpoint arun (l : list aevent) (w : aworld) : aworld :=
  match l with [] => w | e :: l' => arun l' (ado e w) end.
(* a process that has just imported the package *)
Definition a_start : aworld := mkAW a_import [] [].

(* the registry-free reading of the connection model *)
Definition verdict_of (s : stream) (c : conn) (v : verdict) : Prop :=
  match parse_alert s with
  | Err e => v = VRaised e
  | Ok (k, _) => match base_process k c with
                 | (Err e, c') => v = VRaised e /\ c' = c
                 | (Ok _, c') => (v = VClosed /\ c' = cset_state (Closed true true) c) \/ (v = VIgnored /\ c' = c)
                 end
  end.
