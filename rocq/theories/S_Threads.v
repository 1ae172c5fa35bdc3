(* Executions of several threads that share the OCSP cache. *)
From Verif Require Import Base OcspCache OcspThreads.

(* the clock advances, a thread begins a call, a thread performs its next
   operation (the network being [H] for it) *)
Inductive event := ETick (n : N) | EBegin (i : nat) (c : tcall) | EStep (i : nat) (H : http).
(* what happened, the last first: thread [i] began [c], a call that is [c] ended
   at [now] with [r] *)
Inductive happened := HBegan (i : nat) (c : tcall) | HEnded (i : nat) (c : tcall) (H : http) (now : N) (r : result).
Record threads := mkT { t_now : N; t_k : kstate; t_pcs : list (tcall * pc); t_past : list happened }.

Fixpoint put {A} (i : nat) (x : A) (l : list A) : list A :=
  match l, i with
  | [], _ => []
  | _ :: l', O => x :: l'
  | y :: l', S i' => y :: put i' x l'
  end.
(* an event that is not possible (no such thread, a thread that is busy) changes
   nothing *)
Definition tevent (e : event) (w : threads) : threads :=
  match e with
  | ETick n => mkT (t_now w + n) (t_k w) (t_pcs w) (t_past w)
  | EBegin i c =>
    match nth_error (t_pcs w) i with
    | Some (_, PIdle) => mkT (t_now w) (t_k w) (put i (c, begin_call c) (t_pcs w)) (HBegan i c :: t_past w)
    | _ => w
    end
  | EStep i H =>
    match nth_error (t_pcs w) i with
    | Some (c, p) =>
      match tstep H (t_now w) (t_k w) p with
      | (k, Goes p') => mkT (t_now w) k (put i (c, p') (t_pcs w)) (t_past w)
      | (k, Ends r) => mkT (t_now w) k (put i (c, PIdle) (t_pcs w)) (HEnded i c H (t_now w) r :: t_past w)
      end
    | None => w
    end
  end.
Fixpoint trun (l : list event) (w : threads) : threads :=
  match l with [] => w | e :: l' => trun l' (tevent e w) end.
(* [n] idle threads and an empty cache *)
Definition t_start (n : nat) (now : N) : threads := mkT now k_empty (repeat (TUncache [], PIdle) n) [].

(* a thread running alone until its call ends *)
Fixpoint talone (fuel : nat) (H : http) (now : N) (k : kstate) (p : pc) : option (result * kstate) :=
  match fuel with
  | O => None
  | S fuel' => match tstep H now k p with
               | (k', Ends r) => Some (r, k')
               | (k', Goes p') => talone fuel' H now k' p'
               end
  end.
