(* Executions of threads that parse extensions with one registry. *)
From Verif Require Import Base Serial Crypto Ext Registry.

Inductive revent := RBegin (i : nat) (h : hname) (s : stream) | RStep (i : nat).
(* what happened, the last first *)
Inductive rhap := RBegan (i : nat) (h : hname) (s : stream) | REnded (i : nat) (h : hname) (s : stream) (r : res (ext * stream)).
Record rworld := mkRW { r_reg : reg; r_pcs : list (hname * stream * rpc); r_past : list rhap }.
Fixpoint rput {A} (i : nat) (x : A) (l : list A) : list A :=
  match l, i with
  | [], _ => []
  | _ :: l', O => x :: l'
  | y :: l', S i' => y :: rput i' x l'
  end.
Definition rafter (i : nat) (h : hname) (s : stream) (g : reg) (o : routcome) (past : list rhap) (w : rworld) : rworld :=
  match o with
  | RGoes p => mkRW g (rput i (h, s, p) (r_pcs w)) past
  | REnds r => mkRW g (rput i (h, s, RIdle) (r_pcs w)) (REnded i h s r :: past)
  end.
Definition rdo (C : crypto) (e : revent) (w : rworld) : rworld :=
  match e with
  | RBegin i h s =>
    match nth_error (r_pcs w) i with
    | Some (_, RIdle) => rafter i h s (r_reg w) (rbegin h s) (RBegan i h s :: r_past w) w
    | _ => w
    end
  | RStep i =>
    match nth_error (r_pcs w) i with
    | Some (h, s, p) => let (g, o) := rstep C (r_reg w) p in rafter i h s g o (r_past w) w
    | None => w
    end
  end.
Fixpoint rrun (C : crypto) (l : list revent) (w : rworld) : rworld :=
  match l with [] => w | e :: l' => rrun C l' (rdo C e w) end.
(* [n] idle threads in a process that has just imported the package *)
Definition r_start (n : nat) : rworld := mkRW g_empty (repeat (NClientHello, stream_of [], RIdle) n) [].

(* one thread: a sequence of calls *)
Fixpoint parse_seq (C : crypto) (calls : list (hname * stream)) (g : reg) : list (res (ext * stream)) * reg :=
  match calls with
  | [] => ([], g)
  | (h, s) :: l => let (r, g1) := parse_reg C h s g in let (rs, g2) := parse_seq C l g1 in (r :: rs, g2)
  end.
(* the type of the extension on the stream *)
Definition of_type (s : stream) (ty : N) : Prop := exists s1, read_int 2 s = Ok (ty, s1).
