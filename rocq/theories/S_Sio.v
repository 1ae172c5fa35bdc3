(* C82: what a user of a stream counts on *)
From Coq Require Import Sorted.
From Verif Require Import Base Serial Sio.

(* the position is inside the data and the limits, the innermost of which is
   the smallest *)
Definition orderly (s : stream) : Prop := s_pos s <= blen (s_data s) /\ Sorted N.le (s_pos s :: s_limits s).

Definition writes (m : method) : bool :=
  match m with MWrite _ | MWriteInt _ _ | MWriteVar _ _ | MWriteListInt _ _ _ | MWriteListVar _ _ _ => true | _ => false end.
(* [p] only reads; [p] catches no exception *)
Fixpoint reading (p : code) : bool :=
  match p with
  | CSkip => true | CCall m => negb (writes m) | CSeq a b => reading a && reading b
  | CLook a | CLimit _ a | CTry a => reading a
  end.
Fixpoint uncaught (p : code) : bool :=
  match p with
  | CSkip | CCall _ => true | CSeq a b => uncaught a && uncaught b
  | CLook a | CLimit _ a => uncaught a | CTry _ => false
  end.

(* [m] keeps the data and the limits, and does not go back *)
Definition calm {A} (m : SM A) : Prop := forall s r s1, orderly s -> m s = (r, s1) ->
  s_data s1 = s_data s /\ s_limits s1 = s_limits s /\ s_pos s <= s_pos s1 /\ orderly s1.

(* [m] answers what [p] answers, and leaves the stream that [p] gives *)
Definition agrees {A} (m : SM A) (p : stream -> res (A * stream)) : Prop :=
  forall s, orderly s -> match p s with Ok (x, s1) => m s = (Ok x, s1) | Err e => fst (m s) = Err e end.

(* [b] over what is at the position *)
Definition over (s : stream) (b : bytes) : stream :=
  mkStream (btake (s_pos s) (s_data s) ++ b ++ bdrop (s_pos s + blen b) (s_data s)) (s_pos s + blen b) (s_limits s).
(* [m] writes the bytes that [r] gives, or raises as it does *)
Definition puts (m : SM unit) (r : res bytes) : Prop :=
  forall s, s_pos s <= blen (s_data s) ->
  match r with Ok b => m s = (Ok tt, over s b) | Err e => fst (m s) = Err e end.

(* values written one after the other, and how they are read back *)
Inductive value := VInt (n : nat) (i : N) | VVar (n : nat) (b : bytes)
| VListInt (nlist nitem : nat) (l : list N) | VListVar (nlist nitem : nat) (l : list bytes).
(* no size of zero bytes *)
Definition value_sizes (v : value) : Prop :=
  match v with VInt n _ | VVar n _ => (n <> 0)%nat | VListInt a b _ | VListVar a b _ => (a <> 0)%nat /\ (b <> 0)%nat end.
Definition put (v : value) : SM unit :=
  match v with VInt n i => sio_write_int n i | VVar n b => sio_write_var n b
  | VListInt a b l => sio_write_listint a b l | VListVar a b l => sio_write_listvar a b l end.
(* the same kind of value, read *)
Definition take (v : value) : SM value :=
  match v with
  | VInt n _ => sbind (sio_int (N.of_nat n)) (fun i => sret (VInt n i))
  | VVar n _ => sbind (sio_var (N.of_nat n)) (fun b => sret (VVar n b))
  | VListInt a b _ => sbind (sio_listint (N.of_nat a) (N.of_nat b)) (fun l => sret (VListInt a b l))
  | VListVar a b _ => sbind (sio_listvar (N.of_nat a) (N.of_nat b)) (fun l => sret (VListVar a b l))
  end.
Fixpoint take_all (vs : list value) : SM (list value) :=
  match vs with
  | [] => sret []
  | v :: vs' => sbind (take v) (fun x => sbind (take_all vs') (fun l => sret (x :: l)))
  end.
