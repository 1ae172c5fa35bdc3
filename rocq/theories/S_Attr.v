(* C81: the attributes as though there were one store.  The connection's
   attributes exist once; each state has besides attributes of its own. *)
From Verif Require Import Base Attr.
Local Open Scope string_scope.
Local Open Scope list_scope.
Local Open Scope N_scope.

Record flat := mkFlat {
  f_shared : String.string -> N; f_own : nat -> String.string -> option N;
  f_class : list kls; f_cur : nat; f_stack : list nat }.
Definition upd {A} (f : String.string -> A) (n : String.string) (v : A) : String.string -> A :=
  fun m => if String.eqb m n then v else f m.
Definition upd_own (f : nat -> String.string -> option N) (o : nat) (n : String.string) (v : N) : nat -> String.string -> option N :=
  fun p => if Nat.eqb p o then upd (f p) n (Some v) else f p.

Definition flat_conn_get (f : flat) (n : String.string) : result :=
  if mem n conn_names then RValue (f_shared f n) else if mem n conn_class_names then RConn n else RAttributeError.
Definition flat_get (f : flat) (o : nat) (n : String.string) : result :=
  match nth_error (f_class f) o with
  | None => RAttributeError
  | Some k =>
    if mem n conn_names then RValue (f_shared f n)
    else match f_own f o n with
         | Some v => RValue v
         | None => if class_has k n then RState k n else flat_conn_get f n
         end
  end.
Definition flat_set (f : flat) (o : nat) (n : String.string) (v : N) : flat :=
  if mem n conn_names then mkFlat (upd (f_shared f) n v) (f_own f) (f_class f) (f_cur f) (f_stack f)
  else mkFlat (f_shared f) (upd_own (f_own f) o n v) (f_class f) (f_cur f) (f_stack f).
Fixpoint flat_init (f : flat) (o : nat) (ns : list String.string) (vs : list N) : flat :=
  match ns with [] => f | n :: r => flat_init (flat_set f o n (hd 0 vs)) o r (tl vs) end.
Definition flat_move (f : flat) (k : kls) (vs : list N) : flat :=
  let o := length (f_class f) in
  let g := flat_init (mkFlat (f_shared f) (fun p m => if Nat.eqb p o then (if String.eqb m "connection" then Some 0 else None) else f_own f p m)
                             (f_class f ++ [k]) (f_cur f) (f_stack f)) o (init_names k) vs in
  mkFlat (upd (f_shared g) "_state" (N.of_nat o)) (f_own g) (f_class g) o (f_stack g).
Definition flat_event (f : flat) (e : event) : flat * list result :=
  match e with
  | Enter => (mkFlat (f_shared f) (f_own f) (f_class f) (f_cur f) (f_cur f :: f_stack f), [])
  | Leave => (mkFlat (f_shared f) (f_own f) (f_class f) (f_cur f) (tl (f_stack f)), [])
  | Unwind => (mkFlat (f_shared f) (f_own f) (f_class f) (f_cur f) [], [])
  | Get n => (f, match f_stack f with [] => [] | o :: _ => [flat_get f o n] end)
  | Set_ n v => (match f_stack f with [] => f | o :: _ => flat_set f o n v end, [])
  | SetCur n v => (flat_set f (f_cur f) n v, [])
  | GetCur n => (f, [flat_get f (f_cur f) n])
  | CGet n => (f, [flat_conn_get f n])
  | CSet n v => (mkFlat (upd (f_shared f) n v) (f_own f) (f_class f) (f_cur f) (f_stack f), [])
  | Move k vs => (flat_move f k vs, [])
  end.
Fixpoint flat_events (f : flat) (l : list event) : flat * list result :=
  match l with
  | [] => (f, [])
  | e :: r => let '(g, out) := flat_event f e in let '(g2, out2) := flat_events g r in (g2, out ++ out2)
  end.
Definition new_flat (k : kls) (cookie shares : N) (values : String.string -> N) : flat :=
  flat_move (mkFlat values (fun _ _ => None) [] 0 []) k [cookie; shares].
