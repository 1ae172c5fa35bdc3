(* Specification vocabulary for streams: what C28 and C29 talk about. *)
From Verif Require Import Base Serial.

(* the innermost of a stack of limits leaves room up to position [p] *)
Definition fits (limits : list N) (p : N) : Prop :=
  match limits with [] => True | lim :: _ => p <= lim end.

(* the position is inside the data and the innermost limit *)
Definition inside (s : stream) : Prop :=
  s_pos s <= blen (s_data s) /\ match s_limits s with [] => True | lim :: _ => s_pos s <= lim end.

(* a stream standing just before [b], surrounded by anything *)
Definition before (pre b post : bytes) (limits : list N) : stream :=
  mkStream (pre ++ b ++ post) (blen pre) limits.
(* the same stream standing just after [b] *)
Definition after (pre b post : bytes) (limits : list N) : stream :=
  mkStream (pre ++ b ++ post) (blen pre + blen b) limits.

(* A program of reads with nested length-limited elements. *)
Inductive rop :=
| RRead (n : N)          (* read(n) *)
| RAll                   (* read() *)
| RExactly (n : N)       (* read_exactly(n) *)
| RInt (n : N) | RVar (n : N) | RListInt (n m : N) | RListVar (n m : N)
| RLimit (n : N) (body : list rop).   (* with limit(n): body *)

(* the bytes handed to the caller by the reads, in order, when none raises;
   for the structured reads only the movement of the stream is kept *)
Fixpoint rrun (fuel : nat) (prog : list rop) (s : stream) : res (list (N * N * bytes) * stream) :=
  match fuel with
  | O => Err XFuel
  | S fuel =>
    match prog with
    | [] => Ok ([], s)
    | o :: prog =>
      let* (out, s1) :=
        match o with
        | RRead n => let* (b, s1) := read_n n s in Ok ([(s_pos s, s_pos s1, b)], s1)
        | RAll => let (b, s1) := read_all s in Ok ([(s_pos s, s_pos s1, b)], s1)
        | RExactly n => let* (b, s1) := read_exactly n s in Ok ([(s_pos s, s_pos s1, b)], s1)
        | RInt n => let* (_, s1) := read_int n s in Ok ([], s1)
        | RVar n => let* (_, s1) := read_var n s in Ok ([], s1)
        | RListInt n m => let* (_, s1) := read_listint n m s in Ok ([], s1)
        | RListVar n m => let* (_, s1) := read_listvar n m s in Ok ([], s1)
        | RLimit n body => with_limit n (fun _ => rrun fuel body) s
        end in
      let* (out2, s2) := rrun fuel prog s1 in
      Ok (out ++ out2, s2)
    end
  end.

(* [b] is the content of [d] from position [i] to position [j] *)
Definition is_slice (d : bytes) (i j : N) (b : bytes) : Prop :=
  exists pre post, d = pre ++ b ++ post /\ blen pre = i /\ blen pre + blen b = j.

(* a chunk handed out between positions [i] and [j], inside [lo, hi] *)
Definition chunk_ok (d : bytes) (lo hi : N) (c : N * N * bytes) : Prop :=
  let '(i, j, b) := c in lo <= i /\ i <= j /\ j <= hi /\ is_slice d i j b.

(* size of a list of vectors, each with an [m]-byte length *)
Definition var_size (m : nat) (d : bytes) : N := N.of_nat m + blen d.
Fixpoint vars_size (m : nat) (l : list bytes) : N :=
  match l with [] => 0 | d :: l => var_size m d + vars_size m l end.
