(* serial.py: SerialIO as the mutable object it is.  Serial.v, on which the
   parsers are built, gives each method as a function that loses the stream
   when it raises and gives each write method as the bytes it adds; here every
   method keeps the stream it leaves behind, also when it raises, and writes
   into the buffer.  Both are compared in T_Sio.v. *)
From Coq Require Import ZArith.
From Verif Require Import Base Serial.

(* a method: its answer, and the stream afterwards *)
Definition SM (A : Type) := stream -> res A * stream.
Definition sret {A} (x : A) : SM A := fun s => (Ok x, s).
Definition sraise {A} (e : exn) : SM A := fun s => (Err e, s).
Definition sbind {A B} (m : SM A) (f : A -> SM B) : SM B :=
  fun s => match m s with (Ok x, s1) => f x s1 | (Err e, s1) => (Err e, s1) end.
Declare Scope s_scope.
Delimit Scope s_scope with s.
Notation "'let!' x := m 'in' f" := (sbind m (fun x => f))
  (at level 200, x pattern, m at level 100, f at level 200, right associativity) : s_scope.
Local Open Scope s_scope.

(* --- io.BytesIO ----------------------------------------------------------- *)
(* read(n): everything when n is negative *)
Definition io_read (n : Z) : SM bytes := fun s =>
  let left := bdrop (s_pos s) (s_data s) in
  let got := if Z.ltb n 0 then left else btake (Z.to_N n) left in
  (Ok got, with_pos s (s_pos s + blen got)).
(* write(b) overwrites, fills a gap with zeros, does nothing when b is empty *)
Definition io_write (b : bytes) : SM unit := fun s =>
  match b with
  | [] => (Ok tt, s)
  | _ => (Ok tt, mkStream (btake (s_pos s) (s_data s ++ zeros (s_pos s - blen (s_data s))) ++ b ++
                           bdrop (s_pos s + blen b) (s_data s)) (s_pos s + blen b) (s_limits s))
  end.
Definition io_tell : SM N := fun s => (Ok (s_pos s), s).
(* seek(p), seek(0, 2) *)
Definition io_seek (p : N) : SM unit := fun s => (Ok tt, with_pos s p).
Definition io_seek_end : SM N := fun s => (Ok (blen (s_data s)), with_pos s (blen (s_data s))).

(* --- reading --------------------------------------------------------------- *)
(* serial.py:52-60 read; the difference may be negative *)
Definition sio_read (n : option N) : SM bytes := fun s =>
  match s_limits s, n with
  | [], None => io_read (-1) s
  | [], Some n => io_read (Z.of_N n) s
  | lim :: _, None => io_read (Z.of_N lim - Z.of_N (s_pos s)) s
  | lim :: _, Some n =>
    if Z.ltb (Z.of_N lim - Z.of_N (s_pos s)) (Z.of_N n) then (Err XTooMuch, s) else io_read (Z.of_N n) s
  end.

(* serial.py:62-70 read_exactly, the while loop *)
Fixpoint exactly_loop (fuel : nat) (n : N) (data : bytes) : SM bytes :=
  if blen data =? n then sret data
  else match fuel with
       | O => sraise XFuel
       | S fuel' =>
         let! read := sio_read (Some (n - blen data)) in
         match read with
         | [] => sraise XMissing
         | _ => exactly_loop fuel' n (data ++ read)
         end
       end.
Definition sio_exactly (n : N) : SM bytes := exactly_loop (S (N.to_nat n)) n [].

(* serial.py:72-76 read_int *)
Definition sio_int (n : N) : SM N :=
  if n =? 0 then sraise XValue else let! b := sio_exactly n in sret (of_bytes b).
(* serial.py:81-83 read_var *)
Definition sio_var (n : N) : SM bytes := let! len := sio_int n in sio_exactly len.
(* serial.py:89-100 read_listint *)
Definition sio_listint (nlist nitem : N) : SM (list N) :=
  let! len := sio_int nlist in
  if negb (len mod nitem =? 0) then sraise XBuf
  else let! b := sio_exactly len in sret (groups (N.to_nat (len / nitem)) nitem b).

(* serial.py:134-138 is_eof, 140-146 assert_eof *)
Definition sio_eof : SM bool :=
  let! pos := io_tell in let! eof := io_seek_end in let! _ := io_seek pos in sret (pos =? eof).
Definition sio_assert_eof : SM unit :=
  let! pos := io_tell in let! eof := io_seek_end in
  if Z.eqb (Z.of_N eof - Z.of_N pos) 0 then sret tt
  else let! _ := io_seek pos in sraise XTooMuch.

(* serial.py:107-112 read_listvar: a second stream over what was read *)
Fixpoint eof_loop {A} (fuel : nat) (m : SM A) (items : list A) : SM (list A) :=
  let! eof := sio_eof in
  if eof then sret items
  else match fuel with
       | O => sraise XFuel
       | S fuel' => let! x := m in eof_loop fuel' m (items ++ [x])
       end.
Definition sio_listvar (nlist nitem : N) : SM (list bytes) :=
  let! b := sio_var nlist in
  fun s => (fst (eof_loop (length b) (sio_var nitem) [] (stream_of b)), s).

(* --- blocks ------------------------------------------------------------------ *)
(* serial.py:148-167 limit.  An exception in the block leaves the limit on the
   stack: there is no try around the yield. *)
Definition sio_limit {A} (len : N) (body : N -> SM A) : SM A := fun s =>
  let new_limit := s_pos s + len in
  if match s_limits s with [] => false | lim :: _ => lim <? new_limit end then (Err XValue, s)
  else
    match body new_limit (mkStream (s_data s) (s_pos s) (new_limit :: s_limits s)) with
    | (Err e, s1) => (Err e, s1)
    | (Ok x, s1) =>
      match s_limits s1 with
      | [] => (Err XRuntime, s1)
      | l :: rest =>
        let s2 := mkStream (s_data s1) (s_pos s1) rest in
        if negb (l =? new_limit) then (Err XRuntime, s2)
        else if Z.eqb (Z.of_N new_limit - Z.of_N (s_pos s1)) 0 then (Ok x, s2)
        else (Err XTooMuch, s2)
      end
    end.
(* serial.py:126-132 lookahead *)
Definition sio_look {A} (body : SM A) : SM A := fun s =>
  let (r, s1) := body s in (r, with_pos s1 (s_pos s)).

(* --- writing ------------------------------------------------------------------ *)
(* serial.py:78-79 write_int *)
Definition sio_write_int (n : nat) (i : N) : SM unit :=
  fun s => match to_bytes n i with Ok b => io_write b s | Err e => (Err e, s) end.
(* serial.py:85-87 write_var *)
Definition sio_write_var (n : nat) (b : bytes) : SM unit :=
  let! _ := sio_write_int n (blen b) in io_write b.
(* for item in items: ... *)
Fixpoint each {A} (m : A -> SM unit) (items : list A) : SM unit :=
  match items with [] => sret tt | x :: l => let! _ := m x in each m l end.
(* serial.py:102-105 write_listint *)
Definition sio_write_listint (nlist nitem : nat) (items : list N) : SM unit :=
  let! _ := sio_write_int nlist (N.of_nat (length items) * N.of_nat nitem) in
  each (sio_write_int nitem) items.
(* serial.py:114-123 write_listvar *)
Definition sio_write_listvar (nlist nitem : nat) (items : list bytes) : SM unit :=
  let! prepos := io_tell in
  let! _ := sio_write_int nlist 0 in
  let! _ := each (sio_write_var nitem) items in
  let! postpos := io_tell in
  let! _ := io_seek prepos in
  let! _ := sio_write_int nlist (postpos - prepos - N.of_nat nlist) in
  io_seek postpos.

(* --- code that uses a stream -------------------------------------------------- *)
Inductive method :=
| MRead (n : option N) | MExactly (n : N) | MInt (n : N) | MVar (n : N)
| MListInt (nlist nitem : N) | MListVar (nlist nitem : N) | MEof | MAssertEof
| MWrite (b : bytes) | MWriteInt (n : nat) (i : N) | MWriteVar (n : nat) (b : bytes)
| MWriteListInt (nlist nitem : nat) (l : list N) | MWriteListVar (nlist nitem : nat) (l : list bytes).
Definition quiet {A} (m : SM A) : SM unit := let! _ := m in sret tt.
Definition call (m : method) : SM unit :=
  match m with
  | MRead n => quiet (sio_read n) | MExactly n => quiet (sio_exactly n) | MInt n => quiet (sio_int n)
  | MVar n => quiet (sio_var n) | MListInt a b => quiet (sio_listint a b) | MListVar a b => quiet (sio_listvar a b)
  | MEof => quiet sio_eof | MAssertEof => sio_assert_eof
  | MWrite b => io_write b | MWriteInt n i => sio_write_int n i | MWriteVar n b => sio_write_var n b
  | MWriteListInt a b l => sio_write_listint a b l | MWriteListVar a b l => sio_write_listvar a b l
  end.
(* calls, one after the other, in blocks of limit and lookahead, and with
   exceptions caught *)
Inductive code :=
| CSkip | CCall (m : method) | CSeq (a b : code)
| CLook (a : code) | CLimit (n : N) (a : code) | CTry (a : code).
Fixpoint exec (p : code) : SM unit :=
  match p with
  | CSkip => sret tt
  | CCall m => call m
  | CSeq a b => let! _ := exec a in exec b
  | CLook a => sio_look (exec a)
  | CLimit n a => sio_limit n (fun _ => exec a)
  | CTry a => fun s => (Ok tt, snd (exec a s))
  end.
