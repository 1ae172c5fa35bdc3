(* serial.py: SerialIO, a byte stream with a stack of read limits. *)
From Verif Require Import Base.

(* serial.py:47-50.  [s_limits] is self._limits without its bottom +inf, top
   first; [s_pos] is self.tell().  Only read access is modelled here: the
   library serializes with bytes.join, not with the write_* methods, which are
   modelled separately below as functions returning the bytes appended. *)
Record stream := mkStream { s_data : bytes; s_pos : N; s_limits : list N }.

Definition stream_of (b : bytes) : stream := mkStream b 0 [].

Definition with_pos (s : stream) (p : N) : stream := mkStream (s_data s) p (s_limits s).

(* io.BytesIO.read(n) *)
Definition raw_read (n : N) (s : stream) : bytes * stream :=
  let got := btake n (bdrop (s_pos s) (s_data s)) in
  (got, with_pos s (s_pos s + blen got)).

(* serial.py:52-60 read(n) with n given *)
Definition read_n (n : N) (s : stream) : res (bytes * stream) :=
  match s_limits s with
  | [] => Ok (raw_read n s)
  | lim :: _ => if lim - s_pos s <? n then Err XTooMuch else Ok (raw_read n s)
  end.

(* serial.py:52-60 read() *)
Definition read_all (s : stream) : bytes * stream :=
  match s_limits s with
  | [] => raw_read (blen (s_data s)) s
  | lim :: _ => raw_read (lim - s_pos s) s
  end.

(* serial.py:62-70.  The Python loop calls read again after a short read; with
   BytesIO a short read only happens at the end of the data, so the second
   call returns b'' and raises MissingDataError: two rounds are enough. *)
Definition read_exactly (n : N) (s : stream) : res (bytes * stream) :=
  if n =? 0 then Ok ([], s)
  else
    let* (got, s1) := read_n n s in
    if blen got =? n then Ok (got, s1)
    else match got with
         | [] => Err XMissing
         | _ =>
           let* (got2, s2) := read_n (n - blen got) s1 in
           match got2 with
           | [] => Err XMissing
           | _ => if blen got + blen got2 =? n then Ok (got ++ got2, s2) else Err XMissing
           end
         end.

(* serial.py:72-76 *)
Definition read_int (n : N) (s : stream) : res (N * stream) :=
  if n =? 0 then Err XValue
  else let* (b, s1) := read_exactly n s in Ok (of_bytes b, s1).

(* serial.py:81-83 *)
Definition read_var (n : N) (s : stream) : res (bytes * stream) :=
  let* (len, s1) := read_int n s in read_exactly len s1.

(* serial.py:97-100: group bytes by nitem.  Structural on the number of
   groups. *)
Fixpoint groups (k : nat) (nitem : N) (b : bytes) : list N :=
  match k with
  | O => []
  | S k' => of_bytes (btake nitem b) :: groups k' nitem (bdrop nitem b)
  end.

(* serial.py:89-100 *)
Definition read_listint (nlist nitem : N) (s : stream) : res (list N * stream) :=
  let* (len, s1) := read_int nlist s in
  if negb (len mod nitem =? 0) then Err XBuf
  else
    let* (b, s2) := read_exactly len s1 in
    Ok (groups (N.to_nat (len / nitem)) nitem b, s2).

(* serial.py:134-138.  BytesIO never moves past its end here. *)
Definition is_eof (s : stream) : bool := s_pos s =? blen (s_data s).

(* `while not list_stream.is_eof(): items.append(f(list_stream))` *)
Fixpoint until_eof {A} (fuel : nat) (f : stream -> res (A * stream)) (s : stream) : res (list A) :=
  if is_eof s then Ok []
  else match fuel with
       | O => Err XFuel
       | S fuel' =>
         let* (x, s1) := f s in
         let* l := until_eof fuel' f s1 in
         Ok (x :: l)
       end.

(* The same loop over a fresh stream of the given bytes *)
Definition parse_list {A} (f : stream -> res (A * stream)) (b : bytes) : res (list A) :=
  until_eof (length b) f (stream_of b).

(* serial.py:107-112 *)
Definition read_listvar (nlist nitem : N) (s : stream) : res (list bytes * stream) :=
  let* (b, s1) := read_var nlist s in
  let* l := parse_list (read_var nitem) b in
  Ok (l, s1).

(* serial.py:140-146 *)
Definition assert_eof (s : stream) : res unit :=
  if s_pos s =? blen (s_data s) then Ok tt else Err XTooMuch.

(* serial.py:148-167 `with stream.limit(length) as limit: body(limit)`.  When
   the body raises, the stream is not used any more by any caller, so the
   missing pop of the limit is not observable. *)
Definition with_limit {A} (len : N) (body : N -> stream -> res (A * stream)) (s : stream)
  : res (A * stream) :=
  let new_limit := s_pos s + len in
  let too_far := match s_limits s with [] => false | lim :: _ => lim <? new_limit end in
  if too_far then Err XValue
  else
    let* (x, s1) := body new_limit (mkStream (s_data s) (s_pos s) (new_limit :: s_limits s)) in
    match s_limits s1 with
    | [] => Err XRuntime
    | l :: rest =>
      if negb (l =? new_limit) then Err XRuntime
      else if new_limit =? s_pos s1 then Ok (x, mkStream (s_data s1) (s_pos s1) rest)
      else Err XTooMuch
    end.

(* serial.py:78-79 *)
Definition write_int (n : nat) (i : N) : res bytes := to_bytes n i.
(* serial.py:85-87 *)
Definition write_var (n : nat) (b : bytes) : res bytes := put_var n b.
(* serial.py:102-105 *)
Definition write_listint (nlist nitem : nat) (items : list N) : res bytes :=
  let* l := to_bytes nlist (N.of_nat (length items) * N.of_nat nitem) in
  let* b := join_map (to_bytes nitem) items in
  Ok (l ++ b).
(* serial.py:114-123: the placeholder is rewritten with the length at the end *)
Definition write_listvar (nlist nitem : nat) (items : list bytes) : res bytes :=
  let* b := join_map (put_var nitem) items in
  let* l := to_bytes nlist (blen b) in
  Ok (l ++ b).

(* extensions/__init__.py:11-22 split_extensions *)
Fixpoint split_loop (fuel : nat) (limit : N) (s : stream) : res (list (N * bytes) * stream) :=
  if s_pos s <? limit
  then match fuel with
       | O => Err XFuel
       | S fuel' =>
         let* (ty, s1) := read_int 2 s in
         let* (d, s2) := read_var 2 s1 in
         let* (l, s3) := split_loop fuel' limit s2 in
         Ok ((ty, d) :: l, s3)
       end
  else Ok ([], s).

Definition split_extensions (s : stream) : res (list (N * bytes) * stream) :=
  let* (len, s1) := read_int 2 s in
  let* (l, s2) := with_limit len (split_loop (length (s_data s))) s1 in
  let* _ := assert_eof s2 in
  Ok (l, s2).
