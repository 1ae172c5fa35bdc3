(* Specifications for C33, C34, C39, C40, C41. *)
From Verif Require Import Base Crypto Utils.

(* RFC 5869 2.3: T(0) = empty string, T(i) = HMAC-Hash(PRK, T(i-1) | info | i) *)
Fixpoint rfc5869_T (C : crypto) (h : hashalg) (prk info : bytes) (i : nat) : bytes :=
  match i with
  | O => []
  | S j => cr_hmac C h prk (rfc5869_T C h prk info j ++ info ++ [Nb (N.of_nat i)])
  end.
(* T(1) | T(2) | ... | T(n) *)
Fixpoint rfc5869_stream (C : crypto) (h : hashalg) (prk info : bytes) (n : nat) : bytes :=
  match n with
  | O => []
  | S m => rfc5869_stream C h prk info m ++ rfc5869_T C h prk info n
  end.

(* The HMAC oracle returns digests of the right size. *)
Definition hmac_sized (C : crypto) : Prop := forall h k m, blen (cr_hmac C h k m) = digest_size h.

(* --- peekable ---------------------------------------------------------- *)
Inductive pop (A : Type) := PNext | PPeek (default : option A).
Arguments PNext {A}. Arguments PPeek {A}.

(* the reference: a list, next removes its head, peek only looks at it *)
Definition list_op {A} (o : pop A) (l : list A) : res A * list A :=
  match o, l with
  | PNext, x :: l' => (Ok x, l')
  | PNext, [] => (Err XStop, [])
  | PPeek _, x :: _ => (Ok x, l)
  | PPeek (Some d), [] => (Ok d, [])
  | PPeek None, [] => (Err XStop, [])
  end.
Fixpoint list_ops {A} (ops : list (pop A)) (l : list A) : list (res A) :=
  match ops with
  | [] => []
  | o :: ops' => let (r, l') := list_op o l in r :: list_ops ops' l'
  end.

(* the same operations on the class *)
Definition pk_op {A} (o : pop A) (p : peekable A) : res A * peekable A :=
  match o with PNext => pk_next p | PPeek d => pk_peek d p end.
Fixpoint pk_ops {A} (ops : list (pop A)) (p : peekable A) : list (res A) :=
  match ops with
  | [] => []
  | o :: ops' => let (r, p') := pk_op o p in r :: pk_ops ops' p'
  end.

(* --- reading a hexdump back --------------------------------------------- *)
Definition unhex (c : byte) : option N :=
  let n := bN c in
  if (48 <=? n) && (n <=? 57) then Some (n - 48)
  else if (97 <=? n) && (n <=? 102) then Some (n - 87)
  else None.
(* a hexadecimal number *)
Fixpoint unhex_number (acc : N) (b : bytes) : option N :=
  match b with
  | [] => Some acc
  | c :: b' => match unhex c with Some d => unhex_number (acc * 16 + d) b' | None => None end
  end.
(* the characters before and after the first colon *)
Fixpoint cut_colon (b : bytes) : bytes * bytes :=
  match b with
  | [] => ([], [])
  | c :: b' => if Byte.eqb c x3a then ([], b') else let (l, r) := cut_colon b' in (c :: l, r)
  end.
(* pairs of digits, spaces ignored *)
Fixpoint unhex_pairs (b : bytes) : option bytes :=
  match b with
  | [] => Some []
  | c :: rest =>
    if Byte.eqb c x20 then unhex_pairs rest
    else match rest with
         | [] => None
         | d :: rest' =>
           match unhex c, unhex d, unhex_pairs rest' with
           | Some h, Some l, Some r => Some (Nb (h * 16 + l) :: r)
           | _, _, _ => None
           end
         end
  end.
Fixpoint split_lines (b : bytes) : list bytes :=
  match b with
  | [] => [[]]
  | c :: b' =>
    if Byte.eqb c x0a then [] :: split_lines b'
    else match split_lines b' with
         | l :: ls => (c :: l) :: ls
         | [] => [[c]]
         end
  end.
(* "offset: hexadecimal columns over 48 characters  text"; the offset must be
   the number of bytes before the line, and only the last line may hold less
   than 16 bytes *)
Definition read_line (offset : N) (line : bytes) : option bytes :=
  let (off, rest) := cut_colon line in
  match unhex_number 0 off with
  | Some o => if o =? offset then unhex_pairs (btake 49 rest) else None
  | None => None
  end.
Fixpoint read_lines (offset : N) (lines : list bytes) : option bytes :=
  match lines with
  | [] => Some []
  | [l] => read_line offset l
  | l :: ls =>
    match read_line offset l, read_lines (offset + 16) ls with
    | Some a, Some b => if blen a =? 16 then Some (a ++ b) else None
    | _, _ => None
    end
  end.
Definition undump (b : bytes) : option bytes :=
  match b with [] => Some [] | _ => read_lines 0 (split_lines b) end.

(* --- the text beside the hexadecimal columns ----------------------------- *)
Definition printable (c : byte) : bool := (32 <=? bN c) && (bN c <=? 126).
(* a printable byte is shown as itself, any other by some printable character *)
Definition shown (x c : byte) : Prop := if printable x then c = x else printable c = true.
(* what follows the 51 characters after the colon, without the space which
   separates the first eight characters from the others *)
Definition line_text (line : bytes) : bytes :=
  let t := bdrop 51 (snd (cut_colon line)) in btake 8 t ++ bdrop 9 t.
Definition dump_text (b : bytes) : bytes := concat (map line_text (split_lines b)).
