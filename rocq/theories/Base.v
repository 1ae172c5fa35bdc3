(* Bytes, exceptions as values, integers on the wire. *)
From Coq Require Export NArith List Bool Lia.
From Coq Require Export Init.Byte.
From Coq Require Strings.Byte Strings.String.
Export String.StringSyntax.
Delimit Scope string_scope with string.
Export ListNotations.
#[global] Open Scope N_scope.
#[global] Open Scope list_scope.

Definition bytes := list byte.

(* A Python str is represented by its UTF-8 encoding. *)
Definition str := bytes.

(* ------------------------------------------------------------------ *)
(* Python exceptions, one constructor per class the code tells apart.  *)
(* ------------------------------------------------------------------ *)
Inductive exn :=
| XAlert (code : N)   (* contents/alerts.py: subclass of TLSFatalAlert, by AlertDescription *)
| XMissing            (* serial.py:15-16 MissingDataError(TLSBufferError) *)
| XTooMuch            (* serial.py:19-20 TooMuchDataError(TLSBufferError) *)
| XBuf                (* serial.py:11-12 TLSBufferError *)
| XTLS                (* TLSError itself *)
| XValue              (* ValueError *)
| XUnicode            (* UnicodeError, a subclass of ValueError (idna.IDNAError) *)
| XKey                (* KeyError *)
| XType               (* TypeError *)
| XAttr               (* AttributeError *)
| XIndex              (* IndexError *)
| XNotImpl            (* NotImplementedError *)
| XAssert             (* AssertionError *)
| XOverflow           (* OverflowError, raised by int.to_bytes *)
| XRuntime            (* RuntimeError *)
| XStop               (* StopIteration *)
| XVerif              (* cryptography.x509.verification.VerificationError *)
| XInvalidSig         (* cryptography.exceptions.InvalidSignature *)
| XOther (n : N)      (* any other exception raised by a library *)
| XFuel.              (* no Python counterpart: the model ran out of fuel *)

Inductive res (A : Type) :=
| Ok (a : A)
| Err (e : exn).
Arguments Ok {A} a.
Arguments Err {A} e.

Definition rbind {A B} (m : res A) (f : A -> res B) : res B :=
  match m with Ok a => f a | Err e => Err e end.

Declare Scope res_scope.
Delimit Scope res_scope with res.
Notation "'let*' x ':=' m 'in' f" := (rbind m (fun x => f))
  (at level 200, x pattern, m at level 200, f at level 200, right associativity) : res_scope.
#[global] Open Scope res_scope.

(* isinstance(exc, ValueError) *)
Definition is_value_error (e : exn) : bool :=
  match e with XValue | XUnicode => true | _ => false end.

(* isinstance(exc, TLSBufferError) *)
Definition is_buffer_error (e : exn) : bool :=
  match e with XMissing | XTooMuch | XBuf => true | _ => false end.

(* isinstance(exc, alerts.TLSFatalAlert).  The descriptions of the alert classes
   fit in a byte (iana.py AlertDescription); a larger [c] is no alert, only the
   functions outside of the model could raise one. *)
Definition alert_of (e : exn) : option N :=
  match e with XAlert c => if c <? 256 then Some c else None | _ => None end.

(* `try: m except ValueError: raise alerts.X` *)
Definition on_value_error {A} (m : res A) (e' : exn) : res A :=
  match m with
  | Ok a => Ok a
  | Err e => if is_value_error e then Err e' else Err e
  end.

(* ------------------------------------------------------------------ *)
(* Bytes                                                               *)
(* ------------------------------------------------------------------ *)
Definition bN (b : byte) : N := Byte.to_N b.
Definition Nb (n : N) : byte :=
  match Byte.of_N n with Some b => b | None => x00 end.

Definition blen (b : bytes) : N := N.of_nat (length b).
Definition btake (n : N) (b : bytes) : bytes := firstn (N.to_nat n) b.
Definition bdrop (n : N) (b : bytes) : bytes := skipn (N.to_nat n) b.

Fixpoint beqb (a b : bytes) : bool :=
  match a, b with
  | [], [] => true
  | x :: a', y :: b' => Byte.eqb x y && beqb a' b'
  | _, _ => false
  end.

Definition zeros (n : N) : bytes := repeat x00 (N.to_nat n).

(* int.from_bytes(b, 'big') *)
Definition of_bytes (b : bytes) : N :=
  fold_left (fun acc x => acc * 256 + bN x) b 0.

(* The n low order bytes of v, most significant first. *)
Fixpoint be_bytes (n : nat) (v : N) : bytes :=
  match n with
  | O => []
  | S n' => be_bytes n' (v / 256) ++ [Nb (v mod 256)]
  end.

(* v.to_bytes(n, 'big'): OverflowError when v does not fit. *)
Definition to_bytes (n : nat) (v : N) : res bytes :=
  if v <? 256 ^ N.of_nat n then Ok (be_bytes n v) else Err XOverflow.

(* len(x).to_bytes(n, 'big') + x *)
Definition put_var (n : nat) (b : bytes) : res bytes :=
  let* l := to_bytes n (blen b) in Ok (l ++ b).

(* b''.join of items each turned into bytes *)
Fixpoint join_map {A} (f : A -> res bytes) (l : list A) : res bytes :=
  match l with
  | [] => Ok []
  | x :: l' => let* b := f x in let* r := join_map f l' in Ok (b ++ r)
  end.

Definition memN (x : N) (l : list N) : bool := existsb (N.eqb x) l.
Definition memB (x : bytes) (l : list bytes) : bool := existsb (beqb x) l.

Fixpoint assocN {A} (x : N) (l : list (N * A)) : option A :=
  match l with
  | [] => None
  | (k, v) :: l' => if x =? k then Some v else assocN x l'
  end.

Definition opt_bool {A} (o : option A) : bool :=
  match o with Some _ => true | None => false end.

Definition is_nil {A} (l : list A) : bool :=
  match l with [] => true | _ => false end.

(* Parse a hexadecimal / ascii literal at specification level. *)
Definition ascii_bytes (s : String.string) : bytes := String.list_byte_of_string s.
