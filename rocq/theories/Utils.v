(* utils.py: peekable iterators, hexdump, HTTP message templates; and
   trust_store.py's path lookup. *)
From Verif Require Import Base Ext.

(* utils.py:107-130 over the list of what the underlying iterator has left *)
Record peekable (A : Type) := mkPeek { pk_it : list A; pk_peeked : option A }.
Arguments mkPeek {A}. Arguments pk_it {A}. Arguments pk_peeked {A}.

Definition peekable_new {A} (l : list A) : peekable A := mkPeek l None.

Definition pk_next {A} (p : peekable A) : res A * peekable A :=
  match pk_peeked p with
  | Some x => (Ok x, mkPeek (pk_it p) None)
  | None =>
    match pk_it p with
    | x :: l => (Ok x, mkPeek l None)
    | [] => (Err XStop, p)
    end
  end.

(* [default] is None when the caller gave none *)
Definition pk_peek {A} (default : option A) (p : peekable A) : res A * peekable A :=
  match pk_peeked p with
  | Some x => (Ok x, p)
  | None =>
    match pk_it p with
    | x :: l => (Ok x, mkPeek l (Some x))
    | [] => (match default with Some d => Ok d | None => Err XStop end, p)
    end
  end.

(* --- hexdump, utils.py:20-60 ------------------------------------------- *)
Definition hexdigit (n : N) : byte := if n <? 10 then Nb (48 + n) else Nb (87 + n).

(* binascii.hexlify(b, ' ') *)
Fixpoint hexlify (b : bytes) : bytes :=
  match b with
  | [] => []
  | [x] => [hexdigit (bN x / 16); hexdigit (bN x mod 16)]
  | x :: b' => hexdigit (bN x / 16) :: hexdigit (bN x mod 16) :: x20 :: hexlify b'
  end.

(* the last [w] digits of format(n, 'x'), zero filled *)
Fixpoint hex_fixed (w : nat) (n : N) : bytes :=
  match w with
  | O => []
  | S w' => hex_fixed w' (n / 16) ++ [hexdigit (n mod 16)]
  end.
(* number of hex digits of n, at least 1 *)
Definition hex_width (n : N) : N := N.max 1 ((N.size n + 3) / 4).
(* f'{i:0{d}x}' *)
Definition format_hex (d : N) (i : N) : bytes := hex_fixed (N.to_nat (N.max d (hex_width i))) i.

Definition show_byte (x : byte) : byte :=
  let n := bN x in
  if memN n [9; 10; 11; 13] then Nb 32
  else if n <=? 9 then Nb (n + 48)
  else if (10 <=? n) && (n <=? 15) then Nb (n + 87)
  else if (32 <=? n) && (n <=? 126) then x
  else Nb 46.

(* utils.py:33 *)
Definition offset_digits (len : N) : N := (((N.size len + 3) / 4) + 3) / 4 * 4.

Definition hex_columns (line : bytes) : bytes :=
  let h := hexlify (btake 8 line) ++ [x20; x20] ++ hexlify (bdrop 8 line) ++ [x20; x20] in
  h ++ repeat x20 (50 - length h).

Definition dump_line (d i : N) (line : bytes) : bytes :=
  format_hex d i ++ [x3a; x20]
  ++ hex_columns line
  ++ map show_byte (btake 8 line)
  ++ (if 8 <? blen line then [x20] else [])
  ++ map show_byte (bdrop 8 line).

(* utils.py:35-57, 16 bytes a turn *)
Fixpoint dump_lines (fuel : nat) (d i : N) (b : bytes) : bytes :=
  match fuel with
  | O => []
  | S fuel' =>
    match b with
    | [] => []
    | _ => dump_line d i (btake 16 b) ++ [x0a] ++ dump_lines fuel' d (i + 16) (bdrop 16 b)
    end
  end.

(* bytearray.pop *)
Definition hexdump (b : bytes) : bytes :=
  let xd := dump_lines (length b) (offset_digits (blen b)) 0 b in
  if is_nil b then xd else removelast xd.

(* --- trust_store.py:6-13, 33-40 ---------------------------------------- *)
Definition ca_certificates_paths : list (bytes * bytes) :=
  [(ascii_bytes "alpine"%string, ascii_bytes "/etc/ssl/certs/ca-certificates.crt"%string);
   (ascii_bytes "arch"%string, ascii_bytes "/etc/ca-certificates/extracted/tls-ca-bundle.pem"%string);
   (ascii_bytes "debian"%string, ascii_bytes "/etc/ssl/certs/ca-certificates.crt"%string);
   (ascii_bytes "fedora"%string, ascii_bytes "/etc/pki/ca-trust/extracted/pem/tls-ca-bundle.pem"%string);
   (ascii_bytes "suse"%string, ascii_bytes "/var/lib/ca-certificates/ca-bundle.pem"%string);
   (ascii_bytes "ubuntu"%string, ascii_bytes "/etc/ssl/certs/ca-certificates.crt"%string)].

(* str.split() on ASCII white space; [w] is the word being read, reversed *)
Definition is_space (x : byte) : bool := memN (bN x) [9; 10; 11; 12; 13; 28; 29; 30; 31; 32].
Fixpoint split_words (w : bytes) (s : bytes) : list bytes :=
  match s with
  | [] => if is_nil w then [] else [rev w]
  | x :: s' =>
    if is_space x then (if is_nil w then [] else [rev w]) ++ split_words [] s'
    else split_words (x :: w) s'
  end.

Fixpoint lookup_path (k : bytes) (l : list (bytes * bytes)) : option bytes :=
  match l with
  | [] => None
  | (k', v) :: l' => if beqb k k' then Some v else lookup_path k l'
  end.
Fixpoint first_path (ids : list bytes) : option bytes :=
  match ids with
  | [] => None
  | i :: ids' =>
    match lookup_path i ca_certificates_paths with
    | Some (x :: p) => Some (x :: p)
    | _ => first_path ids'
    end
  end.
(* [id] and [id_like] are release['ID'] and release.get('ID_LIKE') *)
Definition get_ca_certificates_path (id id_like : option bytes) : res bytes :=
  let like := match id_like with Some l => l | None => [] end in
  match id with
  | None => Err XKey
  | Some i =>
    match first_path (i :: split_words [] like) with
    | Some p => Ok p
    | None => Err XValue
    end
  end.
