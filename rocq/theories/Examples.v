(* wrapper.py:7-13 and examples/simple_client.py. *)
From Verif Require Import Base Crypto Config Iana Conn Wrapper.

Local Open Scope string_scope.
Local Open Scope N_scope.
Local Open Scope list_scope.

(* with conn.wrap(sock) as s: body.  wrapper.py:7-13: __enter__ is the
   handshake, its exception skips the body and __exit__; __exit__ closes, does
   not swallow the exception of the body and replaces it by its own. *)
Definition wwith {A} (C : crypto) (body : W A) : W A :=
  do_handshake C ;;; wfinally body (wclose C).

(* simple_client.py:21-33: the request, then one read.  The host name, the
   request and the decoding of the response are left out. *)
Definition simple_client (C : crypto) (request : bytes) : W bytes :=
  wwith C (wwrite C request ;;; wread C).

(* --- examples/simple_server.py ------------------------------------------- *)
(* a text is the list of its code points *)
Definition text := list N.
(* bytes.decode(): UTF-8, strict; None when it raises UnicodeDecodeError.  The
   table of the well-formed sequences is that of the Unicode standard. *)
Definition cont (b : byte) : bool := (128 <=? bN b) && (bN b <=? 191).
Definition between (a b : N) (x : byte) : bool := (a <=? bN x) && (bN x <=? b).
Definition low6 (b : byte) : N := bN b - 128.
Fixpoint utf8_decode (b : bytes) : option text :=
  match b with
  | [] => Some []
  | x :: b1 =>
    if bN x <? 128 then option_map (cons (bN x)) (utf8_decode b1)
    else match b1 with
    | [] => None
    | y :: b2 =>
      if between 194 223 x && cont y
      then option_map (cons ((bN x - 192) * 64 + low6 y)) (utf8_decode b2)
      else match b2 with
      | [] => None
      | z :: b3 =>
        if between 224 239 x && between (if bN x =? 224 then 160 else 128) (if bN x =? 237 then 159 else 191) y && cont z
        then option_map (cons ((bN x - 224) * 4096 + low6 y * 64 + low6 z)) (utf8_decode b3)
        else match b3 with
        | [] => None
        | t :: b4 =>
          if between 240 244 x && between (if bN x =? 240 then 144 else 128) (if bN x =? 244 then 143 else 191) y && cont z && cont t
          then option_map (cons ((bN x - 240) * 262144 + low6 y * 4096 + low6 z * 64 + low6 t)) (utf8_decode b4)
          else None
        end
      end
    end
  end.
(* str.partition('\r\n')[0] *)
Fixpoint before_crlf (s : text) : text :=
  match s with
  | [] => []
  | a :: s1 =>
    match s1 with
    | b :: _ => if (a =? 13) && (b =? 10) then [] else a :: before_crlf s1
    | [] => [a]
    end
  end.
(* str.isspace() of one character *)
Definition unicode_space (c : N) : bool :=
  ((9 <=? c) && (c <=? 13)) || ((28 <=? c) && (c <=? 32)) ||
  memN c [0x85; 0xA0; 0x1680; 0x2028; 0x2029; 0x202F; 0x205F; 0x3000] || ((0x2000 <=? c) && (c <=? 0x200A)).
(* str.split(); [w] is the word being read, reversed *)
Fixpoint text_split (w : text) (s : text) : list text :=
  match s with
  | [] => if is_nil w then [] else [rev w]
  | c :: s' =>
    if unicode_space c then (if is_nil w then text_split [] s' else rev w :: text_split [] s')
    else text_split (c :: w) s'
  end.
Definition text_eqb (a b : text) : bool := if list_eq_dec N.eq_dec a b then true else false.
Definition GET : text := [71; 69; 84].
(* simple_server.py:54-65: the request line, unbound when the decoding raises,
   and the status code *)
Definition verdict (request : bytes) : option text * N :=
  match utf8_decode request with
  | None => (None, 400)
  | Some s =>
    let line := before_crlf s in
    (Some line,
     match text_split [] line with
     | [meth; path; version] =>
       if negb (text_eqb meth GET) then 405
       else if negb (text_eqb path [47]) then 404
       else 200
     | _ => 400                                       (* ValueError: not enough, or too many, values *)
     end)
  end.
(* --- utils.py:62-97: the HTTP messages ------------------------------------ *)
(* str.encode() of one character that is no surrogate *)
Definition utf8_char (n : N) : bytes :=
  if n <? 0x80 then [Nb n]
  else if n <? 0x800 then [Nb (192 + n / 64); Nb (128 + n mod 64)]
  else if n <? 0x10000 then [Nb (224 + n / 4096); Nb (128 + (n / 64) mod 64); Nb (128 + n mod 64)]
  else [Nb (240 + n / 262144); Nb (128 + (n / 4096) mod 64); Nb (128 + (n / 64) mod 64); Nb (128 + n mod 64)].
Definition surrogate (n : N) : bool := (0xD800 <=? n) && (n <=? 0xDFFF).
(* str.encode(); None when it raises UnicodeEncodeError *)
Definition utf8_encode (s : text) : option bytes :=
  if existsb surrogate s then None else Some (flat_map utf8_char s).
(* str(int) of a natural number *)
Fixpoint decimal_loop (fuel : nat) (n : N) (acc : text) : text :=
  match fuel with
  | O => acc
  | S fuel' => if n <? 10 then (48 + n) :: acc else decimal_loop fuel' (n / 10) ((48 + n mod 10) :: acc)
  end.
Definition decimal (n : N) : text := decimal_loop (S (N.size_nat n)) n [].
Definition txt (s : String.string) : text := map bN (ascii_bytes s).
Definition CRLF : text := [13; 10].
(* the lines common to both messages, utils.py:66-70 and 85-89; [length] of the
   templates is len(body), a number of characters *)
Definition http_tail (body : text) : text :=
  txt "Connection: close" ++ CRLF ++
  txt "Content-Type: text/plain; charset=utf-8" ++ CRLF ++
  txt "Content-Length: " ++ decimal (N.of_nat (length body)) ++ CRLF ++ CRLF ++ body.
(* utils.py:62-79; [version] is siotls.__version__ *)
Definition http_request (version host meth path body : text) : text :=
  meth ++ txt " " ++ path ++ txt " HTTP/1.1" ++ CRLF ++
  txt "Host: " ++ host ++ CRLF ++
  txt "User-Agent: siotls/" ++ version ++ CRLF ++ http_tail body.
(* HTTPStatus(code).phrase, for the codes of the server *)
Definition phrase (code : N) : text :=
  if code =? 200 then txt "OK"
  else if code =? 404 then txt "Not Found"
  else if code =? 405 then txt "Method Not Allowed"
  else txt "Bad Request".
(* utils.py:81-97; [date] is format_date_time(...) *)
Definition http_response (version date : text) (code : N) (body : text) : text :=
  txt "HTTP/1.1 " ++ decimal code ++ txt " " ++ phrase code ++ CRLF ++
  txt "Date: " ++ date ++ CRLF ++
  txt "Server: siotls/" ++ version ++ CRLF ++ http_tail body.

(* simple_server.py:60-66 *)
Definition body_of (code : N) : text := if code =? 200 then txt "Hello from siotls" ++ [10] else [].
(* simple_server.py:50-77.  Logging an unbound request_line is
   UnboundLocalError: XOther 0. *)
Definition handle_one (C : crypto) (version date : text) : W unit :=
  wwith C
    (dow request <- wread C;
     let (line, code) := verdict request in
     match utf8_encode (http_response version date code (body_of code)) with
     | None => fun s => (Err XUnicode, s)
     | Some response =>
       wwrite C response ;;;
       fun s => (match line with Some _ => Ok tt | None => Err (XOther 0) end, s)
     end).
