(* What a connection passes to key_logger (siotls/__init__.py:9-12). *)
From Verif Require Import Base Cipher Conn.

(* bytes.hex() *)
Definition hex_digit (n : N) : byte := Nb (if n <? 10 then 48 + n else 87 + n).
Definition hex (b : bytes) : bytes := flat_map (fun x => [hex_digit (bN x / 16); hex_digit (bN x mod 16)]) b.

(* ciphers.py:256-260 and 296-302: key_logger.info("LABEL %s %s", unique, secret) *)
Definition key_line (unique : bytes) (e : String.string * bytes) : bytes :=
  ascii_bytes (fst e) ++ x20 :: hex unique ++ x20 :: hex (snd e).

(* ciphers.py:124: client_unique.hex() if log_keys else '', and the tests
   [if self._client_unique_hex] before each line.  The string is that of the
   connection's _client_unique when the cipher object is made
   (wait_client_hello.py:97-99, wait_server_hello.py:39-40); the model reads
   _client_unique itself, which is not assigned afterwards. *)
Definition key_lines (log_keys : bool) (c : conn) : list bytes :=
  match c_cunique c with
  | Some ((_ :: _) as u) => if log_keys then map (key_line u) (klog c) else []
  | _ => []
  end.
