(* __main__.py, trust_store.py, examples/simple_client.py:10-37 and
   examples/simple_server.py:14-50: the program. *)
From Verif Require Import Base Crypto Config Iana Conn KeyLog Wrapper Examples.

Local Open Scope string_scope.
Local Open Scope N_scope.
Local Open Scope list_scope.

(* __main__.py:43-64, what argparse makes of the command line.  The parsing, the
   port and the verbosity are left out.  A path is its bytes. *)
Record options := mkOptions {
  o_side : side;
  o_host : str;
  o_cert : option bytes;
  o_key : option bytes;
  o_keylog : option bytes;
  o_insecure : bool
}.

(* What socket.accept gives: a client, with what the program draws and reads on
   the clock for it; Ctrl-C; an exception.  KeyboardInterrupt is only modelled
   there, where it is in the hands of the user. *)
Inductive accepted :=
| AClient (k : sock) (flip : bool) (random : bytes) (rng : N -> bytes) (date : text)
| AInterrupt
| AFail (e : exn).

(* The rest of the world: files, the loaders of the cryptography library, the
   operating system, the network, the random numbers. *)
Record world := mkWorld {
  w_version : text;                       (* siotls.__version__ *)
  w_handler : bytes -> res unit;          (* the handler of --keylogfile: logging.FileHandler(path, 'w'), or StreamHandler() *)
  w_readable : bytes -> bool;             (* os.access(path, os.R_OK) *)
  w_file : bytes -> res bytes;            (* open(path, 'rb'), read() *)
  w_load_key : bytes -> res bytes;        (* load_pem_private_key *)
  w_load_chain : bytes -> res (list bytes); (* load_pem_x509_certificates *)
  w_load_store : bytes -> res N;          (* Store(load_pem_x509_certificates(...)) *)
  w_system : text;                        (* platform.system() *)
  w_release : res (text * text);          (* platform.freedesktop_os_release(): ID, ID_LIKE or '' *)
  w_dial : res sock;                      (* socket.create_connection *)
  w_flip : bool; w_random : bytes; w_rng : N -> bytes;
  w_listen : res unit;                    (* socket, setsockopt, bind, listen *)
  w_accept : list accepted                (* when it is used up, accept blocks *)
}.

(* trust_store.py:6-13 *)
Definition ca_paths : list (text * bytes) :=
  [ (txt "alpine", ascii_bytes "/etc/ssl/certs/ca-certificates.crt");
    (txt "arch", ascii_bytes "/etc/ca-certificates/extracted/tls-ca-bundle.pem");
    (txt "debian", ascii_bytes "/etc/ssl/certs/ca-certificates.crt");
    (txt "fedora", ascii_bytes "/etc/pki/ca-trust/extracted/pem/tls-ca-bundle.pem");
    (txt "suse", ascii_bytes "/var/lib/ca-certificates/ca-bundle.pem");
    (txt "ubuntu", ascii_bytes "/etc/ssl/certs/ca-certificates.crt") ].
(* trust_store.py:34-41; Utils has the same lookup for ASCII names, this one is
   for any str *)
Fixpoint ca_path (ids : list text) : res bytes :=
  match ids with
  | [] => Err XValue
  | i :: ids' =>
    match find (fun p => text_eqb (fst p) i) ca_paths with
    | Some p => Ok (snd p)
    | None => ca_path ids'
    end
  end.
(* trust_store.py:16-31 and 44-53; the three others raise
   NotImplementedError *)
Definition system_store (w : world) : res N :=
  if text_eqb (w_system w) (txt "Linux") then
    let* r := w_release w in
    let* path := ca_path (fst r :: text_split [] (snd r)) in
    let* data := w_file w path in
    w_load_store w data
  else if existsb (text_eqb (w_system w)) [txt "Darwin"; txt "Java"; txt "Windows"] then Err XNotImpl
  else Err XValue.

(* configuration.py:27-70: the defaults *)
Definition default_suites : list N := [TLS_CHACHA20_POLY1305_SHA256; TLS_AES_256_GCM_SHA384; TLS_AES_128_GCM_SHA256].
Definition default_groups : list N := [x25519; secp256r1].
Definition default_sigalgs : list N :=
  [ ed25519; ed448; ecdsa_secp256r1_sha256; ecdsa_secp384r1_sha384; ecdsa_secp521r1_sha512;
    rsa_pss_pss_sha256; rsa_pss_pss_sha384; rsa_pss_pss_sha512;
    rsa_pss_rsae_sha256; rsa_pss_rsae_sha384; rsa_pss_rsae_sha512 ].
Definition http_alpn : list str := [ascii_bytes "http/1.1"; ascii_bytes "http/1.0"].
(* simple_client.py:11-14 *)
Definition client_config (trust : option N) : config :=
  mkConfig Client default_suites default_groups default_sigalgs trust None 5 [] None None None
    16384 true http_alpn [].
(* simple_server.py:17-22 *)
Definition server_config (key : bytes) (chain : list bytes) : config :=
  mkConfig Server default_suites default_groups default_sigalgs None None 5 [] (Some key) None (Some chain)
    16384 true http_alpn [].
(* configuration.py:70; neither of the two examples says otherwise *)
Definition log_keys : bool := false.

(* how one connection ended: the exception or not, and what is left of it *)
Definition ended := (res unit * option (conn * sock))%type.

(* simple_client.py:10-37; what was read is given back, it is printed there.
   The host is a str, that is a valid UTF-8 encoding here: one with surrogates
   is not in the model.  The decoding of the response replaces what is not
   UTF-8 and does not raise. *)
Definition connect (C : crypto) (w : world) (host : str) (check_certificate : bool) : res bytes * option (conn * sock) :=
  match
    (let* trust := (if check_certificate then let* s := system_store w in Ok (Some s) else Ok None) in
     let g := client_config trust in
     let* _ := check_config g in
     let* k := w_dial w in
     let* c := new_conn (w_flip w) g (Some host) true (w_random w) (w_rng w) in
     Ok (c, k))
  with
  | Err e => (Err e, None)
  | Ok s =>
    let request := match utf8_decode host with
                   | Some h => utf8_encode (http_request (w_version w) h (txt "GET") (txt "/") [])
                   | None => None
                   end in
    let (r, s') := wwith C (match request with
                            | Some b => wwrite C b ;;; wread C
                            | None => fun s => (Err XUnicode, s)
                            end) s in
    (r, Some s')
  end.

(* simple_server.py:51-52 and 53-80, one client *)
Definition handle (C : crypto) (version : text) (g : config) (k : sock) (flip : bool) (random : bytes)
  (rng : N -> bytes) (date : text) : ended :=
  match new_conn flip g None true random rng with
  | Err e => (Err e, None)
  | Ok c => let (r, s) := handle_one C version date (c, k) in (r, Some s)
  end.
(* simple_server.py:30-50: the exception of a client is logged, that of accept
   leaves the loop; None while the loop runs.  settimeout and close do not raise. *)
Fixpoint serve_loop (C : crypto) (version : text) (g : config) (l : list accepted) : option (res unit) * list ended :=
  match l with
  | [] => (None, [])
  | AInterrupt :: _ => (Some (Ok tt), [])
  | AFail e :: _ => (Some (Err e), [])
  | AClient k flip random rng date :: l' =>
    let x := handle C version g k flip random rng date in
    let (r, xs) := serve_loop C version g l' in (r, x :: xs)
  end.
(* simple_server.py:14-50 *)
Definition serve (C : crypto) (w : world) (chain_path key_path : bytes) : option (res unit) * list ended :=
  match
    (let* chain_data := w_file w chain_path in
     let* key_data := w_file w key_path in
     let* key := w_load_key w key_data in
     let* chain := w_load_chain w chain_data in
     let g := server_config key chain in
     let* _ := check_config g in
     let* _ := w_listen w in
     Ok g)
  with
  | Err e => (Some (Err e), [])
  | Ok g => serve_loop C (w_version w) g (w_accept w)
  end.

(* the process: it exits, an exception leaves main, or it waits for clients *)
Inductive outcome := Exits (code : N) | Raises (e : exn) | Waits.
Record ran := mkRan {
  r_outcome : outcome;
  r_shown : option bytes;     (* the response the client prints, before its decoding *)
  r_ended : list ended        (* its connections *)
}.
(* os.access of an option that is given *)
Definition missing (w : world) (path : option bytes) : bool :=
  match path with Some p => negb (w_readable w p) | None => false end.
(* os.fspath(None) is TypeError *)
Definition fspath (path : option bytes) : res bytes :=
  match path with Some p => Ok p | None => Err XType end.
Definition code_of (r : res unit) : outcome := match r with Ok _ => Exits 0 | Err _ => Exits 1 end.
(* __main__.py:70-106 *)
Definition main (C : crypto) (w : world) (o : options) : ran :=
  match (match o_keylog o with Some p => w_handler w p | None => Ok tt end) with
  | Err e => mkRan (Raises e) None []
  | Ok _ =>
    if missing w (o_cert o) then mkRan (Exits 1) None []
    else if missing w (o_key o) then mkRan (Exits 1) None []
    else match o_side o with
    | Server =>
      match (let* a := fspath (o_cert o) in let* b := fspath (o_key o) in Ok (a, b)) with
      | Err _ => mkRan (Exits 1) None []
      | Ok (a, b) =>
        let (r, xs) := serve C w a b in
        mkRan (match r with Some r' => code_of r' | None => Waits end) None xs
      end
    | Client =>
      let (r, s) := connect C w (o_host o) (negb (o_insecure o)) in
      let r' := match r with Ok _ => Ok tt | Err e => Err e end in
      mkRan (code_of r') (match r with Ok b => Some b | Err _ => None end) [(r', s)]
    end
  end.

(* __main__.py:70-76 with siotls/__init__.py:9-12: the lines the handler of
   --keylogfile gets, from connections one after the other *)
Definition key_file (o : options) (r : ran) : list bytes :=
  if opt_bool (o_keylog o)
  then flat_map (fun x => match snd x with Some s => key_lines log_keys (fst s) | None => [] end) (r_ended r)
  else [].
