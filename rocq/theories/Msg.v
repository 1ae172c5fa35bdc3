(* contents: alerts, application data, heartbeat, handshakes. *)
From Verif Require Import Base Iana Serial Crypto Ext.

(* certificate.py:22-112 CertificateEntry: X509 and RawPublicKey, told apart by
   certificate_type; the certificate or key is represented by its DER bytes. *)
Record centry := mkEntry { en_type : N; en_data : bytes; en_exts : list ext }.

(* contents/handshakes/*.py.  [HNone] stands for the None returned by the
   parse_body of EndOfEarlyData, KeyUpdate and NewSessionTicket, which inherit
   the abstract serial.py:37-39. HelloRetryRequest is a subclass of ServerHello
   with its own msg_type: [hrr] is true for it. *)
Inductive hs :=
| HClientHello (random sid : bytes) (suites : list N) (exts : list ext)
| HServerHello (hrr : bool) (random sid : bytes) (suite : N) (exts : list ext)
| HEncExt (exts : list ext)
| HCertReq (ctx : bytes) (exts : list ext)
| HCert (ctx : bytes) (entries : list centry)
| HCertVerify (alg : N) (sig : bytes)
| HFinished (verify_data : bytes)
| HNone.

Inductive content :=
| KCcs
| KAlert (level desc : N)
| KHandshake (h : hs)
| KAppData (data : bytes)
| KHeartbeat (ty : N) (payload padding : bytes).

(* content_type class attribute *)
Definition content_type (c : content) : N :=
  match c with
  | KCcs => CT_CCS
  | KAlert _ _ => CT_ALERT
  | KHandshake _ => CT_HANDSHAKE
  | KAppData _ => CT_APPDATA
  | KHeartbeat _ _ _ => CT_HEARTBEAT
  end.

(* can_fragment class attribute *)
Definition can_fragment (c : content) : bool :=
  match c with KHandshake _ | KAppData _ => true | _ => false end.

(* msg_type, as an integer: None has no such attribute *)
Definition msg_type (h : hs) : option N :=
  match h with
  | HClientHello _ _ _ _ => Some CLIENT_HELLO
  | HServerHello _ _ _ _ _ => Some SERVER_HELLO
  | HEncExt _ => Some ENCRYPTED_EXTENSIONS
  | HCertReq _ _ => Some CERTIFICATE_REQUEST
  | HCert _ _ => Some CERTIFICATE
  | HCertVerify _ _ => Some CERTIFICATE_VERIFY
  | HFinished _ => Some FINISHED
  | HNone => None
  end.

(* server_hello.py:104-107 *)
Definition hrr_random : bytes :=
  [xcf; x21; xad; x74; xe5; x9a; x61; x11; xbe; x1d; x8c; x02; x1e; x65; xb8; x91;
   xc2; xa2; x11; x16; x7a; xbb; x8c; x5e; x07; x9e; x09; xe2; xc8; xa8; x33; x9c].

(* Equality of two extensions of the same class, as needed by
   client_hello.py:16-25.  dataclass equality compares the fields; the two
   certificate type requests (certificate_type.py:62,78) are not decorated and
   inherit Extension.__eq__, which compares extension_type only; client_shares
   is a dict, compared up to order. *)
Fixpoint list_eqb {A} (eq : A -> A -> bool) (a b : list A) : bool :=
  match a, b with
  | [], [] => true
  | x :: a', y :: b' => eq x y && list_eqb eq a' b'
  | _, _ => false
  end.
Definition pair_eqb {A B} (ea : A -> A -> bool) (eb : B -> B -> bool) (x y : A * B) : bool :=
  ea (fst x) (fst y) && eb (snd x) (snd y).
Definition dict_eqb (a b : list (N * bytes)) : bool :=
  Nat.eqb (length a) (length b) &&
  forallb (fun p => match assocN (fst p) b with Some v => beqb (snd p) v | None => false end) a.
Definition opt_eqb {A} (eq : A -> A -> bool) (a b : option A) : bool :=
  match a, b with
  | None, None => true
  | Some x, Some y => eq x y
  | _, _ => false
  end.

Definition ext_eqb (a b : ext) : bool :=
  match a, b with
  | EServerNameReq h1, EServerNameReq h2 => opt_eqb beqb h1 h2
  | EServerNameResp, EServerNameResp => true
  | EMaxFragLen c1, EMaxFragLen c2 => c1 =? c2
  | EStatusReq l1 e1, EStatusReq l2 e2 => list_eqb beqb l1 l2 && beqb e1 e2
  | EOcspStatus b1, EOcspStatus b2 => true      (* status_request.py:135: not a dataclass *)
  | ESupportedGroups l1, ESupportedGroups l2 => list_eqb N.eqb l1 l2
  | ESigAlgs l1, ESigAlgs l2 => list_eqb N.eqb l1 l2
  | ESigAlgsCert l1, ESigAlgsCert l2 => list_eqb N.eqb l1 l2
  | EHeartbeat m1, EHeartbeat m2 => m1 =? m2
  | EAlpn l1, EAlpn l2 => list_eqb beqb l1 l2
  | ESct, ESct => true
  | EClientCertTypeReq _, EClientCertTypeReq _ => true
  | EClientCertTypeResp _, EClientCertTypeResp _ => true
  | EServerCertTypeReq _, EServerCertTypeReq _ => true
  | EServerCertTypeResp _, EServerCertTypeResp _ => true
  | EPadding n1, EPadding n2 => n1 =? n2
  | EPskReq i1 b1, EPskReq i2 b2 =>
    list_eqb (pair_eqb beqb N.eqb) i1 i2 && list_eqb beqb b1 b2
  | EPskResp i1, EPskResp i2 => i1 =? i2
  | EEarlyData, EEarlyData => true
  | ENewSessionEarlyData n1, ENewSessionEarlyData n2 => n1 =? n2
  | ESupVersionsReq l1, ESupVersionsReq l2 => list_eqb N.eqb l1 l2
  | ESupVersionsResp v1, ESupVersionsResp v2 => v1 =? v2
  | ECookie c1, ECookie c2 => beqb c1 c2
  | EPskModes l1, EPskModes l2 => list_eqb N.eqb l1 l2
  | EOidFilters l1, EOidFilters l2 => list_eqb (pair_eqb beqb beqb) l1 l2
  | EPostHandshakeAuth, EPostHandshakeAuth => true
  | EKeyShareReq l1, EKeyShareReq l2 => dict_eqb l1 l2
  | EKeyShareRetry g1, EKeyShareRetry g2 => g1 =? g2
  | EKeyShareResp g1 k1, EKeyShareResp g2 k2 => (g1 =? g2) && beqb k1 k2
  | EUnknown t1 d1, EUnknown t2 d2 => (t1 =? t2) && beqb d1 d2
  | _, _ => false
  end.

(* client_hello.py:16-25 *)
Fixpoint dup_mismatch (l : list ext) : bool :=
  match l with
  | [] => false
  | e :: l' =>
    existsb (fun e2 => (ext_type e =? ext_type e2) && negb (ext_eqb e e2)) l' || dup_mismatch l'
  end.

(* client_hello.py:54-79 ClientHello.__init__; the session id is the class
   attribute b'' *)
Definition mk_client_hello (random : bytes) (suites : list N) (exts : list ext) : res hs :=
  let d := ext_dict exts in
  if negb (blen random =? 32) then Err XValue
  else if is_nil suites then Err XValue
  else if negb (Nat.eqb (length d) (length exts)) && dup_mismatch exts then Err XValue
  else if opt_bool (ext_get PRE_SHARED_KEY d)
          && negb (match rev exts with e :: _ => ext_type e =? PRE_SHARED_KEY | [] => false end)
       then Err XValue
  else if opt_bool (ext_get PRE_SHARED_KEY d)
          && negb (opt_bool (ext_get PSK_KEY_EXCHANGE_MODES d))
       then Err XValue
  else Ok (HClientHello random [] suites d).

(* client_hello.py:82-114 *)
Definition parse_client_hello (C : crypto) (s : stream) : res (hs * stream) :=
  let* (v, s1) := read_int 2 s in
  if negb (v =? TLS_1_2) then Err (XAlert PROTOCOL_VERSION)
  else
    let* (random, s2) := read_exactly 32 s1 in
    let* (sid, s3) := read_var 1 s2 in
    let* (suites, s4) := read_listint 2 2 s3 in
    let* (comp, s5) := read_var 1 s4 in
    if negb (beqb comp [x00]) then Err (XAlert ILLEGAL_PARAMETER)
    else
      let* (exts, s6) := parse_exts C NClientHello s5 in
      let* h := on_value_error (mk_client_hello random suites exts) (XAlert ILLEGAL_PARAMETER) in
      match h with
      | HClientHello r _ cs d => Ok (HClientHello r sid cs d, s6)
      | _ => Err XAttr                     (* never: mk_client_hello only builds ClientHellos *)
      end.

(* server_hello.py:56-83 *)
Definition parse_server_hello (C : crypto) (s : stream) : res (hs * stream) :=
  let* (v, s1) := read_int 2 s in
  if negb (v =? TLS_1_2) then Err (XAlert PROTOCOL_VERSION)
  else
    let* (random, s2) := read_exactly 32 s1 in
    let hrr := beqb random hrr_random in
    let* (sid, s3) := read_var 1 s2 in
    let* (suite, s4) := read_int 2 s3 in
    let* (comp, s5) := read_int 1 s4 in
    if negb (comp =? 0) then Err (XAlert ILLEGAL_PARAMETER)
    else
      let* (exts, s6) := parse_exts C (if hrr then NHelloRetry else NServerHello) s5 in
      Ok (HServerHello hrr random sid suite (ext_dict exts), s6).

(* encrypted_extensions.py:29-37 *)
Definition parse_enc_ext (C : crypto) (s : stream) : res (hs * stream) :=
  let* (exts, s1) := parse_exts C NEncryptedExt s in
  Ok (HEncExt (ext_dict exts), s1).

(* certificate_request.py:32-46 *)
Definition parse_cert_request (C : crypto) (s : stream) : res (hs * stream) :=
  let* (ctx, s1) := read_var 1 s in
  let* (exts, s2) := parse_exts C NCertRequest s1 in
  let d := ext_dict exts in
  if opt_bool (ext_get SIGNATURE_ALGORITHMS d) then Ok (HCertReq ctx d, s2)
  else Err (XAlert ILLEGAL_PARAMETER).

(* certificate.py:49-64 with 87-89 or 104-106 *)
Definition parse_entry (C : crypto) (ct : N) (s : stream) : res (centry * stream) :=
  let* (data, s1) := read_var 3 s in
  let* cert := if ct =? CT_X509 then cr_load_cert C data else cr_load_pubkey C data in
  let* (exts, s2) := parse_exts C NCertificate s1 in
  Ok (mkEntry ct cert (ext_dict exts), s2).

(* certificate.py:147-149 *)
Fixpoint parse_entries (fuel : nat) (C : crypto) (ct limit : N) (s : stream)
  : res (list centry * stream) :=
  if s_pos s <? limit
  then match fuel with
       | O => Err XFuel
       | S fuel' =>
         let* (e, s1) := parse_entry C ct s in
         let* (l, s2) := parse_entries fuel' C ct limit s1 in
         Ok (e :: l, s2)
       end
  else Ok ([], s).

(* certificate.py:132-154.  [pct] is the certificate type negotiated for the
   peer: None when nconfig is None, Some None when the type is not set. *)
Definition parse_certificate (C : crypto) (pct : option (option N)) (s : stream)
  : res (hs * stream) :=
  match pct with
  | None => Err XAttr
  | Some None => Err XKey
  | Some (Some ct) =>
    if negb ((ct =? CT_X509) || (ct =? CT_RAW_PUBLIC_KEY)) then Err XKey
    else
      let* (ctx, s1) := read_var 1 s in
      let* (len, s2) := read_int 3 s1 in
      let* (l, s3) := with_limit len (fun limit s =>
                        parse_entries (length (s_data s)) C ct limit s) s2 in
      Ok (HCert ctx l, s3)
  end.

(* certificate_verify.py:28-32 *)
Definition parse_cert_verify (s : stream) : res (hs * stream) :=
  let* (alg, s1) := read_int 2 s in
  let* (sig, s2) := read_var 2 s1 in
  Ok (HCertVerify alg sig, s2).

(* finished.py:24-26 *)
Definition parse_finished (s : stream) : res (hs * stream) :=
  let (b, s1) := read_all s in Ok (HFinished b, s1).

(* handshakes/__init__.py:42-51 Handshake.parse *)
Definition parse_hs (C : crypto) (pct : option (option N)) (s : stream) : res (hs * stream) :=
  let* (ty, s1) := read_int 1 s in
  let* (len, s2) := read_int 3 s1 in
  let body (p : stream -> res (hs * stream)) := with_limit len (fun _ => p) s2 in
  if ty =? CLIENT_HELLO then body (parse_client_hello C)
  else if ty =? SERVER_HELLO then body (parse_server_hello C)
  else if ty =? ENCRYPTED_EXTENSIONS then body (parse_enc_ext C)
  else if ty =? CERTIFICATE then body (parse_certificate C pct)
  else if ty =? CERTIFICATE_REQUEST then body (parse_cert_request C)
  else if ty =? CERTIFICATE_VERIFY then body parse_cert_verify
  else if ty =? FINISHED then body parse_finished
  else if (ty =? NEW_SESSION_TICKET) || (ty =? END_OF_EARLY_DATA) || (ty =? KEY_UPDATE)
       then body (fun s => Ok (HNone, s))
  else if ty =? MESSAGE_HASH then Err XKey
  else Err (XAlert ILLEGAL_PARAMETER).

(* alerts.py:69-86 *)
Definition parse_alert (s : stream) : res (content * stream) :=
  let* (level, s1) := read_enum 1 [WARNING; FATAL] ILLEGAL_PARAMETER s in
  let* (desc, s2) := read_int 1 s1 in
  Ok (KAlert level desc, s2).

(* heartbeat.py:27-47 *)
Definition parse_heartbeat (s : stream) : res (content * stream) :=
  let* (ty, s1) := read_enum 1 [1; 2] ILLEGAL_PARAMETER s in
  let* (payload, s2) := read_var 2 s1 in
  let (padding, s3) := read_all s2 in
  if 16381 <? blen payload then Err XValue
  else if 16381 - blen payload <? blen padding then Err XValue
  else Ok (KHeartbeat ty payload padding, s3).

(* change_cipher_spec.py:22-28 *)
Definition parse_ccs (s : stream) : res (content * stream) :=
  let* (b, s1) := read_exactly 1 s in
  if beqb b [x01] then Ok (KCcs, s1) else Err (XAlert UNEXPECTED_MESSAGE).

(* contents/__init__.py:14-19 get_parser, then connection.py:106-116: parse,
   assert_eof, TLSBufferError turned into DecodeError *)
Definition parse_content (C : crypto) (pct : option (option N)) (ct : N) (data : bytes)
  : res content :=
  let s := stream_of data in
  let r :=
    if ct =? CT_CCS then parse_ccs s
    else if ct =? CT_ALERT then parse_alert s
    else if ct =? CT_HANDSHAKE then
      let* (h, s1) := parse_hs C pct s in Ok (KHandshake h, s1)
    else if ct =? CT_APPDATA then
      let (b, s1) := read_all s in Ok (KAppData b, s1)
    else if ct =? CT_HEARTBEAT then parse_heartbeat s
    else if ct =? CT_INVALID then Err XKey
    else Err (XAlert DECODE_ERROR) in
  match (let* (c, s1) := r in let* _ := assert_eof s1 in Ok c) with
  | Ok c => Ok c
  | Err e => if is_buffer_error e then Err (XAlert DECODE_ERROR) else Err e
  end.

(* --- serializing ------------------------------------------------------ *)

(* certificate.py:66-75 *)
Definition ser_entry (C : crypto) (e : centry) : res bytes :=
  let* x := join_map (ser_ext C) (en_exts e) in
  let* a := put_var 3 (en_data e) in
  let* b := put_var 2 x in
  Ok (a ++ b).

(* serialize_body of every handshake class *)
Definition ser_hs_body (C : crypto) (h : hs) : res bytes :=
  match h with
  | HClientHello random sid suites exts =>             (* client_hello.py:116-134 *)
    let* x := join_map (ser_ext C) exts in
    let* a := to_bytes 2 TLS_1_2 in
    let* b := put_var 1 sid in
    let* c := put_ints 2 2 suites in
    let* d := put_var 1 [x00] in
    let* e := put_var 2 x in
    Ok (a ++ random ++ b ++ c ++ d ++ e)
  | HServerHello _ random sid suite exts =>            (* server_hello.py:85-97 *)
    let* x := join_map (ser_ext C) exts in
    let* a := to_bytes 2 TLS_1_2 in
    let* b := put_var 1 sid in
    let* c := to_bytes 2 suite in
    let* d := to_bytes 1 0 in
    let* e := put_var 2 x in
    Ok (a ++ random ++ b ++ c ++ d ++ e)
  | HEncExt exts => ser_exts C exts                    (* encrypted_extensions.py:39-44 *)
  | HCertReq ctx exts =>                               (* certificate_request.py:48-56 *)
    let* x := join_map (ser_ext C) exts in
    let* a := put_var 1 ctx in
    let* b := put_var 2 x in
    Ok (a ++ b)
  | HCert ctx l =>                                     (* certificate.py:156-164 *)
    let* x := join_map (ser_entry C) l in
    let* a := put_var 1 ctx in
    let* b := put_var 3 x in
    Ok (a ++ b)
  | HCertVerify alg sig =>                             (* certificate_verify.py:34-39 *)
    let* a := to_bytes 2 alg in
    let* b := put_var 2 sig in
    Ok (a ++ b)
  | HFinished v => Ok v                                (* finished.py:30-31 *)
  | HNone => Err XAttr                                 (* never sent *)
  end.

(* handshakes/__init__.py:53-59 *)
Definition ser_hs (C : crypto) (h : hs) : res bytes :=
  let* b := ser_hs_body C h in
  match msg_type h with
  | None => Err XAttr
  | Some ty =>
    let* t := to_bytes 1 ty in
    let* d := put_var 3 b in
    Ok (t ++ d)
  end.

Definition ser_content (C : crypto) (c : content) : res bytes :=
  match c with
  | KCcs => Ok [x01]                                   (* change_cipher_spec.py:30-31 *)
  | KAlert level desc => to_bytes 2 (level * 256 + desc)  (* alerts.py:88-89 *)
  | KHandshake h => ser_hs C h
  | KAppData d => Ok d                                 (* application_data.py:27-28 *)
  | KHeartbeat _ _ _ => Err XType                      (* heartbeat.py:49-55: b''.join with 4 arguments *)
  end.
