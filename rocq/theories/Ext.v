(* contents/handshakes/extensions: TLS extensions, parsing and serializing. *)
From Verif Require Import Base Iana Serial Crypto.

(* The `.name` of the handshake type an extension is found in
   (extensions/__init__.py:67,81) *)
Inductive hname := NClientHello | NServerHello | NHelloRetry | NEncryptedExt
                 | NCertificate | NCertRequest | NNewSession.

(* One constructor per extension class.  ServerNameListRequest.server_names is
   a dict keyed by NameType, which has the single member HOST_NAME, hence the
   option. Lists of enum members or ints are lists of N. *)
Inductive ext :=
| EServerNameReq (host : option str)
| EServerNameResp
| EMaxFragLen (code : N)
| EStatusReq (responders : list bytes) (exts : bytes)
| EOcspStatus (resp : bytes)
| ESupportedGroups (l : list N)
| ESigAlgs (l : list N)
| ESigAlgsCert (l : list N)
| EHeartbeat (mode : N)
| EAlpn (l : list str)
| ESct
| EClientCertTypeReq (l : list N)
| EClientCertTypeResp (t : N)
| EServerCertTypeReq (l : list N)
| EServerCertTypeResp (t : N)
| EPadding (n : N)
| EPskReq (ids : list (bytes * N)) (binders : list bytes)
| EPskResp (i : N)
| EEarlyData
| ENewSessionEarlyData (n : N)
| ESupVersionsReq (l : list N)
| ESupVersionsResp (v : N)
| ECookie (c : bytes)
| EPskModes (l : list N)
| EOidFilters (l : list (bytes * bytes))
| EPostHandshakeAuth
| EKeyShareReq (l : list (N * bytes))
| EKeyShareRetry (g : N)
| EKeyShareResp (g : N) (k : bytes)
| EUnknown (ty : N) (data : bytes).

(* extension_type class attribute *)
Definition ext_type (e : ext) : N :=
  match e with
  | EServerNameReq _ | EServerNameResp => SERVER_NAME
  | EMaxFragLen _ => MAX_FRAGMENT_LENGTH
  | EStatusReq _ _ | EOcspStatus _ => STATUS_REQUEST
  | ESupportedGroups _ => SUPPORTED_GROUPS
  | ESigAlgs _ => SIGNATURE_ALGORITHMS
  | ESigAlgsCert _ => SIGNATURE_ALGORITHMS_CERT
  | EHeartbeat _ => HEARTBEAT
  | EAlpn _ => ALPN
  | ESct => SIGNED_CERTIFICATE_TIMESTAMP
  | EClientCertTypeReq _ | EClientCertTypeResp _ => CLIENT_CERTIFICATE_TYPE
  | EServerCertTypeReq _ | EServerCertTypeResp _ => SERVER_CERTIFICATE_TYPE
  | EPadding _ => PADDING
  | EPskReq _ _ | EPskResp _ => PRE_SHARED_KEY
  | EEarlyData | ENewSessionEarlyData _ => EARLY_DATA
  | ESupVersionsReq _ | ESupVersionsResp _ => SUPPORTED_VERSIONS
  | ECookie _ => COOKIE
  | EPskModes _ => PSK_KEY_EXCHANGE_MODES
  | EOidFilters _ => OID_FILTERS
  | EPostHandshakeAuth => POST_HANDSHAKE_AUTH
  | EKeyShareReq _ | EKeyShareRetry _ | EKeyShareResp _ _ => KEY_SHARE
  | EUnknown ty _ => ty
  end.

(* The classes, as found in _extension_registry *)
Inductive ecls :=
| CServerNameReq | CServerNameResp | CMaxFragLen | CStatusReq | CStatus
| CSupportedGroups | CSigAlgs | CUseSrtp | CHeartbeatExt | CAlpn | CSct
| CClientCertTypeReq | CClientCertTypeResp | CServerCertTypeReq | CServerCertTypeResp
| CPadding | CPskReq | CPskResp | CEarlyData | CNewSessionEarlyData
| CSupVersionsReq | CSupVersionsResp | CCookie | CPskModes | CCertAuthorities
| COidFilters | CPostHandshakeAuth | CSigAlgsCert
| CKeyShareReq | CKeyShareRetry | CKeyShareResp | CUnknownExt.

(* _handshake_types of every class, i.e. the content of _extension_registry
   after import.  None: type absent from the registry.  Dynamically created
   UnknownExtension classes register themselves under 'ANY' for their own
   type, so later lookups find an equivalent class: no observable effect. *)
Definition registry (ty : N) : option (hname -> option ecls) :=
  if ty =? SERVER_NAME then Some (fun h =>
    match h with NClientHello => Some CServerNameReq
               | NEncryptedExt => Some CServerNameResp | _ => None end)
  else if ty =? MAX_FRAGMENT_LENGTH then Some (fun h =>
    match h with NClientHello | NEncryptedExt => Some CMaxFragLen | _ => None end)
  else if ty =? STATUS_REQUEST then Some (fun h =>
    match h with NClientHello | NCertRequest => Some CStatusReq
               | NCertificate => Some CStatus | _ => None end)
  else if ty =? SUPPORTED_GROUPS then Some (fun h =>
    match h with NClientHello | NEncryptedExt => Some CSupportedGroups | _ => None end)
  else if ty =? SIGNATURE_ALGORITHMS then Some (fun h =>
    match h with NClientHello | NCertRequest => Some CSigAlgs | _ => None end)
  else if ty =? USE_SRTP then Some (fun h =>
    match h with NClientHello | NEncryptedExt => Some CUseSrtp | _ => None end)
  else if ty =? HEARTBEAT then Some (fun h =>
    match h with NClientHello | NEncryptedExt => Some CHeartbeatExt | _ => None end)
  else if ty =? ALPN then Some (fun h =>
    match h with NClientHello | NEncryptedExt => Some CAlpn | _ => None end)
  else if ty =? SIGNED_CERTIFICATE_TIMESTAMP then Some (fun h =>
    match h with NClientHello | NCertificate | NCertRequest => Some CSct | _ => None end)
  else if ty =? CLIENT_CERTIFICATE_TYPE then Some (fun h =>
    match h with NClientHello => Some CClientCertTypeReq
               | NEncryptedExt => Some CClientCertTypeResp | _ => None end)
  else if ty =? SERVER_CERTIFICATE_TYPE then Some (fun h =>
    match h with NClientHello => Some CServerCertTypeReq
               | NEncryptedExt => Some CServerCertTypeResp | _ => None end)
  else if ty =? PADDING then Some (fun h =>
    match h with NClientHello => Some CPadding | _ => None end)
  else if ty =? PRE_SHARED_KEY then Some (fun h =>
    match h with NClientHello => Some CPskReq | NServerHello => Some CPskResp | _ => None end)
  else if ty =? EARLY_DATA then Some (fun h =>
    match h with NClientHello | NEncryptedExt => Some CEarlyData
               | NNewSession => Some CNewSessionEarlyData | _ => None end)
  else if ty =? SUPPORTED_VERSIONS then Some (fun h =>
    match h with NClientHello => Some CSupVersionsReq
               | NServerHello | NHelloRetry => Some CSupVersionsResp | _ => None end)
  else if ty =? COOKIE then Some (fun h =>
    match h with NClientHello | NServerHello | NHelloRetry => Some CCookie | _ => None end)
  else if ty =? PSK_KEY_EXCHANGE_MODES then Some (fun h =>
    match h with NClientHello => Some CPskModes | _ => None end)
  else if ty =? CERTIFICATE_AUTHORITIES then Some (fun h =>
    match h with NClientHello | NCertRequest => Some CCertAuthorities | _ => None end)
  else if ty =? OID_FILTERS then Some (fun h =>
    match h with NCertRequest => Some COidFilters | _ => None end)
  else if ty =? POST_HANDSHAKE_AUTH then Some (fun h =>
    match h with NClientHello => Some CPostHandshakeAuth | _ => None end)
  else if ty =? SIGNATURE_ALGORITHMS_CERT then Some (fun h =>
    match h with NClientHello | NCertRequest => Some CSigAlgsCert | _ => None end)
  else if ty =? KEY_SHARE then Some (fun h =>
    match h with NClientHello => Some CKeyShareReq
               | NHelloRetry => Some CKeyShareRetry
               | NServerHello => Some CKeyShareResp | _ => None end)
  else None.

(* --- helpers of individual parsers ----------------------------------- *)

(* `Enum(stream.read_int(n))` under `except ValueError: raise IllegalParameter` *)
Definition read_enum (n : N) (members : list N) (bad : N) (s : stream) : res (N * stream) :=
  let* (v, s1) := read_int n s in
  if memN v members then Ok (v, s1) else Err (XAlert bad).

(* alpn.py:35 *)
Definition printable (b : bytes) : bool :=
  forallb (fun c => (32 <=? bN c) && (bN c <=? 126)) b.

(* server_name.py:39-49,70-76: one ServerName; None when contextlib.suppress
   (server_name.py:113) swallows a UnicodeError *)
Definition parse_server_name (C : crypto) (s : stream) : res (option str * stream) :=
  let* (ty, s1) := read_int 1 s in
  if negb (ty =? 0) then Err (XAlert UNRECOGNIZED_NAME)
  else
    let* (b, s2) := read_var 2 s1 in
    match cr_idna_decode C b with
    | Ok h => Ok (Some h, s2)
    | Err XUnicode => Ok (None, s2)
    | Err e => Err e
    end.

(* server_name.py:96-102 ServerNameListRequest.__init__ *)
Fixpoint collect_names (acc : option str) (l : list (option str)) : res (option str) :=
  match l with
  | [] => Ok acc
  | None :: l' => collect_names acc l'
  | Some h :: l' =>
    match acc with
    | None => collect_names (Some h) l'
    | Some h0 => if beqb h0 h then collect_names acc l' else Err (XAlert ILLEGAL_PARAMETER)
    end
  end.

(* key_share.py:36-42 *)
Definition parse_share (s : stream) : res ((N * bytes) * stream) :=
  let* (g, s1) := read_int 2 s in
  let* (k, s2) := read_var 2 s1 in
  Ok ((g, k), s2).

(* key_share.py:36-42: the duplicate test happens inside the loop, after both
   reads of the entry *)
Fixpoint parse_shares (fuel : nat) (seen : list N) (s : stream) : res (list (N * bytes)) :=
  if is_eof s then Ok []
  else match fuel with
       | O => Err XFuel
       | S fuel' =>
         let* (e, s1) := parse_share s in
         if memN (fst e) seen then Err (XAlert ILLEGAL_PARAMETER)
         else
           let* l := parse_shares fuel' (fst e :: seen) s1 in
           Ok (e :: l)
       end.

(* pre_shared_key.py:45-48 *)
Definition parse_psk_id (s : stream) : res ((bytes * N) * stream) :=
  let* (b, s1) := read_var 2 s in
  let* (age, s2) := read_int 4 s1 in
  Ok ((b, age), s2).

(* oid_filters.py:40-43 *)
Definition parse_oid_filter (s : stream) : res ((bytes * bytes) * stream) :=
  let* (a, s1) := read_var 1 s in
  let* (b, s2) := read_var 2 s1 in
  Ok ((a, b), s2).

(* parse_body of every class *)
Definition parse_ext_body (C : crypto) (ty : N) (c : ecls) (s : stream) : res (ext * stream) :=
  match c with
  | CServerNameReq =>                                  (* server_name.py:108-116 *)
    let* (b, s1) := read_var 2 s in
    let* l := parse_list (parse_server_name C) b in
    let* h := collect_names None l in
    Ok (EServerNameReq h, s1)
  | CServerNameResp => Ok (EServerNameResp, s)         (* server_name.py:140-142 *)
  | CMaxFragLen =>                                     (* max_fragment_length.py:54-60 *)
    let* (v, s1) := read_enum 1 [1; 2; 3; 4] ILLEGAL_PARAMETER s in
    Ok (EMaxFragLen v, s1)
  | CStatusReq =>                                      (* status_request.py:35-44,73-77 *)
    let* (v, s1) := read_enum 1 [STATUS_OCSP] UNRECOGNIZED_NAME s in
    let* (l, s2) := read_listvar 2 2 s1 in
    let* (e, s3) := read_var 2 s2 in
    Ok (EStatusReq l e, s3)
  | CStatus =>                                         (* status_request.py:118-127,146-148 *)
    let* (v, s1) := read_enum 1 [STATUS_OCSP] UNRECOGNIZED_NAME s in
    let* (b, s2) := read_var 3 s1 in
    Ok (EOcspStatus b, s2)
  | CSupportedGroups =>                                (* supported_groups.py:30-36 *)
    let* (l, s1) := read_listint 2 2 s in Ok (ESupportedGroups l, s1)
  | CSigAlgs =>                                        (* signature_algorithms.py:21-27 *)
    let* (l, s1) := read_listint 2 2 s in Ok (ESigAlgs l, s1)
  | CSigAlgsCert =>                                    (* signature_algorithms.py:21-27 *)
    let* (l, s1) := read_listint 2 2 s in Ok (ESigAlgsCert l, s1)
  | CUseSrtp =>                                        (* use_srtp.py:36-43 *)
    let* (b, s1) := read_var 2 s in
    if negb (blen b mod 2 =? 0) then Err XValue        (* zip(strict=True) *)
    else
      let* (m, s2) := read_var 1 s1 in
      Err XType                                        (* serialize_body is abstract *)
  | CHeartbeatExt =>                                   (* heartbeat.py:29-35 *)
    let* (v, s1) := read_enum 1 [1; 2] ILLEGAL_PARAMETER s in Ok (EHeartbeat v, s1)
  | CAlpn =>                                           (* alpn.py:30-37 *)
    let* (l, s1) := read_listvar 2 1 s in
    Ok (EAlpn (filter printable l), s1)
  | CSct => Ok (ESct, s)                               (* signed_certificate_timestamp.py:24-26 *)
  | CClientCertTypeReq =>                              (* certificate_type.py:24-33 *)
    let* (l, s1) := read_listint 1 1 s in
    if is_nil l then Err (XAlert ILLEGAL_PARAMETER) else Ok (EClientCertTypeReq l, s1)
  | CServerCertTypeReq =>
    let* (l, s1) := read_listint 1 1 s in
    if is_nil l then Err (XAlert ILLEGAL_PARAMETER) else Ok (EServerCertTypeReq l, s1)
  | CClientCertTypeResp =>                             (* certificate_type.py:50-56 *)
    let* (v, s1) := read_enum 1 certificate_types_enum ILLEGAL_PARAMETER s in
    Ok (EClientCertTypeResp v, s1)
  | CServerCertTypeResp =>
    let* (v, s1) := read_enum 1 certificate_types_enum ILLEGAL_PARAMETER s in
    Ok (EServerCertTypeResp v, s1)
  | CPadding =>                                        (* padding.py:25-27 *)
    let (b, s1) := read_all s in Ok (EPadding (blen b), s1)
  | CPskReq =>                                         (* pre_shared_key.py:41-52 *)
    let* (b, s1) := read_var 2 s in
    let* ids := parse_list parse_psk_id b in
    let* (binders, s2) := read_listvar 2 1 s1 in
    Ok (EPskReq ids binders, s2)
  | CPskResp =>                                        (* pre_shared_key.py:86-89 *)
    let* (v, s1) := read_int 2 s in Ok (EPskResp v, s1)
  | CEarlyData => Ok (EEarlyData, s)                   (* early_data.py:24-26 *)
  | CNewSessionEarlyData =>                            (* early_data.py:47-50 *)
    let* (v, s1) := read_int 4 s in Ok (ENewSessionEarlyData v, s1)
  | CSupVersionsReq =>                                 (* supported_versions.py:27-33 *)
    let* (l, s1) := read_listint 1 2 s in Ok (ESupVersionsReq l, s1)
  | CSupVersionsResp =>                                (* supported_versions.py:57-70 *)
    let* (v, s1) := read_enum 2 tls_versions ILLEGAL_PARAMETER s in
    if v <? TLS_1_3 then Err XValue else Ok (ESupVersionsResp v, s1)
  | CCookie =>                                         (* cookie.py:29-32 *)
    let* (b, s1) := read_var 2 s in Ok (ECookie b, s1)
  | CPskModes =>                                       (* psk_key_exchange_modes.py:26-32 *)
    let* (l, s1) := read_listint 1 1 s in Ok (EPskModes l, s1)
  | CCertAuthorities =>                                (* certificate_authorities.py:30-33 *)
    let* (l, s1) := read_listvar 2 2 s in Err XType    (* serialize_body is abstract *)
  | COidFilters =>                                     (* oid_filters.py:36-44 *)
    let* (b, s1) := read_var 2 s in
    let* l := parse_list parse_oid_filter b in
    Ok (EOidFilters l, s1)
  | CPostHandshakeAuth => Ok (EPostHandshakeAuth, s)   (* post_handshake_auth.py:20-22 *)
  | CKeyShareReq =>                                    (* key_share.py:32-43 *)
    let* (b, s1) := read_var 2 s in
    let* l := parse_shares (length b) [] (stream_of b) in
    Ok (EKeyShareReq l, s1)
  | CKeyShareRetry =>                                  (* key_share.py:75-81 *)
    let* (v, s1) := read_enum 2 named_groups ILLEGAL_PARAMETER s in
    Ok (EKeyShareRetry v, s1)
  | CKeyShareResp =>                                   (* key_share.py:109-113 *)
    let* (g, s1) := read_int 2 s in
    let* (k, s2) := read_var 2 s1 in
    Ok (EKeyShareResp g k, s2)
  | CUnknownExt =>                                     (* extensions/__init__.py:121-123 *)
    let (b, s1) := read_all s in Ok (EUnknown ty b, s1)
  end.

(* extensions/__init__.py:75-96 Extension.parse *)
Definition parse_ext (C : crypto) (h : hname) (s : stream) : res (ext * stream) :=
  let* (ty, s1) := read_int 2 s in
  let* c :=
    match registry ty with
    | Some f => match f h with
                | Some c => Ok c
                | None => Err (XAlert ILLEGAL_PARAMETER)
                end
    | None => Ok CUnknownExt
    end in
  let* (len, s2) := read_int 2 s1 in
  with_limit len (fun _ => parse_ext_body C ty c) s2.

(* `list_stream = SerialIO(stream.read_var(2)); while not eof: Extension.parse` *)
Definition parse_exts (C : crypto) (h : hname) (s : stream) : res (list ext * stream) :=
  let* (b, s1) := read_var 2 s in
  let* l := parse_list (parse_ext C h) b in
  Ok (l, s1).

(* --- serializing ------------------------------------------------------ *)

(* len(str): number of code points of a UTF-8 encoded string *)
Definition str_len (s : str) : N :=
  N.of_nat (length (filter (fun b => negb ((128 <=? bN b) && (bN b <? 192))) s)).

(* (len(l) * k).to_bytes(n) followed by the items on k bytes *)
Definition put_ints (n k : nat) (l : list N) : res bytes :=
  let* len := to_bytes n (N.of_nat (length l) * N.of_nat k) in
  let* b := join_map (to_bytes k) l in
  Ok (len ++ b).

(* server_name.py:51-55,78-82: the length is that of the str, not of its IDNA
   encoding *)
Definition put_host_name (C : crypto) (h : str) : res bytes :=
  let* t := to_bytes 1 0 in
  let* len := to_bytes 2 (str_len h) in
  let* b := cr_idna_encode C h in
  Ok (t ++ len ++ b).

Definition ser_ext_body (C : crypto) (e : ext) : res bytes :=
  match e with
  | EServerNameReq h =>                                (* server_name.py:118-128 *)
    let* b := match h with Some h => put_host_name C h | None => Ok [] end in
    put_var 2 b
  | EServerNameResp | ESct | EEarlyData | EPostHandshakeAuth => Ok []
  | EMaxFragLen c => to_bytes 1 c                      (* max_fragment_length.py:62-63 *)
  | EStatusReq l x =>                                  (* status_request.py:46-50,79-90 *)
    let* t := to_bytes 1 STATUS_OCSP in
    let* ids := join_map (put_var 2) l in
    let* a := put_var 2 ids in
    let* b := put_var 2 x in
    Ok (t ++ a ++ b)
  | EOcspStatus r =>                                   (* status_request.py:129-133,150-154 *)
    let* t := to_bytes 1 STATUS_OCSP in
    let* b := put_var 3 r in
    Ok (t ++ b)
  | ESupportedGroups l => put_ints 2 2 l               (* supported_groups.py:38-45 *)
  | ESigAlgs l | ESigAlgsCert l => put_ints 2 2 l      (* signature_algorithms.py:29-36 *)
  | EHeartbeat m => to_bytes 1 m                       (* heartbeat.py:37-38 *)
  | EAlpn l =>                                         (* alpn.py:39-48 *)
    let* b := join_map (put_var 1) l in put_var 2 b
  | EClientCertTypeReq l | EServerCertTypeReq l =>     (* certificate_type.py:35-39: *)
    Err XAttr                                          (* self.certificate_type is missing *)
  | EClientCertTypeResp t | EServerCertTypeResp t =>   (* certificate_type.py:58-60: *)
    Err XAttr                                          (* a classmethod reading an instance attribute *)
  | EPadding n => Ok (zeros n)                         (* padding.py:29-30 *)
  | EPskReq ids binders =>                             (* pre_shared_key.py:54-68 *)
    match ids with
    | _ :: _ => Err XAttr                              (* pskid.identify *)
    | [] =>
      let* a := put_var 2 [] in
      let* l := to_bytes 2 (N.of_nat (length binders)) in
      Ok (a ++ l ++ concat binders)
    end
  | EPskResp i => to_bytes 2 i                         (* pre_shared_key.py:91-92 *)
  | ENewSessionEarlyData n => to_bytes 4 n             (* early_data.py:52-53 *)
  | ESupVersionsReq l => put_ints 1 2 l                (* supported_versions.py:35-39 *)
  | ESupVersionsResp v => to_bytes 2 v                 (* supported_versions.py:72-73 *)
  | ECookie c => put_var 2 c                           (* cookie.py:34-38 *)
  | EPskModes l => put_ints 1 1 l                      (* psk_key_exchange_modes.py:34-38 *)
  | EOidFilters l =>                                   (* oid_filters.py:46-59 *)
    let* b := join_map (fun p =>
                let* x := put_var 1 (fst p) in
                let* y := put_var 2 (snd p) in Ok (x ++ y)) l in
    put_var 2 b
  | EKeyShareReq l =>                                  (* key_share.py:45-57 *)
    let* b := join_map (fun p =>
                let* g := to_bytes 2 (fst p) in
                let* k := put_var 2 (snd p) in Ok (g ++ k)) l in
    put_var 2 b
  | EKeyShareRetry g => to_bytes 2 g                   (* key_share.py:83-84 *)
  | EKeyShareResp g k =>                               (* key_share.py:115-120 *)
    let* a := to_bytes 2 g in
    let* b := put_var 2 k in Ok (a ++ b)
  | EUnknown _ d => Ok d                               (* extensions/__init__.py:125-126 *)
  end.

(* extensions/__init__.py:98-104 *)
Definition ser_ext (C : crypto) (e : ext) : res bytes :=
  let* b := ser_ext_body C e in
  let* t := to_bytes 2 (ext_type e) in
  let* d := put_var 2 b in
  Ok (t ++ d).

Definition ser_exts (C : crypto) (l : list ext) : res bytes :=
  let* b := join_map (ser_ext C) l in put_var 2 b.

(* {ext.extension_type: ext for ext in extensions}: a later value replaces an
   earlier one in place *)
Fixpoint dict_add (e : ext) (d : list ext) : list ext :=
  match d with
  | [] => [e]
  | x :: d' => if ext_type x =? ext_type e then e :: d' else x :: dict_add e d'
  end.
Definition ext_dict (l : list ext) : list ext := fold_left (fun d e => dict_add e d) l [].

(* extensions.get(type) *)
Definition ext_get (ty : N) (d : list ext) : option ext :=
  find (fun e => ext_type e =? ty) d.
