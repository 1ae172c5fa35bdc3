(* connection.py and states/: the connection object.  Methods are computations
   that read and write the connection and either return or raise; what was
   written before an exception stays written. *)
From Verif Require Import Base Iana Serial Crypto Ext Msg Hkdf Cipher Kex Sig Ocsp Transcript Config.

(* states/*.  One constructor per class that can be instantiated, with the
   attributes given to its constructor.  ServerWaitFlight2, WaitCertificate,
   WaitCertificateVerify and WaitEndOfEarlyData are abstract. *)
Inductive state :=
| ClientStart (cookie : option bytes)
| ClientWaitServerHello (first : bool) (shares : list (N * bytes)) (chash : bytes)
| ClientWaitEncryptedExtensions
| ClientWaitCertCr
| ClientWaitCertificate (must : bool)
| ClientWaitCertificateVerify (must : bool) (cert_hash : bytes)
| ClientWaitFinished (must : bool) (cv_hash : bytes)
| ServerStart
| ServerWaitClientHello (first : bool)
| ServerWaitFinished (sf_hash : bytes)
| Connected
| Closed (can_recv can_snd : bool)
| Failed.

(* can_receive, can_send, can_send_application_data attributes *)
Definition can_receive (s : state) : bool :=
  match s with Closed r _ => r | _ => true end.
Definition can_send (s : state) : bool :=
  match s with Closed _ w => w | Failed => false | _ => true end.
Definition can_send_app (s : state) : bool :=
  match s with
  | ServerWaitFinished _ | Connected => true
  | Closed _ w => w                                    (* states/closed.py:10-12 *)
  | _ => false
  end.

(* connection.py:29-65.  [c_cipher] is None for cipher_plaintext.  [c_rng] is
   the stream of private keys drawn by the key exchanges.  [c_log] and
   [c_hs] are ghost: the AEAD sealing operations performed, latest first, and
   the handshake messages fed to the transcript (who sent it, its type, its
   bytes), oldest first. *)
Record conn := mkConn {
  c_config : config;
  c_host : option str;
  c_ocsp : bool;
  c_nc : option nconfig;
  c_cipher : option cs;
  c_sig : option N;
  c_tr : transcript;
  c_in : bytes;
  c_inhs : bytes;
  c_out : bytes;
  c_app : bytes;
  c_cunique : option bytes;
  c_sunique : option bytes;
  c_state : state;
  c_rng : N -> bytes;
  c_rngi : N;
  c_log : list sealing;
  c_hs : list (side * N * bytes)
}.

Definition cset_config v (c : conn) : conn :=
  mkConn v (c_host c) (c_ocsp c) (c_nc c) (c_cipher c) (c_sig c) (c_tr c) (c_in c) (c_inhs c) (c_out c) (c_app c) (c_cunique c) (c_sunique c) (c_state c) (c_rng c) (c_rngi c) (c_log c) (c_hs c).
Definition cset_nc v (c : conn) : conn :=
  mkConn (c_config c) (c_host c) (c_ocsp c) v (c_cipher c) (c_sig c) (c_tr c) (c_in c) (c_inhs c) (c_out c) (c_app c) (c_cunique c) (c_sunique c) (c_state c) (c_rng c) (c_rngi c) (c_log c) (c_hs c).
Definition cset_cipher v (c : conn) : conn :=
  mkConn (c_config c) (c_host c) (c_ocsp c) (c_nc c) v (c_sig c) (c_tr c) (c_in c) (c_inhs c) (c_out c) (c_app c) (c_cunique c) (c_sunique c) (c_state c) (c_rng c) (c_rngi c) (c_log c) (c_hs c).
Definition cset_sig v (c : conn) : conn :=
  mkConn (c_config c) (c_host c) (c_ocsp c) (c_nc c) (c_cipher c) v (c_tr c) (c_in c) (c_inhs c) (c_out c) (c_app c) (c_cunique c) (c_sunique c) (c_state c) (c_rng c) (c_rngi c) (c_log c) (c_hs c).
Definition cset_tr v (c : conn) : conn :=
  mkConn (c_config c) (c_host c) (c_ocsp c) (c_nc c) (c_cipher c) (c_sig c) v (c_in c) (c_inhs c) (c_out c) (c_app c) (c_cunique c) (c_sunique c) (c_state c) (c_rng c) (c_rngi c) (c_log c) (c_hs c).
Definition cset_in v (c : conn) : conn :=
  mkConn (c_config c) (c_host c) (c_ocsp c) (c_nc c) (c_cipher c) (c_sig c) (c_tr c) v (c_inhs c) (c_out c) (c_app c) (c_cunique c) (c_sunique c) (c_state c) (c_rng c) (c_rngi c) (c_log c) (c_hs c).
Definition cset_inhs v (c : conn) : conn :=
  mkConn (c_config c) (c_host c) (c_ocsp c) (c_nc c) (c_cipher c) (c_sig c) (c_tr c) (c_in c) v (c_out c) (c_app c) (c_cunique c) (c_sunique c) (c_state c) (c_rng c) (c_rngi c) (c_log c) (c_hs c).
Definition cset_out v (c : conn) : conn :=
  mkConn (c_config c) (c_host c) (c_ocsp c) (c_nc c) (c_cipher c) (c_sig c) (c_tr c) (c_in c) (c_inhs c) v (c_app c) (c_cunique c) (c_sunique c) (c_state c) (c_rng c) (c_rngi c) (c_log c) (c_hs c).
Definition cset_app v (c : conn) : conn :=
  mkConn (c_config c) (c_host c) (c_ocsp c) (c_nc c) (c_cipher c) (c_sig c) (c_tr c) (c_in c) (c_inhs c) (c_out c) v (c_cunique c) (c_sunique c) (c_state c) (c_rng c) (c_rngi c) (c_log c) (c_hs c).
Definition cset_cunique v (c : conn) : conn :=
  mkConn (c_config c) (c_host c) (c_ocsp c) (c_nc c) (c_cipher c) (c_sig c) (c_tr c) (c_in c) (c_inhs c) (c_out c) (c_app c) v (c_sunique c) (c_state c) (c_rng c) (c_rngi c) (c_log c) (c_hs c).
Definition cset_sunique v (c : conn) : conn :=
  mkConn (c_config c) (c_host c) (c_ocsp c) (c_nc c) (c_cipher c) (c_sig c) (c_tr c) (c_in c) (c_inhs c) (c_out c) (c_app c) (c_cunique c) v (c_state c) (c_rng c) (c_rngi c) (c_log c) (c_hs c).
Definition cset_state v (c : conn) : conn :=
  mkConn (c_config c) (c_host c) (c_ocsp c) (c_nc c) (c_cipher c) (c_sig c) (c_tr c) (c_in c) (c_inhs c) (c_out c) (c_app c) (c_cunique c) (c_sunique c) v (c_rng c) (c_rngi c) (c_log c) (c_hs c).
Definition cset_rngi v (c : conn) : conn :=
  mkConn (c_config c) (c_host c) (c_ocsp c) (c_nc c) (c_cipher c) (c_sig c) (c_tr c) (c_in c) (c_inhs c) (c_out c) (c_app c) (c_cunique c) (c_sunique c) (c_state c) (c_rng c) v (c_log c) (c_hs c).
Definition cset_log v (c : conn) : conn :=
  mkConn (c_config c) (c_host c) (c_ocsp c) (c_nc c) (c_cipher c) (c_sig c) (c_tr c) (c_in c) (c_inhs c) (c_out c) (c_app c) (c_cunique c) (c_sunique c) (c_state c) (c_rng c) (c_rngi c) v (c_hs c).

Definition cset_hs v (c : conn) : conn :=
  mkConn (c_config c) (c_host c) (c_ocsp c) (c_nc c) (c_cipher c) (c_sig c) (c_tr c) (c_in c) (c_inhs c) (c_out c) (c_app c) (c_cunique c) (c_sunique c) (c_state c) (c_rng c) (c_rngi c) (c_log c) v.

(* --- computations ------------------------------------------------------ *)
Definition M (A : Type) := conn -> res A * conn.
Definition ret {A} (a : A) : M A := fun c => (Ok a, c).
Definition raise {A} (e : exn) : M A := fun c => (Err e, c).
Definition bind {A B} (m : M A) (f : A -> M B) : M B :=
  fun c => match m c with
           | (Ok a, c1) => f a c1
           | (Err e, c1) => (Err e, c1)
           end.
Definition get : M conn := fun c => (Ok c, c).
Definition modify (f : conn -> conn) : M unit := fun c => (Ok tt, f c).
Definition lift {A} (r : res A) : M A := fun c => (r, c).

Declare Scope m_scope.
Delimit Scope m_scope with m.
Notation "'do' x <- m ; f" := (bind m (fun x => f))
  (at level 200, x pattern, m at level 100, f at level 200, right associativity) : m_scope.
Notation "m ;; f" := (bind m (fun _ => f))
  (at level 199, f at level 200, right associativity) : m_scope.
#[global] Open Scope m_scope.

Definition set_state (s : state) : M unit := modify (cset_state s).   (* connection.py:194-195 *)

(* run a method of the cipher object; cipher_plaintext has none of them *)
Definition on_cipher {A} (f : cs -> res A * cs) : M A :=
  do c <- get;
  match c_cipher c with
  | None => raise XAttr
  | Some x => let (r, x1) := f x in modify (cset_cipher (Some x1)) ;; lift r
  end.

(* a method of the cipher object that does not change it *)
Definition ask_cipher {A} (f : cs -> res A) : M A :=
  do c <- get;
  match c_cipher c with
  | None => raise XAttr
  | Some x => lift (f x)
  end.
(* self._cipher = the class of this suite, instantiated *)
Definition epoch_w (c : conn) : N := match c_cipher c with Some x => d_epoch (cs_w x) | None => 0 end.
Definition epoch_r (c : conn) : N := match c_cipher c with Some x => d_epoch (cs_r x) | None => 0 end.
(* the lines passed to key_logger so far, also by the objects replaced *)
Definition klog (c : conn) : list (String.string * bytes) := match c_cipher c with Some x => cs_klog x | None => [] end.
Definition set_cipher (suite : N) (sd : side) : M unit :=
  modify (fun c => cset_cipher (Some (cs_logs (klog c) (cs_new (epoch_w c) (epoch_r c) suite sd))) c).

(* assignment to an attribute of self.nconfig *)
Definition upd_nc (f : nconfig -> nconfig) : M unit :=
  do c <- get;
  match c_nc c with
  | None => raise XAttr
  | Some n => modify (cset_nc (Some (f n)))
  end.

Definition on_tr {A} (f : transcript -> res A * transcript) : M A :=
  fun c => let (r, t) := f (c_tr c) in (r, cset_tr t c).
(* self._transcript.update(data, side, msg_type) *)
Definition transcribe (data : bytes) (sd : side) (ty : N) : M unit :=
  on_tr (tr_update data sd ty) ;;
  modify (fun c => cset_hs (c_hs c ++ [(sd, ty, data)]) c).
(* the transcript methods that either succeed or leave it as it was *)
Definition tr_method (f : transcript -> res transcript) : M unit :=
  on_tr (fun t => match f t with Ok t1 => (Ok tt, t1) | Err e => (Err e, t) end).
Definition digest (C : crypto) : M bytes := do c <- get; lift (tr_digest C (c_tr c)).

(* --- record layer ------------------------------------------------------ *)

Definition enc_on (c : conn) : bool :=
  match c_cipher c with Some x => must_encrypt x | None => false end.
Definition dec_on (c : conn) : bool :=
  match c_cipher c with Some x => must_decrypt x | None => false end.
Definition tag_len (c : conn) : N :=
  match c_cipher c with Some x => tag_length (cs_suite x) | None => 0 end.

(* connection.py:197-201 *)
Definition max_frag (c : conn) : N :=
  match c_nc c with
  | Some n => match n_mfl n with Some m => m | None => g_mfl (c_config c) end
  | None => g_mfl (c_config c)
  end.

(* connection.py:24-25, 204-205: drop leading change_cipher_spec records *)
Fixpoint skip_ccs (b : bytes) : bytes :=
  match b with
  | x14 :: _ :: _ :: x00 :: x01 :: x01 :: rest => skip_ccs rest
  | _ => b
  end.

(* connection.py:238-244 *)
Fixpoint strip_zeros (rb : bytes) : bytes :=
  match rb with x00 :: rb' => strip_zeros rb' | _ => rb end.
Definition inner_plaintext (b : bytes) : res (N * bytes) :=
  match strip_zeros (rev_append b []) with
  | [] => Err (XAlert UNEXPECTED_MESSAGE)
  | t :: rb => Ok (bN t, rev_append rb [])
  end.

(* connection.py:203-244 *)
Definition read_next_record (C : crypto) : M (option (N * bytes)) :=
  modify (fun c => cset_in (skip_ccs (c_in c)) c) ;;
  do c <- get;
  if blen (c_in c) <? 5 then ret None
  else
    let ct := of_bytes (btake 1 (c_in c)) in
    let len := of_bytes (btake 2 (bdrop 3 (c_in c))) in
    let maxlen := max_frag c + (if dec_on c then 256 else 0) in
    if maxlen <? len then raise XAttr                  (* alerts.RecordOverFlow does not exist *)
    else if blen (c_in c) - 5 <? len then ret None
    else
      let header := btake 5 (c_in c) in
      let fragment := btake len (bdrop 5 (c_in c)) in
      modify (cset_in (bdrop (len + 5) (c_in c))) ;;
      do (ct, fragment) <-
        (if dec_on c
         then do inner <- on_cipher (decrypt C fragment header); lift (inner_plaintext inner)
         else ret (ct, fragment));
      if ct =? CT_CCS then raise (XAlert UNEXPECTED_MESSAGE)
      else ret (Some (ct, fragment)).

(* connection.py:269 *)
Definition hs_len (b : bytes) : N := of_bytes (btake 3 (bdrop 1 b)).

(* connection.py:270-279: true once the buffer holds the whole message, false
   when input is missing *)
Fixpoint fill_handshake (fuel : nat) (C : crypto) : M bool :=
  do c <- get;
  if blen (c_inhs c) - 4 <? hs_len (c_inhs c)
  then match fuel with
       | O => raise XFuel
       | S fuel' =>
         do r <- read_next_record C;
         match r with
         | None => ret false
         | Some (ct, fragment) =>
           if negb (ct =? CT_HANDSHAKE) then raise (XAlert UNEXPECTED_MESSAGE)
           else
             modify (fun c => cset_inhs (c_inhs c ++ fragment) c) ;;
             fill_handshake fuel' C
         end
       end
  else ret true.

(* connection.py:246-287 *)
Definition read_next_content (C : crypto) : M (option (N * bytes)) :=
  do r <- read_next_record C;
  match r with
  | None => ret None
  | Some (ct, fragment) =>
    do c <- get;
    if is_nil (c_inhs c) && negb (ct =? CT_HANDSHAKE) then ret (Some (ct, fragment))
    else if negb (ct =? CT_HANDSHAKE) then raise (XAlert UNEXPECTED_MESSAGE)
    else
      modify (fun c => cset_inhs (c_inhs c ++ fragment) c) ;;
      do c <- get;
      if blen (c_inhs c) <? 4 then ret None
      else
        do full <- fill_handshake (S (length (c_in c))) C;
        if negb full then ret None
        else
          do c <- get;
          if hs_len (c_inhs c) <? blen (c_inhs c) - 4 then raise XTooMuch
          else
            modify (cset_inhs []) ;;
            ret (Some (CT_HANDSHAKE, c_inhs c))
  end.

(* data[i : i + n] for i in range(0, len(data), n) *)
Fixpoint chunks (fuel : nat) (n : N) (b : bytes) : list bytes :=
  match fuel with
  | O => []
  | S fuel' =>
    match b with
    | [] => []
    | _ => btake n b :: chunks fuel' n (bdrop n b)
    end
  end.

(* connection.py:338-341 *)
Definition record_bytes (ty : N) (fragment : bytes) : res bytes :=
  let* len := to_bytes 2 (blen fragment) in
  Ok (Nb ty :: x03 :: x03 :: len ++ fragment).

(* connection.py:353-359 *)
Definition pad_len (mfl tag len : N) : N :=
  let chunk := N.min mfl 4096 in
  chunk - (len + 1 + tag) mod chunk.
Definition inner_bytes (ct mfl tag : N) (fragment : bytes) : bytes :=
  fragment ++ Nb ct :: zeros (pad_len mfl tag (blen fragment)).

(* StopIteration raised inside a generator becomes RuntimeError (PEP 479) *)
Definition in_generator (e : exn) : exn := match e with XStop => XRuntime | _ => e end.

(* connection.py:346-370, one turn of the generator *)
Definition encrypt_fragment (C : crypto) (ct mfl : N) (fragment : bytes) : M bytes :=
  do c <- get;
  let data := inner_bytes ct mfl (tag_len c) fragment in
  do len <- lift (to_bytes 2 (blen data + tag_len c));
  let header := Nb CT_APPDATA :: x03 :: x03 :: len in
  do (b, s) <- (fun c => match on_cipher (encrypt C data header) c with
                         | (Ok x, c1) => (Ok x, c1)
                         | (Err e, c1) => (Err (in_generator e), c1)
                         end);
  modify (fun c => cset_log (s :: c_log c) c) ;;
  if blen b =? blen data + tag_len c then ret b else raise XAssert.

(* connection.py:336-344 the join over the lazily produced fragments *)
Fixpoint send_fragments (C : crypto) (ct mfl : N) (fragments : list bytes) : M bytes :=
  match fragments with
  | [] => ret []
  | f :: rest =>
    do c <- get;
    do r <- (if enc_on c
             then do e <- encrypt_fragment C ct mfl f; lift (record_bytes CT_APPDATA e)
             else lift (record_bytes ct f));
    do rs <- send_fragments C ct mfl rest;
    ret (r ++ rs)
  end.

(* connection.py:308-324 *)
Definition fragment_limit (c : conn) : N :=
  max_frag c - (if enc_on c then 1 + tag_len c else 0).
Definition fragments_of (limit : N) (can_frag : bool) (data : bytes) : res (list bytes) :=
  if blen data <=? limit then Ok [data]
  else if can_frag then Ok (chunks (length data) limit data)
  else Err XValue.

(* connection.py:289-344 *)
Definition send_content (C : crypto) (k : content) : M unit :=
  do c <- get;
  if (content_type k =? CT_APPDATA) && negb (can_send_app (c_state c)) then raise XTLS
  else if negb (can_send (c_state c)) then raise XTLS
  else match k with
  | KHeartbeat _ _ _ => raise XAttr                    (* config.can_send_heartbeat does not exist *)
  | _ =>
    do data <- lift (ser_content C k);
    (match k with
     | KHandshake h =>
       match msg_type h with
       | None => raise XAttr
       | Some ty => transcribe data (g_side (c_config c)) ty
       end
     | _ => ret tt
     end) ;;
    do c <- get;
    do fragments <- lift (fragments_of (fragment_limit c) (can_fragment k) data);
    do out <- send_fragments C (content_type k) (max_frag c) fragments;
    modify (fun c => cset_out (c_out c ++ out) c)
  end.

(* connection.py:168-175 *)
Definition fail (C : crypto) (alert : option N) : M unit :=
  (match alert with
   | Some code => send_content C (KAlert FATAL code)
   | None => ret tt
   end) ;;
  set_state Failed.

(* --- states ------------------------------------------------------------ *)

(* states/__init__.py:34-53 State.process *)
Definition base_process (k : content) : M unit :=
  match k with
  | KAlert level desc =>
    if desc =? CLOSE_NOTIFY then set_state (Closed true true)
    else if level =? WARNING then
      if memN desc alert_descriptions then ret tt else raise XAttr
    else if memN desc alert_descriptions && negb (desc =? USER_CANCELED)
         then raise (XAlert desc)
         else raise XType
  | KHeartbeat _ _ _ => raise XNotImpl
  | _ => raise (XAlert UNEXPECTED_MESSAGE)
  end.

(* states/client/start.py:35-80 *)
Definition client_extensions (C : crypto) (g : config) (host : option str) (cookie : option bytes)
  (share : N * bytes) : list ext :=
  [ESupVersionsReq [TLS_1_3]; ESigAlgs (g_sigalgs g); ESupportedGroups (g_groups g);
   EHeartbeat (if g_echo g then PEER_ALLOWED_TO_SEND else PEER_NOT_ALLOWED_TO_SEND)]
  ++ (match host with
      | Some (x :: h) => if cr_is_ip C (x :: h) then [] else [EServerNameReq (Some (x :: h))]
      | _ => []
      end)
  ++ (if is_nil (g_alpn g) then [] else [EAlpn (g_alpn g)])
  ++ (if opt_bool (g_public g) then [EClientCertTypeReq (certificate_types g)] else [])
  ++ (if is_nil (g_trusted_keys g) then [] else [EServerCertTypeReq (peer_certificate_types g)])
  ++ (if opt_bool (g_trust g) then [EStatusReq [] []] else [])
  ++ (match cookie with Some (x :: b) => [ECookie (x :: b)] | _ => [] end)
  ++ [EKeyShareReq [share]].

Definition draw : M bytes :=
  do c <- get;
  modify (cset_rngi (c_rngi c + 1)) ;;
  ret (c_rng c (c_rngi c)).

Definition client_initiate (C : crypto) (cookie : option bytes) : M unit :=
  do c <- get;
  let g := c_config c in
  match g_groups g with
  | [] => raise XIndex
  | group :: _ =>
    do priv <- draw;
    do share <- lift (kx_init C group priv);
    match c_cunique c with
    | None => raise XType
    | Some unique =>
      do ch <- lift (mk_client_hello unique (g_suites g)
                       (client_extensions C g (c_host c) cookie (group, share)));
      send_content C (KHandshake ch) ;;
      do h <- digest C;
      do c <- get;
      set_state (ClientWaitServerHello (negb (opt_bool (c_nc c))) [(group, priv)] h)
    end
  end.

(* connection.py:71-87 initiate_connection *)
Definition initiate_connection (C : crypto) : M unit :=
  do c <- get;
  match c_state c with
  | ClientStart cookie => client_initiate C cookie
  | ServerStart => set_state (ServerWaitClientHello true)    (* states/server/start.py:10-11 *)
  | _ => raise XNotImpl                                      (* states/__init__.py:30-32 *)
  end.

(* wait_server_hello.py:49-71 *)
Definition client_process_hrr (C : crypto) (chash : bytes) (exts : list ext) : M unit :=
  match ext_get KEY_SHARE exts with
  | None => raise (XAlert MISSING_EXTENSION)
  | Some (EKeyShareRetry group) =>
    do c <- get;
    if negb (memN group (g_groups (c_config c))) then raise (XAlert ILLEGAL_PARAMETER)
    else
      match c_nc c with
      | Some n =>
        match n_suite n with
        | Some suite =>
          modify (cset_config (restrict (c_config c) suite group (g_sigalgs (c_config c)))) ;;
          tr_method (tr_dance (g_side (c_config c)) chash) ;;
          let cookie := match ext_get COOKIE exts with
                        | Some (ECookie b) => Some b | _ => None end in
          set_state (ClientStart cookie) ;;
          initiate_connection C
        | None => raise XAttr
        end
      | None => raise XAttr
      end
  | Some _ => raise XAttr
  end.

(* wait_server_hello.py:80-115 *)
Definition client_negociate_hello (C : crypto) (shares : list (N * bytes)) (exts : list ext)
  : M bytes :=
  (match ext_get SUPPORTED_VERSIONS exts with
   | Some (ESupVersionsResp v) =>
     if v =? TLS_1_3 then ret tt else raise (XAlert PROTOCOL_VERSION)
   | None => raise (XAlert PROTOCOL_VERSION)
   | Some _ => raise XAttr
   end) ;;
  match ext_get KEY_SHARE exts with
  | None => raise (XAlert MISSING_EXTENSION)
  | Some (EKeyShareResp group key) =>
    match assocN group shares with
    | None => raise (XAlert ILLEGAL_PARAMETER)
    | Some priv =>
      (* nconfig.key_exchanges (sic) is set to the group: no other code reads it *)
      lift (on_value_error (kx_resume C group priv key) (XAlert ILLEGAL_PARAMETER))
    end
  | Some _ => raise XAttr
  end.

(* wait_server_hello.py:73-78 *)
Definition client_process_sh (C : crypto) (shares : list (N * bytes)) (random : bytes)
  (exts : list ext) : M unit :=
  modify (cset_sunique (Some random)) ;;
  do shared <- client_negociate_hello C shares exts;
  on_cipher (skip_early_secrets C) ;;
  do h <- digest C;
  on_cipher (derive_handshake_secrets C shared h) ;;
  set_state ClientWaitEncryptedExtensions.

(* wait_server_hello.py:23-47 *)
Definition process_wait_sh (C : crypto) (first : bool) (shares : list (N * bytes)) (chash : bytes)
  (k : content) : M unit :=
  match k with
  | KHandshake (HServerHello hrr random sid suite exts) =>
    do c <- get;
    if negb (memN suite (g_suites (c_config c))) then raise (XAlert ILLEGAL_PARAMETER)
    else
      (if first then
         modify (cset_nc (Some (nconfig_new (Some suite)))) ;;
         (match suite_hash suite with
          | None => raise XKey
          | Some h =>
            set_cipher suite Client ;;
            tr_method (tr_post_init h)
          end) ;;
         send_content C KCcs
       else ret tt) ;;
      if hrr then client_process_hrr C chash exts else client_process_sh C shares random exts
  | KHandshake _ => if first then base_process k else raise XAttr   (* content.cipher_suite *)
  | _ => base_process k
  end.

(* wait_encrypted_extensions.py:20-91 *)
Definition client_neg_mfl (exts : list ext) : M unit :=
  do c <- get;
  match ext_get MAX_FRAGMENT_LENGTH exts with
  | None => upd_nc (fun n => nset_mfl n (Some 16384))
  | Some (EMaxFragLen code) =>
    match mfl_octets code with
    | None => raise XValue
    | Some o =>
      if negb (o =? g_mfl (c_config c)) then raise (XAlert ILLEGAL_PARAMETER)
      else upd_nc (fun n => nset_mfl n (Some o))
    end
  | Some _ => raise XAttr
  end.
Definition client_neg_alpn (exts : list ext) : M unit :=
  do c <- get;
  match ext_get ALPN exts with
  | None => upd_nc (fun n => nset_alpn n (Some None))
  | Some (EAlpn [p]) =>
    if memB p (g_alpn (c_config c)) then upd_nc (fun n => nset_alpn n (Some (Some p)))
    else raise (XAlert ILLEGAL_PARAMETER)
  | Some (EAlpn _) => raise (XAlert ILLEGAL_PARAMETER)
  | Some _ => raise XAttr
  end.
Definition client_neg_heartbeat (exts : list ext) : M unit :=
  do c <- get;
  match ext_get HEARTBEAT exts with
  | None => upd_nc (fun n => nset_echo_hb (nset_send_hb n (Some false)) (Some false))
  | Some (EHeartbeat m) =>
    upd_nc (fun n => nset_echo_hb (nset_send_hb n (Some (m =? PEER_ALLOWED_TO_SEND)))
                                  (Some (g_echo (c_config c))))
  | Some _ => raise XAttr
  end.
Definition client_neg_cct (exts : list ext) : M unit :=
  do c <- get;
  match ext_get CLIENT_CERTIFICATE_TYPE exts with
  | None => upd_nc (fun n => nset_cct n (Some CT_X509))
  | Some (EClientCertTypeResp t) =>
    if memN t (certificate_types (c_config c)) then upd_nc (fun n => nset_cct n (Some t))
    else raise (XAlert ILLEGAL_PARAMETER)
  | Some _ => raise XAttr
  end.
Definition client_neg_sct (exts : list ext) : M unit :=
  do c <- get;
  match ext_get SERVER_CERTIFICATE_TYPE exts with
  | None => upd_nc (fun n => nset_sct n (Some CT_X509))
  | Some (EServerCertTypeResp t) =>
    if memN t (peer_certificate_types (c_config c)) then upd_nc (fun n => nset_sct n (Some t))
    else raise (XAlert ILLEGAL_PARAMETER)
  | Some _ => raise XAttr
  end.
Definition process_wait_ee (k : content) : M unit :=
  match k with
  | KHandshake (HEncExt exts) =>
    client_neg_mfl exts ;;
    client_neg_alpn exts ;;
    client_neg_heartbeat exts ;;
    client_neg_cct exts ;;
    client_neg_sct exts ;;
    set_state ClientWaitCertCr
  | _ => base_process k
  end.

(* wait_certificate.py:102-121 for one pair of entries.  The service's cache
   and uncache calls only affect later requests, see OcspCache.v. *)
Definition verify_status (C : crypto) (ocsp : bool) (entry issuer : centry) : res unit :=
  match ext_get STATUS_REQUEST (en_exts entry) with
  | Some (EOcspStatus der) =>
    let* req := cr_make_ocsp_req C (en_data entry) (en_data issuer) in
    let* _ := on_value_error (validate_ocsp C (en_data issuer) req der) (XAlert BAD_CERTIFICATE) in
    Ok tt
  | _ =>
    if ocsp then
      let* url := cr_ocsp_url C (en_data entry) in
      match url with
      | Some (x :: u) =>
        let* req := cr_make_ocsp_req C (en_data entry) (en_data issuer) in
        let* der := cr_ocsp_fetch C (Some (x :: u)) req in
        let* _ := on_value_error (validate_ocsp C (en_data issuer) req der) (XAlert BAD_CERTIFICATE) in
        Ok tt
      | _ => Ok tt
      end
    else Ok tt
  end.

(* itertools.pairwise *)
Fixpoint verify_statuses (C : crypto) (ocsp : bool) (l : list centry) : res unit :=
  match l with
  | e :: ((i :: _) as l') => let* _ := verify_status C ocsp e i in verify_statuses C ocsp l'
  | _ => Ok tt
  end.

(* wait_certificate.py:65-121 *)
Definition client_check_x509 (C : crypto) (g : config) (host : option str) (ocsp : bool)
  (l : list centry) : res unit :=
  match map en_data l with
  | [] => Err XValue                                   (* leaf, *rest = () *)
  | leaf :: rest =>
    let* _ := match cr_verify_chain C (g_trust g) (g_depth g)
                      (match host with Some (x :: h) => Some (x :: h) | _ => None end) leaf rest with
              | Ok _ => Ok tt
              | Err XVerif => Err (XAlert BAD_CERTIFICATE)
              | Err e => Err e
              end in
    let* _ := match g_crl g with
              | None => Ok tt
              | Some _ => Err XType                    (* a certificate where a serial number is expected *)
              end in
    verify_statuses C ocsp l
  end.

(* wait_certificate.py:29-52, 123-130 *)
Definition process_wait_certificate (C : crypto) (must : bool) (k : content) : M unit :=
  match k with
  | KHandshake (HCert ctx l) =>
    do c <- get;
    let g := c_config c in
    if require_peer_auth g && is_nil l then raise (XAlert BAD_CERTIFICATE)
    else
      match c_nc c with
      | None => raise XAttr
      | Some n =>
        if existsb (fun e => match n_sct n with
                             | Some t => negb (en_type e =? t) | None => true end) l
        then raise (XAlert UNSUPPORTED_CERTIFICATE)
        else
          (match n_sct n with
           | Some t =>
             if t =? CT_X509 then
               match l with
               | [] => raise XIndex
               | e :: _ =>
                 upd_nc (fun n => nset_peer_cert n (Some (en_data e))) ;;
                 if require_peer_auth g
                 then lift (client_check_x509 C g (c_host c) (c_ocsp c) l)
                 else ret tt
               end
             else if t =? CT_RAW_PUBLIC_KEY then
               match l with
               | [] => raise XIndex
               | e :: _ =>
                 upd_nc (fun n => nset_peer_key n (Some (en_data e))) ;;
                 if require_peer_auth g then raise XType     (* trusted_public_keys() is a list *)
                 else ret tt
               end
             else raise XNotImpl
           | None => raise XNotImpl
           end) ;;
          do h <- digest C;
          set_state (ClientWaitCertificateVerify must h)
      end
  | _ => base_process k
  end.

(* wait_cert_cr.py:12-27 *)
Definition process_wait_cert_cr (C : crypto) (k : content) : M unit :=
  match k with
  | KHandshake (HCertReq _ _) => set_state (ClientWaitCertificate true)
  | KHandshake (HCert _ _) =>
    set_state (ClientWaitCertificate false) ;;
    process_wait_certificate C false k
  | _ => base_process k
  end.

(* wait_certificate_verify.py:8-12 and wait_client_hello.py:42-46 *)
Definition certificate_verify_server : bytes :=
  repeat x20 64 ++ ascii_bytes "TLS 1.3, server CertificateVerify"%string ++ [x00].

(* wait_certificate_verify.py:25-50 *)
Definition process_wait_cv (C : crypto) (must : bool) (cert_hash : bytes) (k : content) : M unit :=
  match k with
  | KHandshake (HCertVerify alg sig) =>
    do c <- get;
    if negb (memN alg (g_sigalgs (c_config c))) then raise (XAlert ILLEGAL_PARAMETER)
    else
      upd_nc (fun n => nset_sigalg n (Some alg)) ;;
      match c_nc c with
      | None => raise XAttr
      | Some n =>
        match (match n_peer_key n with
               | Some pk => Some pk
               | None => option_map (cr_cert_pubkey C) (n_peer_cert n)
               end) with
        | None => raise XAttr
        | Some key =>
          lift (suite_verify C alg key sig (certificate_verify_server ++ cert_hash)) ;;
          do h <- digest C;
          set_state (ClientWaitFinished must h)
        end
      end
  | _ => base_process k
  end.

(* wait_finished.py (client) 18-49 *)
Definition process_client_finished (C : crypto) (must : bool) (cv_hash : bytes) (k : content)
  : M unit :=
  match k with
  | KHandshake (HFinished v) =>
    ask_cipher (fun x => on_value_error (verify_finish C cv_hash v x) (XAlert DECRYPT_ERROR)) ;;
    do sf_hash <- digest C;
    if must then raise XNotImpl
    else
      do h <- digest C;
      do f <- ask_cipher (fun x => sign_finish C h x);
      send_content C (KHandshake (HFinished f)) ;;
      do cf_hash <- digest C;
      on_cipher (derive_master_secrets C sf_hash cf_hash) ;;
      set_state Connected
  | _ => base_process k
  end.

(* wait_finished.py (server) 16-35 *)
Definition process_server_finished (C : crypto) (sf_hash : bytes) (k : content) : M unit :=
  match k with
  | KHandshake (HFinished v) =>
    ask_cipher (fun x => on_value_error (verify_finish C sf_hash v x) (XAlert DECRYPT_ERROR)) ;;
    do h <- digest C;
    on_cipher (derive_master_secrets C sf_hash h) ;;
    set_state Connected
  | _ => base_process k
  end.

(* wait_client_hello.py:102-107, 247-252, 258-265, 269-276, 321-326: the first
   of our own list, in our order, that the peer offers too *)
Definition first_common (ours theirs : list N) : option N :=
  find (fun x => memN x theirs) ours.

(* wait_client_hello.py:94-107 *)
Definition server_setup (random : bytes) (suites : list N) : M unit :=
  modify (cset_nc (Some (nconfig_new None))) ;;
  do c <- get;
  match first_common (g_suites (c_config c)) suites with
  | None => raise (XAlert HANDSHAKE_FAILURE)
  | Some suite =>
    upd_nc (fun n => nset_suite n (Some suite)) ;;
    modify (cset_cunique (Some random)) ;;
    match suite_hash suite with
    | None => raise XKey
    | Some h =>
      set_cipher suite Server ;;
      tr_method (tr_post_init h)
    end
  end.

(* wait_client_hello.py:235-242 *)
Definition server_neg_versions (exts : list ext) : M unit :=
  match ext_get SUPPORTED_VERSIONS exts with
  | None => raise (XAlert PROTOCOL_VERSION)
  | Some (ESupVersionsReq l) =>
    if memN TLS_1_3 l then ret tt else raise (XAlert PROTOCOL_VERSION)
  | Some _ => raise XAttr
  end.
(* wait_client_hello.py:244-252 *)
Definition server_neg_groups (exts : list ext) : M N :=
  do c <- get;
  match ext_get SUPPORTED_GROUPS exts with
  | None => raise (XAlert MISSING_EXTENSION)
  | Some (ESupportedGroups l) =>
    match first_common (g_groups (c_config c)) l with
    | None => raise (XAlert HANDSHAKE_FAILURE)
    | Some g => upd_nc (fun n => nset_group n (Some g)) ;; ret g
    end
  | Some _ => raise XAttr
  end.
(* wait_client_hello.py:278-288 *)
Definition server_neg_sigalgs (C : crypto) (exts : list ext) : M unit :=
  do c <- get;
  match ext_get SIGNATURE_ALGORITHMS exts with
  | None => raise (XAlert MISSING_EXTENSION)
  | Some (ESigAlgs l) =>
    match g_chain (c_config c) with
    | None => raise XType
    | Some [] => raise XIndex
    | Some (cert :: _) =>
      do suites <- lift (for_public_key_oid (cr_cert_pubkey_oid C cert));
      match find (fun s => memN s suites && memN s l) (g_sigalgs (c_config c)) with
      | None => raise (XAlert HANDSHAKE_FAILURE)
      | Some s => modify (cset_sig (Some s))
      end
    end
  | Some _ => raise XAttr
  end.
(* wait_client_hello.py:290-307 *)
Definition server_neg_key_share (C : crypto) (group : N) (exts : list ext)
  : M (ext * option bytes) :=
  match ext_get KEY_SHARE exts with
  | Some (EKeyShareReq l) =>
    match assocN group l with
    | Some peer =>
      if negb (memN group named_groups) then raise XKey
      else
        do priv <- draw;
        do share <- lift (on_value_error (kx_init C group priv) (XAlert HANDSHAKE_FAILURE));
        do shared <- lift (on_value_error (kx_resume C group priv peer) (XAlert HANDSHAKE_FAILURE));
        ret (EKeyShareResp group share, Some shared)
    | None => ret (EKeyShareRetry group, None)
    end
  | None => ret (EKeyShareRetry group, None)
  | Some _ => raise XAttr
  end.
(* wait_client_hello.py:254-265 *)
Definition server_neg_cct (exts : list ext) : M (list ext) :=
  do c <- get;
  if negb (require_peer_auth (c_config c)) then ret []
  else
    do theirs <- match ext_get CLIENT_CERTIFICATE_TYPE exts with
                 | None => ret [CT_X509]
                 | Some (EClientCertTypeReq l) => ret l
                 | Some _ => raise XAttr
                 end;
    match first_common (peer_certificate_types (c_config c)) theirs with
    | None => raise (XAlert UNSUPPORTED_CERTIFICATE)
    | Some t =>
      upd_nc (fun n => nset_cct n (Some t)) ;;
      ret (if opt_bool (ext_get CLIENT_CERTIFICATE_TYPE exts) then [EClientCertTypeResp t] else [])
    end.
(* wait_client_hello.py:267-276 *)
Definition server_neg_sct (exts : list ext) : M (list ext) :=
  do c <- get;
  do theirs <- match ext_get SERVER_CERTIFICATE_TYPE exts with
               | None => ret [CT_X509]
               | Some (EServerCertTypeReq l) => ret l
               | Some _ => raise XAttr
               end;
  match first_common (certificate_types (c_config c)) theirs with
  | None => raise (XAlert UNSUPPORTED_CERTIFICATE)
  | Some t =>
    upd_nc (fun n => nset_sct n (Some t)) ;;
    ret (if opt_bool (ext_get SERVER_CERTIFICATE_TYPE exts) then [EServerCertTypeResp t] else [])
  end.
(* wait_client_hello.py:309-315 *)
Definition server_neg_mfl (exts : list ext) : M (list ext) :=
  do c <- get;
  match ext_get MAX_FRAGMENT_LENGTH exts with
  | None => upd_nc (fun n => nset_mfl n (Some (g_mfl (c_config c)))) ;; ret []
  | Some (EMaxFragLen code) =>
    match mfl_octets code with
    | None => raise XValue
    | Some o => upd_nc (fun n => nset_mfl n (Some o)) ;; ret [EMaxFragLen code]
    end
  | Some _ => raise XAttr
  end.
(* wait_client_hello.py:317-327 *)
Definition server_neg_alpn (exts : list ext) : M (list ext) :=
  do c <- get;
  match ext_get ALPN exts with
  | None => upd_nc (fun n => nset_alpn n (Some None)) ;; ret []
  | Some (EAlpn l) =>
    if is_nil (g_alpn (c_config c)) then upd_nc (fun n => nset_alpn n (Some None)) ;; ret []
    else match find (fun p => memB p l) (g_alpn (c_config c)) with
         | None => raise (XAlert NO_APPLICATION_PROTOCOL)
         | Some p => upd_nc (fun n => nset_alpn n (Some (Some p))) ;; ret [EAlpn [p]]
         end
  | Some _ => raise XAttr
  end.
(* wait_client_hello.py:329-344 *)
Definition server_neg_heartbeat (exts : list ext) : M (list ext) :=
  do c <- get;
  match ext_get HEARTBEAT exts with
  | None =>
    upd_nc (fun n => nset_echo_hb (nset_send_hb n (Some false)) (Some false)) ;; ret []
  | Some (EHeartbeat m) =>
    let echo := g_echo (c_config c) in
    upd_nc (fun n => nset_echo_hb (nset_send_hb n (Some (m =? PEER_ALLOWED_TO_SEND))) (Some echo)) ;;
    ret [EHeartbeat (if echo then PEER_ALLOWED_TO_SEND else PEER_NOT_ALLOWED_TO_SEND)]
  | Some _ => raise XAttr
  end.
(* wait_client_hello.py:346-353; the only status type is OCSP *)
Definition server_neg_status (exts : list ext) : M unit :=
  upd_nc (fun n => nset_want_ocsp n (Some (opt_bool (ext_get STATUS_REQUEST exts)))).

(* wait_client_hello.py:204-233: clear extensions, encrypted extensions, shared
   key (None when falsy) *)
Definition server_negociate (C : crypto) (exts : list ext)
  : M (list ext * list ext * option bytes) :=
  server_neg_versions exts ;;
  do group <- server_neg_groups exts;
  server_neg_sigalgs C exts ;;
  do (ks, shared) <- server_neg_key_share C group exts;
  let clear := [ESupVersionsResp TLS_1_3; ks] in
  match shared with
  | Some (x :: s) =>
    do e1 <- server_neg_cct exts;
    do e2 <- server_neg_sct exts;
    do e3 <- server_neg_mfl exts;
    do e4 <- server_neg_alpn exts;
    do e5 <- server_neg_heartbeat exts;
    server_neg_status exts ;;
    ret (clear, e1 ++ e2 ++ e3 ++ e4 ++ e5, Some (x :: s))
  | _ => ret (clear, [], None)
  end.

Definition suite_of (c : conn) : res N :=
  match c_cipher c with Some x => Ok (cs_suite x) | None => Err XAttr end.
Definition sig_of (c : conn) : res N :=
  match c_sig c with Some s => Ok s | None => Err XAttr end.

(* wait_client_hello.py:109-130 *)
Definition server_send_hrr (C : crypto) (first : bool) (sid : bytes) (clear : list ext) : M unit :=
  if negb first then raise (XAlert ILLEGAL_PARAMETER)
  else
    set_state (ServerWaitClientHello false) ;;
    do c <- get;
    do suite <- lift (suite_of c);
    do sg <- lift (sig_of c);
    do n <- match c_nc c with Some n => ret n | None => raise XAttr end;
    do group <- match n_group n with Some g => ret g | None => raise XAttr end;
    modify (cset_config (restrict (c_config c) suite group [sg])) ;;
    do h <- digest C;
    tr_method (tr_dance (g_side (c_config c)) h) ;;
    send_content C (KHandshake (HServerHello true hrr_random sid suite (ext_dict clear))) ;;
    send_content C KCcs.

(* wait_client_hello.py:132-145 *)
Definition server_send_hello (C : crypto) (first : bool) (sid : bytes) (clear enc : list ext)
  (shared : bytes) : M unit :=
  on_cipher (skip_early_secrets C) ;;
  do c <- get;
  do suite <- lift (suite_of c);
  do unique <- match c_sunique c with Some u => ret u | None => raise XType end;
  send_content C (KHandshake (HServerHello false unique sid suite (ext_dict clear))) ;;
  (if first then send_content C KCcs else ret tt) ;;
  do h <- digest C;
  on_cipher (derive_handshake_secrets C shared h) ;;
  send_content C (KHandshake (HEncExt (ext_dict enc))).

(* wait_client_hello.py:168-189: the extension stapled to the leaf *)
Definition staple (C : crypto) (c : conn) (n : nconfig) (chain : list bytes) : res (list ext) :=
  match n_want_ocsp n, c_ocsp c, chain with
  | Some true, true, subject :: issuer :: _ =>
    let* url := cr_ocsp_url C subject in
    let* req := cr_make_ocsp_req C subject issuer in
    let* der := cr_ocsp_fetch C url req in
    match validate_ocsp C issuer req der with
    | Ok _ => Ok [EOcspStatus der]
    | Err e => if is_value_error e then Ok [] else Err e
    end
  | _, _, _ => Ok []
  end.

Definition add_to_leaf (x : list ext) (l : list centry) : list centry :=
  match l with
  | [] => []
  | e :: l' => mkEntry (en_type e) (en_data e) (en_exts e ++ x) :: l'
  end.

(* wait_client_hello.py:157-189 *)
Definition server_certificate_list (C : crypto) (c : conn) : res (list centry) :=
  match c_nc c with
  | None => Err XAttr
  | Some n =>
    if match n_sct n with Some t => t =? CT_RAW_PUBLIC_KEY | None => false end
    then match g_public (c_config c) with
         | Some k => Ok [mkEntry CT_RAW_PUBLIC_KEY k []]
         | None => Err XAttr
         end
    else match g_chain (c_config c) with
         | None => Err XType
         | Some chain =>
           let l := map (fun cert => mkEntry CT_X509 cert []) chain in
           let* x := staple C c n chain in
           Ok (add_to_leaf x l)
         end
  end.

(* wait_client_hello.py:191-202 *)
Definition server_send_certificate (C : crypto) : M unit :=
  do c <- get;
  do l <- lift (server_certificate_list C c);
  send_content C (KHandshake (HCert [] l)) ;;
  do h <- digest C;
  do c <- get;
  do sg <- lift (sig_of c);
  do key <- match g_private (c_config c) with Some k => ret k | None => raise XAttr end;
  do signature <- lift (cr_sign C sg key (certificate_verify_server ++ h));
  send_content C (KHandshake (HCertVerify sg signature)).

(* wait_client_hello.py:60-92 *)
Definition process_wait_ch (C : crypto) (first : bool) (k : content) : M unit :=
  match k with
  | KHandshake (HClientHello random sid suites exts) =>
    do c <- get;
    (if negb first then
       match first_common (g_suites (c_config c)) suites with
       | None => raise (XAlert HANDSHAKE_FAILURE)
       | Some _ =>
         if match c_cunique c with Some u => beqb random u | None => false end
         then ret tt else raise (XAlert ILLEGAL_PARAMETER)
       end
     else server_setup random suites) ;;
    do (clear, enc, shared) <- server_negociate C exts;
    match shared with
    | None => server_send_hrr C first sid clear
    | Some key =>
      server_send_hello C first sid clear enc key ;;
      do c <- get;
      (if require_peer_auth (c_config c)
       then send_content C (KHandshake (HCertReq [] [ESigAlgs (g_sigalgs (c_config c))]))
       else ret tt) ;;
      server_send_certificate C ;;
      do h <- digest C;
      do f <- ask_cipher (fun x => sign_finish C h x);
      send_content C (KHandshake (HFinished f)) ;;
      do h <- digest C;
      do c <- get;
      if require_peer_auth (c_config c) then raise XType     (* ServerWaitFlight2 is abstract *)
      else set_state (ServerWaitFinished h)
    end
  | _ => base_process k
  end.

(* self._state.process(content) *)
Definition process (C : crypto) (k : content) : M unit :=
  do c <- get;
  match c_state c with
  | ClientStart _ | ServerStart => base_process k
  | ClientWaitServerHello first shares chash => process_wait_sh C first shares chash k
  | ClientWaitEncryptedExtensions => process_wait_ee k
  | ClientWaitCertCr => process_wait_cert_cr C k
  | ClientWaitCertificate must => process_wait_certificate C must k
  | ClientWaitCertificateVerify must h => process_wait_cv C must h k
  | ClientWaitFinished must h => process_client_finished C must h k
  | ServerWaitClientHello first => process_wait_ch C first k
  | ServerWaitFinished h => process_server_finished C h k
  | Closed false _ => raise (XAlert UNEXPECTED_MESSAGE)      (* states/closed.py:15-17 *)
  | Connected | Closed true _ =>                             (* states/connected.py:11-16 *)
    match k with
    | KAppData d => modify (fun c => cset_app (c_app c ++ d) c)
    | _ => base_process k
    end
  | Failed => ret tt
  end.

(* --- public API -------------------------------------------------------- *)

(* connection.py:104-122: parse one content and hand it to the state *)
Definition peer_cert_type (c : conn) : option (option N) :=
  match c_nc c with
  | None => None
  | Some n => Some (match g_side (c_config c) with Server => n_cct n | Client => n_sct n end)
  end.
Definition handle_content (C : crypto) (ct : N) (data : bytes) : M unit :=
  do c <- get;
  do k <- lift (parse_content C (peer_cert_type c) ct data);
  (match k with
   | KHandshake h =>
     match msg_type h with
     | None => raise XAttr
     | Some ty => transcribe data (other_side (g_side (c_config c))) ty
     end
   | _ => ret tt
   end) ;;
  process C k.

(* the body of the try statement, connection.py:100-122; false when the loop
   breaks *)
Definition receive_one (C : crypto) : M bool :=
  do r <- read_next_content C;
  match r with
  | None => ret false
  | Some (ct, data) => handle_content C ct data ;; ret true
  end.

(* connection.py:123-128 *)
Definition guarded (C : crypto) (m : M bool) : M bool :=
  fun c => match m c with
           | (Ok b, c1) => (Ok b, c1)
           | (Err e, c1) =>
             match fail C (Some (match alert_of e with Some code => code | None => INTERNAL_ERROR end)) c1 with
             | (Ok _, c2) => (Err e, c2)
             | (Err e2, c2) => (Err e2, c2)
             end
           end.

Fixpoint receive_loop (fuel : nat) (C : crypto) : M unit :=
  do more <- guarded C (receive_one C);
  if negb more then ret tt
  else match fuel with
       | O => raise XFuel
       | S fuel' => receive_loop fuel' C
       end.

(* connection.py:146-150 *)
Definition rekey : M unit :=
  do c <- get;
  if negb (can_send (c_state c)) then raise XTLS else raise XNotImpl.

(* connection.py:89-131 *)
Definition receive_data (C : crypto) (data : bytes) : M unit :=
  if is_nil data then raise XValue
  else
    do c <- get;
    if negb (can_receive (c_state c)) then raise (XAlert UNEXPECTED_MESSAGE)
    else
      modify (cset_in (c_in c ++ data)) ;;
      receive_loop (length (c_in c ++ data)) C ;;
      do c <- get;
      do rk <- match c_cipher c with
               | None => ret false
               | Some x => lift (should_rekey x)
               end;
      if rk then rekey else ret tt.

(* connection.py:133-134 *)
Definition send_data (C : crypto) (data : bytes) : M unit := send_content C (KAppData data).

(* connection.py:136-139 *)
Definition data_to_read : M bytes :=
  do c <- get; modify (cset_app []) ;; ret (c_app c).

(* connection.py:141-144 *)
Definition data_to_send : M bytes :=
  do c <- get; modify (cset_out []) ;; ret (c_out c).

(* connection.py:177-178 *)
Definition is_post_handshake (c : conn) : bool :=
  match c_state c with Connected | Closed _ _ | Failed => true | _ => false end.

(* connection.py:180-185 *)
Definition is_connected (c : conn) : bool :=
  match c_state c with Closed r _ => r | Connected => true | _ => false end.

(* connection.py:152-159 *)
Definition close_receiving_end (C : crypto) : M unit :=
  do c <- get;
  if negb (is_post_handshake c) then fail C None
  else
    match c_state c with
    | Closed _ w => set_state (Closed false w)
    | _ => set_state (Closed false true)
    end.

(* connection.py:161-166 *)
Definition close_sending_end (C : crypto) : M unit :=
  do c <- get;
  (match c_state c with
   | Closed _ _ | Failed => ret tt
   | _ => set_state (Closed true true)
   end) ;;
  do c <- get;
  if can_send (c_state c)
  then
    send_content C (KAlert WARNING CLOSE_NOTIFY) ;;
    modify (fun c => match c_state c with Closed r _ => cset_state (Closed r false) c | _ => c end)
  else ret tt.

(* connection.py:29-65.  [unique] is secrets.token_bytes(32). *)
Definition new_conn (flip : bool) (g : config) (host : option str) (ocsp : bool)
  (unique : bytes) (rng : N -> bytes) : res conn :=
  let* t := tr_new flip (g_suites g) in
  match g_side g with
  | Client =>
    Ok (mkConn g host ocsp None None None t [] [] [] [] (Some unique) None
          (ClientStart None) rng 0 [] [])
  | Server =>
    if match host with Some (_ :: _) => true | _ => false end then Err XValue
    else Ok (mkConn g None ocsp None None None t [] [] [] [] None (Some unique)
               ServerStart rng 0 [] [])
  end.
