(* src/siotls/states/__init__.py:10-24, src/siotls/connection.py:28-65 and 194-195:
   how the state objects share the attributes of their connection.  The values
   are numbers, as only the places where they are stored matter here. *)
From Verif Require Import Base.
Local Open Scope string_scope.
Local Open Scope list_scope.
Local Open Scope N_scope.

(* the __dict__ of an object *)
Definition dict := list (String.string * N).
Fixpoint dget (n : String.string) (d : dict) : option N :=
  match d with [] => None | (m, v) :: r => if String.eqb n m then Some v else dget n r end.
Fixpoint dset (n : String.string) (v : N) (d : dict) : dict :=
  match d with [] => [(n, v)] | (m, w) :: r => if String.eqb n m then (n, v) :: r else (m, w) :: dset n v r end.
Definition mem (n : String.string) (l : list String.string) : bool := existsb (String.eqb n) l.

(* the classes of which state objects are made; ServerWaitFlight2,
   ServerWaitCertificate, ServerWaitCertificateVerify and
   ServerWaitEndOfEarlyData are abstract *)
Inductive kls :=
| KClientStart | KClientWaitServerHello | KClientWaitEncryptedExtensions | KClientWaitCertCr | KClientWaitCertificate
| KClientWaitCertificateVerify | KClientWaitFinished | KServerStart | KServerWaitClientHello | KServerWaitFinished
| KConnected | KClosed | KFailed.

(* the attributes of every connection: src/siotls/connection.py:30-65 *)
Definition conn_names : list String.string :=
  ["config"; "ocsp_service"; "nconfig"; "_cipher"; "_signature"; "_transcript"; "_input_data"; "_input_handshake"; "_output_data";
   "_application_data"; "server_hostname"; "_client_unique"; "_server_unique"; "_state"].
(* what its class defines: src/siotls/connection.py:71-346 *)
Definition conn_class_names : list String.string :=
  ["initiate_connection"; "receive_data"; "send_data"; "data_to_read"; "data_to_send"; "rekey"; "close_receiving_end"; "close_sending_end";
   "_fail"; "is_post_handshake"; "is_connected"; "wrap"; "_move_to_state"; "max_fragment_length"; "_read_next_record"; "_decrypt";
   "_read_next_content"; "_send_content"; "_encrypt"].
(* what all of the classes of states define: src/siotls/states/__init__.py:26-54
   and the three flags at the top of each *)
Definition state_class_names : list String.string :=
  ["name"; "initiate_connection"; "process"; "can_receive"; "can_send"; "can_send_application_data"].
(* the methods of each class: src/siotls/states/client/start.py:35-83,
   client/wait_server_hello.py:23-115, client/wait_encrypted_extensions.py:20-91,
   client/wait_certificate.py:29-130, client/wait_finished.py:18-49,
   server/wait_client_hello.py:60-353 *)
Definition own_class_names (k : kls) : list String.string :=
  match k with
  | KClientWaitServerHello => ["_process_hello_retry_request"; "_process_server_hello"; "_negociate_extensions"; "_negociate_supported_versions"; "_negociate_key_share"]
  | KClientWaitEncryptedExtensions =>
    ["_negociate_application_layer_protocol_negotiation"; "_negociate_client_certificate_type"; "_negociate_heartbeat"; "_negociate_max_fragment_length"; "_negociate_server_certificate_type"]
  | KClientWaitCertificate =>
    ["_check_certificate_types"; "_process_x509"; "_verify_chain"; "_get_verifier"; "_verify_revocation"; "_verify_statuses"; "_process_raw_public_key"]
  | KClientWaitFinished => ["_send_certificate"]
  | KServerWaitClientHello =>
    ["_setup"; "_find_common_cipher_suite"; "_send_hello_retry_request"; "_send_server_hello"; "_request_user_certificate"; "_send_server_certificate"; "_send_finished"; "_negociate";
     "_negociate_application_layer_protocol_negotiation"; "_negociate_client_certificate_type"; "_negociate_heartbeat"; "_negociate_key_share"; "_negociate_max_fragment_length";
     "_negociate_server_certificate_type"; "_negociate_signature_algorithms"; "_negociate_status_request"; "_negociate_supported_groups"; "_negociate_supported_versions"]
  | _ => []
  end.
Definition class_has (k : kls) (n : String.string) : bool := mem n state_class_names || mem n (own_class_names k).

(* the connection, the state objects in the order in which they are made, the
   one that the connection has now, and those of which a method is running, the
   innermost first *)
Record heap := mkHeap { h_conn : dict; h_objs : list (kls * dict); h_cur : nat; h_stack : list nat }.
Definition set_obj (o : nat) (d : dict) (l : list (kls * dict)) : list (kls * dict) :=
  map (fun p => if Nat.eqb (fst p) o then (fst (snd p), d) else snd p) (combine (seq 0 (length l)) l).

Inductive result := RValue (v : N) | RState (k : kls) (n : String.string) | RConn (n : String.string) | RAttributeError.

(* getattr on the connection: no __getattr__ of its own *)
Definition conn_get (h : heap) (n : String.string) : result :=
  match dget n (h_conn h) with
  | Some v => RValue v
  | None => if mem n conn_class_names then RConn n else RAttributeError
  end.
(* hasattr: src/siotls/states/__init__.py:22 *)
Definition conn_has (h : heap) (n : String.string) : bool :=
  match conn_get h n with RAttributeError => false | _ => true end.
(* getattr on a state: the object, its class, then __getattr__,
   src/siotls/states/__init__.py:18-19 *)
Definition state_get (h : heap) (o : nat) (n : String.string) : result :=
  match nth_error (h_objs h) o with
  | None => RAttributeError
  | Some (k, d) =>
    match dget n d with
    | Some v => RValue v
    | None => if class_has k n then RState k n else conn_get h n
    end
  end.
(* src/siotls/states/__init__.py:21-24.  Simplified: assigning to a property
   would raise, no name that is assigned is one. *)
Definition state_set (h : heap) (o : nat) (n : String.string) (v : N) : heap :=
  match nth_error (h_objs h) o with
  | None => h
  | Some (k, d) =>
    let conn := if conn_has h n then dset n v (h_conn h) else h_conn h in
    mkHeap conn (set_obj o (dset n v d) (h_objs h)) (h_cur h) (h_stack h)
  end.
(* an assignment in a method of the connection *)
Definition conn_set (h : heap) (n : String.string) (v : N) : heap :=
  mkHeap (dset n v (h_conn h)) (h_objs h) (h_cur h) (h_stack h).
(* the assignments of __init__, besides "connection": client/start.py:30-33,
   client/wait_server_hello.py:17-21, client/wait_certificate.py:25-27,
   client/wait_certificate_verify.py:20-23, client/wait_finished.py:13-16,
   server/wait_client_hello.py:56-58, server/wait_finished.py:12-14 *)
Definition init_names (k : kls) : list String.string :=
  match k with
  | KClientStart => ["_cookie"; "_key_shares"]
  | KClientWaitServerHello => ["_is_first_server_hello"; "_key_shares"; "_client_hello_transcript_hash"]
  | KClientWaitCertificate => ["_must_authentify"]
  | KClientWaitCertificateVerify => ["_must_authentify"; "_certificate_transcript_hash"]
  | KClientWaitFinished => ["_must_authentify"; "_certificate_verify_transcript_hash"]
  | KServerWaitClientHello => ["_is_first_client_hello"]
  | KServerWaitFinished => ["_server_finished_transcript_hash"]
  | _ => []
  end.
(* the assignments of the other methods: client/wait_server_hello.py:37, 39, 62, 74,
   server/wait_client_hello.py:95, 97, 98, 113, 116, 285 *)
Definition set_names (k : kls) : list String.string :=
  match k with
  | KClientWaitServerHello => ["nconfig"; "_cipher"; "config"; "_server_unique"]
  | KServerWaitClientHello => ["nconfig"; "_client_unique"; "_cipher"; "_is_first_client_hello"; "config"; "_signature"]
  | _ => []
  end.
(* those of the methods of the connection: connection.py:96, 138, 143, 205, 226,
   259, 265, 279, 286, 336; line 195 is in [Move] *)
Definition conn_set_names : list String.string := ["_input_data"; "_input_handshake"; "_output_data"; "_application_data"].
(* assignments to attributes of the state of the connection from outside:
   states/__init__.py:40, connection.py:159 and 166 *)
Definition cur_set_names : list String.string := ["recv_closed"; "can_receive"; "can_send"].

(* src/siotls/connection.py:194-195 with __init__ of the state, the arguments
   being any; "connection" is set at states/__init__.py:16 *)
Fixpoint init_all (h : heap) (o : nat) (ns : list String.string) (vs : list N) : heap :=
  match ns with
  | [] => h
  | n :: r => init_all (state_set h o n (hd 0 vs)) o r (tl vs)
  end.
Definition move_to (h : heap) (k : kls) (vs : list N) : heap :=
  let o := length (h_objs h) in
  let h1 := init_all (mkHeap (h_conn h) (h_objs h ++ [(k, [("connection", 0)])]) (h_cur h) (h_stack h)) o (init_names k) vs in
  mkHeap (dset "_state" (N.of_nat o) (h_conn h1)) (h_objs h1) o (h_stack h1).

(* what the methods do with attributes, one at a time.  [Enter]: a method of
   the connection's state is called; [Leave]: the innermost returns; [Unwind]: an
   exception leaves all of them. *)
Inductive event :=
| Enter | Leave | Unwind
| Get (n : String.string) | Set_ (n : String.string) (v : N) | SetCur (n : String.string) (v : N) | GetCur (n : String.string)
| CGet (n : String.string) | CSet (n : String.string) (v : N) | Move (k : kls) (vs : list N).
Definition do_event (h : heap) (e : event) : heap * list result :=
  match e with
  | Enter => (mkHeap (h_conn h) (h_objs h) (h_cur h) (h_cur h :: h_stack h), [])
  | Leave => (mkHeap (h_conn h) (h_objs h) (h_cur h) (tl (h_stack h)), [])
  | Unwind => (mkHeap (h_conn h) (h_objs h) (h_cur h) [], [])
  | Get n => (h, match h_stack h with [] => [] | o :: _ => [state_get h o n] end)
  | Set_ n v => (match h_stack h with [] => h | o :: _ => state_set h o n v end, [])
  | SetCur n v => (state_set h (h_cur h) n v, [])
  | GetCur n => (h, [state_get h (h_cur h) n])
  | CGet n => (h, [conn_get h n])
  | CSet n v => (conn_set h n v, [])
  | Move k vs => (move_to h k vs, [])
  end.

(* which events the code has: a state assigns the names above; a method of a
   state is called within another one in two places only, ClientStart's from
   client/wait_server_hello.py:71 and ClientWaitCertificate's from
   client/wait_cert_cr.py:27, and neither class assigns in its methods *)
Definition nested (k : kls) : bool := match k with KClientStart | KClientWaitCertificate => true | _ => false end.
Definition class_of (h : heap) (o : nat) : kls := match nth_error (h_objs h) o with Some (k, _) => k | None => KFailed end.
Definition allowed (h : heap) (e : event) : bool :=
  match e with
  | Enter => match h_stack h with [] => true | _ => nested (class_of h (h_cur h)) end
  | Set_ n _ => match h_stack h with [] => false | o :: _ => mem n (set_names (class_of h o)) end
  | SetCur n _ => mem n cur_set_names
  | CSet n _ => mem n conn_set_names
  | _ => true
  end.

(* a connection with its first state: connection.py:28-65 *)
Definition new_heap (k : kls) (cookie shares : N) (values : String.string -> N) : heap :=
  move_to (mkHeap (map (fun n => (n, values n)) conn_names) [] 0 []) k [cookie; shares].
Fixpoint do_events (h : heap) (l : list event) : option (heap * list result) :=
  match l with
  | [] => Some (h, [])
  | e :: r =>
    if allowed h e then
      let '(h1, out) := do_event h e in
      match do_events h1 r with Some (h2, out2) => Some (h2, out ++ out2) | None => None end
    else None
  end.
