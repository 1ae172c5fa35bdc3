(* Histories of API calls, for the properties about the whole life of a
   connection.  Exceptions do not end a history: the caller may go on using the
   connection afterwards. *)
From Verif Require Import Base Iana Crypto Config Conn.

(* the public methods of TLSConnection that change it *)
Inductive op :=
| OInit | ORecv (d : bytes) | OSend (d : bytes) | ORead | OFlush | ORekey | OCloseR | OCloseS.

Definition step (C : crypto) (o : op) : M bytes :=
  match o with
  | OInit => initiate_connection C ;; ret []
  | ORecv d => receive_data C d ;; ret []
  | OSend d => send_data C d ;; ret []
  | ORead => data_to_read
  | OFlush => data_to_send
  | ORekey => rekey ;; ret []
  | OCloseR => close_receiving_end C ;; ret []
  | OCloseS => close_sending_end C ;; ret []
  end.

(* the connection after one call, whether it returned or raised *)
Definition after (C : crypto) (o : op) (c : conn) : conn := snd (step C o c).
(* what the call returned, nothing when it raised *)
Definition returned (C : crypto) (o : op) (c : conn) : bytes :=
  match fst (step C o c) with Ok b => b | Err _ => [] end.

Fixpoint run (C : crypto) (ops : list op) (c : conn) : conn :=
  match ops with
  | [] => c
  | o :: ops' => run C ops' (after C o c)
  end.

(* iana.py:184-189 MLFOctets, the type of max_fragment_length *)
Definition valid_mfl (m : N) : Prop := In m [512; 1024; 2048; 4096; 16384].

(* a new connection made from a configuration that the library accepts *)
Definition created (g : config) (c : conn) : Prop :=
  check_config g = Ok tt /\ valid_mfl (g_mfl g) /\
  exists flip host ocsp unique rng, new_conn flip g host ocsp unique rng = Ok c.

Definition reachable (C : crypto) (g : config) (c : conn) : Prop :=
  exists c0 ops, created g c0 /\ c = run C ops c0.

(* the record protection adds a tag of the size announced by the suite *)
Definition aead_sized (C : crypto) : Prop :=
  forall suite key nonce data aad,
    blen (cr_seal C suite key nonce data aad) = blen data + Cipher.tag_length suite.
(* what was sealed opens *)
Definition aead_correct (C : crypto) : Prop :=
  forall suite key nonce data aad,
    cr_open C suite key nonce (cr_seal C suite key nonce data aad) aad = Some data.
