(* wrapper.py: the blocking socket wrapper around a connection. *)
From Verif Require Import Base Crypto Config Iana Conn.

(* A socket: what successive recv calls return (empty = end of file), how many
   bytes successive send calls accept (all of them once the list is used up),
   and what it was given.  When [sk_recv] is used up recv blocks: XFuel. *)
Record sock := mkSock { sk_recv : list (res bytes); sk_accept : list N; sk_sent : bytes }.

Definition W (A : Type) := conn * sock -> res A * (conn * sock).
Definition wret {A} (a : A) : W A := fun s => (Ok a, s).
Definition wbind {A B} (m : W A) (f : A -> W B) : W B :=
  fun s => match m s with (Ok a, s1) => f a s1 | (Err e, s1) => (Err e, s1) end.
Declare Scope w_scope.
Notation "'dow' x <- m ; f" := (wbind m (fun x => f))
  (at level 200, x pattern, m at level 100, f at level 200, right associativity) : w_scope.
Notation "m ;;; f" := (wbind m (fun _ => f))
  (at level 199, f at level 200, right associativity) : w_scope.
Open Scope w_scope.

Definition on_conn {A} (m : M A) : W A :=
  fun s => let (r, c) := m (fst s) in (r, (c, snd s)).
(* try: m finally: f *)
Definition wfinally {A} (m : W A) (f : W unit) : W A :=
  fun s => let (r, s1) := m s in
           match f s1 with (Ok _, s2) => (r, s2) | (Err e, s2) => (Err e, s2) end.

(* socket.send: the returned count is ignored by every caller *)
Definition sock_send (b : bytes) : W unit :=
  fun s =>
    let k := snd s in
    match sk_accept k with
    | [] => (Ok tt, (fst s, mkSock (sk_recv k) [] (sk_sent k ++ b)))
    | n :: l => (Ok tt, (fst s, mkSock (sk_recv k) l (sk_sent k ++ btake n b)))
    end.
Definition sock_recv : W bytes :=
  fun s =>
    let k := snd s in
    match sk_recv k with
    | [] => (Err XFuel, s)
    | r :: l => (r, (fst s, mkSock l (sk_accept k) (sk_sent k)))
    end.

Definition flush : W unit :=
  dow out <- on_conn data_to_send;
  if is_nil out then wret tt else sock_send out.

(* wrapper.py:21-25 and 33-37 *)
Definition turn (C : crypto) (input : bytes) : W unit := wfinally (on_conn (receive_data C input)) flush.

(* wrapper.py:19-27; one turn per recv result available *)
Fixpoint handshake_loop (fuel : nat) (C : crypto) : W unit :=
  fun s =>
    (if is_post_handshake (fst s) then wret tt
     else match fuel with
          | O => fun s => (Err XFuel, s)
          | S fuel' =>
            dow input <- sock_recv;
            (if is_nil input then on_conn (close_receiving_end C)
             else turn C input) ;;;
            handshake_loop fuel' C
          end) s.

(* wrapper.py:15-27 *)
Definition do_handshake (C : crypto) : W unit :=
  on_conn (initiate_connection C) ;;;
  (fun s => (match g_side (c_config (fst s)) with
             | Client => dow out <- on_conn data_to_send; sock_send out
             | Server => wret tt
             end) s) ;;;
  (fun s => handshake_loop (S (length (sk_recv (snd s)))) C s).

(* wrapper.py:29-41 *)
Fixpoint read_loop (fuel : nat) (C : crypto) (data : bytes) : W bytes :=
  fun s =>
    (if is_connected (fst s) && is_nil data
     then match fuel with
          | O => fun s => (Err XFuel, s)
          | S fuel' =>
            dow input <- sock_recv;
            if is_nil input then on_conn (close_receiving_end C) ;;; read_loop fuel' C data
            else
              turn C input ;;;
              dow more <- on_conn data_to_read;
              read_loop fuel' C (data ++ more)
          end
     else wret data) s.
Definition wread (C : crypto) : W bytes :=
  dow data <- on_conn data_to_read;
  fun s => read_loop (S (length (sk_recv (snd s)))) C data s.

(* wrapper.py:43-45 *)
Definition wwrite (C : crypto) (data : bytes) : W unit :=
  on_conn (send_data C data) ;;;
  dow out <- on_conn data_to_send;
  sock_send out.

(* wrapper.py:47-50 *)
Definition wclose (C : crypto) : W unit :=
  on_conn (close_sending_end C) ;;; flush.
