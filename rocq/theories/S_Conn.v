(* Small specifications about connections, used to state properties. *)
From Verif Require Import Base Iana Crypto Config Conn S_Hist.

(* what the data_to_send calls of a history returned *)
Fixpoint flushed (C : crypto) (ops : list op) (c : conn) : bytes :=
  match ops with
  | [] => []
  | o :: ops' => (match o with OFlush => returned C o c | _ => [] end)
                 ++ flushed C ops' (after C o c)
  end.
(* what the data_to_read calls of a history returned *)
Fixpoint readout (C : crypto) (ops : list op) (c : conn) : bytes :=
  match ops with
  | [] => []
  | o :: ops' => (match o with ORead => returned C o c | _ => [] end)
                 ++ readout C ops' (after C o c)
  end.
(* the bytes that each other call appended to the output, in order: when the
   output is not an extension of what it was, there is no such list *)
Inductive emits (C : crypto) : list op -> conn -> bytes -> Prop :=
| emits_nil c : emits C [] c []
| emits_flush ops c e : emits C ops (after C OFlush c) e -> emits C (OFlush :: ops) c e
| emits_cons o ops c x e :
    o <> OFlush -> c_out (after C o c) = c_out c ++ x ->
    emits C ops (after C o c) e -> emits C (o :: ops) c (x ++ e).
Inductive delivers (C : crypto) : list op -> conn -> bytes -> Prop :=
| delivers_nil c : delivers C [] c []
| delivers_read ops c e : delivers C ops (after C ORead c) e -> delivers C (ORead :: ops) c e
| delivers_cons o ops c x e :
    o <> ORead -> c_app (after C o c) = c_app c ++ x ->
    delivers C ops (after C o c) e -> delivers C (o :: ops) c (x ++ e).

(* the contents that one receive_data call hands to the state, each with the
   state the connection was in: what was read before the first error or before
   the input ran out *)
Inductive handles (C : crypto) : conn -> list (state * N * bytes) -> Prop :=
| handles_stop c c1 : read_next_content C c = (Ok None, c1) -> handles C c []
| handles_bad c e c1 : read_next_content C c = (Err e, c1) -> handles C c []
| handles_last c ct d c1 e c2 :
    read_next_content C c = (Ok (Some (ct, d)), c1) ->
    handle_content C ct d c1 = (Err e, c2) -> handles C c [(c_state c1, ct, d)]
| handles_more c ct d c1 c2 l :
    read_next_content C c = (Ok (Some (ct, d)), c1) ->
    handle_content C ct d c1 = (Ok tt, c2) -> handles C c2 l ->
    handles C c ((c_state c1, ct, d) :: l).

(* established: connected, or closed but still allowed to receive *)
Definition established (s : state) : bool :=
  match s with Connected | Closed true _ => true | _ => false end.
Definition delivered (x : state * N * bytes) : bytes :=
  let '(s, ct, d) := x in if established s && (ct =? CT_APPDATA) then d else [].

Definition is_close_r (o : op) : bool := match o with OCloseR => true | _ => false end.
Definition no_close_r (ops : list op) : Prop := forallb (fun o => negb (is_close_r o)) ops = true.
Definition is_close_s (o : op) : bool := match o with OCloseS => true | _ => false end.
Definition in_handshake (s : state) : bool :=
  match s with Connected | Closed _ _ | Failed => false | _ => true end.

(* the `while True` loop of receive_data, without a bound *)
Inductive loops (C : crypto) : conn -> res unit * conn -> Prop :=
| loops_stop c c1 : guarded C (receive_one C) c = (Ok false, c1) -> loops C c (Ok tt, c1)
| loops_err c e c1 : guarded C (receive_one C) c = (Err e, c1) -> loops C c (Err e, c1)
| loops_more c c1 x : guarded C (receive_one C) c = (Ok true, c1) -> loops C c1 x -> loops C c x.

(* no complete record: the leading change_cipher_spec records are gone, and the
   header or the announced payload is not all there *)
Definition record_length (i : bytes) : N := of_bytes (btake 2 (bdrop 3 i)).
Definition incomplete (i : bytes) : Prop :=
  skip_ccs i = i /\ (blen i < 5 \/ blen i - 5 < record_length i).

(* the loop stopped because the handshake records read so far hold less than
   the four bytes of a handshake header, whatever follows them in the input *)
Definition stalled (C : crypto) (c : conn) : Prop :=
  blen (c_inhs c) < 4 /\
  exists c0 f c1, read_next_record C c0 = (Ok (Some (CT_HANDSHAKE, f)), c1) /\
                  c = cset_inhs (c_inhs c1 ++ f) c1.
