(* C81 *)
From Verif Require Import Base Attr S_Attr P_Attr.
Local Open Scope string_scope.
Local Open Scope list_scope.
Local Open Scope N_scope.

(* Whatever the methods of a connection and of its states assign and move to,
   every attribute that is read has the value that it would have if the
   attributes of the connection existed once and no state kept copies of them:
   both what was read on the way, and what the running methods and the current
   state would read now. *)
Theorem c81_one_store : forall k cookie shares values l h out,
  do_events (new_heap k cookie shares values) l = Some (h, out) ->
  out = snd (flat_events (new_flat k cookie shares values) l) /\
  (forall o n, o = h_cur h \/ In o (h_stack h) ->
     state_get h o n = flat_get (fst (flat_events (new_flat k cookie shares values) l)) o n).
Proof. exact one_store. Qed.
Print Assumptions c81_one_store.

(* an attribute of the connection read through its state, or through a state a
   method of which still runs, is the one of the connection *)
Theorem c81_same_view : forall k cookie shares values l h out o n,
  do_events (new_heap k cookie shares values) l = Some (h, out) ->
  o = h_cur h \/ In o (h_stack h) -> In n conn_names ->
  exists v, conn_get h n = RValue v /\ state_get h o n = RValue v.
Proof. exact same_view. Qed.
Print Assumptions c81_same_view.

(* what a state keeps for itself does not get to the connection, and the
   connection loses none of its attributes *)
Theorem c81_no_leak : forall k cookie shares values l h out n,
  do_events (new_heap k cookie shares values) l = Some (h, out) ->
  (exists v, dget n (h_conn h) = Some v) <-> In n conn_names.
Proof. exact no_leak. Qed.
Print Assumptions c81_no_leak.

(* a client that is asked to retry twice (see C24), and then goes on *)
Definition c81_client : list event :=
  [Enter; Get "config"; Get "server_hostname"; Get "_cookie"; Move KClientWaitServerHello [1; 20; 30]; Leave;
   CSet "_input_data" 40; CGet "config";
   Enter; Get "_is_first_server_hello"; Set_ "nconfig" 50; Get "nconfig"; Set_ "_cipher" 51; Get "_cipher"; Set_ "config" 52; Get "config";
   Move KClientStart [53; 54]; Enter; Get "config"; Get "_cookie"; Move KClientWaitServerHello [0; 54; 55]; Leave; Get "config"; Leave;
   Enter; Get "config"; Get "_is_first_server_hello"; Set_ "config" 62; Get "config"; Move KClientStart [63; 64];
   Enter; Get "config"; Move KClientWaitServerHello [0; 64; 65]; Leave; Leave;
   Enter; Get "config"; Set_ "_server_unique" 70; Move KClientWaitEncryptedExtensions []; Leave;
   Enter; Get "nconfig"; Move KClientWaitCertCr []; Leave; Enter; Move KClientWaitCertificate [1]; Enter; Get "_must_authentify"; Get "_recv"; Unwind;
   Move KClosed []; SetCur "can_receive" 0; GetCur "can_receive"; GetCur "can_send"; GetCur "_cipher"].
Definition c81_values (n : String.string) : N := if String.eqb n "config" then 9 else 0.
Example c81_case :
  match do_events (new_heap KClientStart 7 8 c81_values) c81_client with
  | Some (h, out) => out = [RValue 9; RValue 0; RValue 7; RValue 9; RValue 1; RValue 50; RValue 51; RValue 52; RValue 52; RValue 53; RValue 52;
      RValue 52; RValue 0; RValue 62; RValue 62; RValue 62; RValue 50; RValue 1; RAttributeError; RValue 0; RState KClosed "can_send"; RValue 51]
    (* the first state that was asked to retry still has what it assigned: no method of it runs any more *)
    /\ state_get h 1 "config" = RValue 52 /\ state_get h (h_cur h) "config" = RValue 62 /\ conn_get h "config" = RValue 62
  | None => False
  end.
Proof. vm_compute. repeat split. Qed.
(* a server that asks to retry *)
Definition c81_server : list event :=
  [Enter; Move KServerWaitClientHello [1]; Leave; Enter; Get "_is_first_client_hello"; Set_ "nconfig" 10; Set_ "_client_unique" 11; Set_ "_cipher" 12;
   Set_ "_signature" 13; Set_ "_is_first_client_hello" 0; Set_ "config" 14; CSet "_output_data" 15; Get "_output_data"; Leave;
   Enter; Get "_client_unique"; Get "config"; Set_ "_signature" 16; Move KServerWaitFinished [17]; Get "_signature"; Leave; Enter; Get "_signature"; Get "_is_first_client_hello"; Leave].
Example c81_case_server :
  option_map snd (do_events (new_heap KServerStart 0 0 c81_values) c81_server) =
    Some [RValue 1; RValue 15; RValue 11; RValue 14; RValue 16; RValue 16; RAttributeError].
Proof. vm_compute. reflexivity. Qed.
