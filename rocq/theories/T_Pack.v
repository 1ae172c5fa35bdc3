(* RFC 8446 5.1: handshake messages and records; 4.6: messages after the handshake. *)
From Verif Require Import Base Iana Crypto Config Serial Msg Cipher Conn S_Hist S_Conn S_Send S_Nonce S_Alert S_Pack P_Alert P_Pack P_Pack2 Toy P_Toy P_PackToy.
From Verif Require Import T_Alert.

(* C63.  Full statement: handshake messages may be put together in a record or cut
   over several.  The pieces are put together again when the first has at
   least the four bytes that tell the length; a shorter first piece makes the
   reading stop (c02_split_refuted). *)
Theorem c63_split_partial : forall C g c f l b rest, reachable C g c -> c_inhs c = [] ->
  packed C c 0 (map (pair CT_HANDSHAKE) (f :: l)) b -> Forall (fun f => f <> []) l -> 4 <= blen f -> whole (f ++ concat l) -> c_in c = b ++ rest ->
  exists c', read_next_content C c = (Ok (Some (CT_HANDSHAKE, f ++ concat l)), c') /\ c_in c' = rest /\ c_inhs c' = [].
Proof. exact split_read. Qed.
Print Assumptions c63_split_partial.
(* whatever comes behind a message in its record makes the connection fail *)
Theorem c63_together : forall C g c, aead_sized C -> reachable C g c -> c_in c = [] ->
  can_receive (c_state c) = true -> can_send (c_state c) = true -> room c ->
  forall f l b rest, c_inhs c = [] -> packed C c 0 ((CT_HANDSHAKE, f) :: l) b -> 4 <= blen f -> 4 + of_bytes (btake 3 (bdrop 1 f)) < blen f ->
  exists c' r, receive_data C (b ++ rest) c = (Err XTooMuch, c') /\ c_state c' = Failed /\ alert_record C INTERNAL_ERROR r /\ c_out c' = c_out c ++ r.
Proof. exact together_fails. Qed.
Print Assumptions c63_together.
(* the same two messages, in two records and in one *)
Theorem c63_together_refuted : exists C g c a b two one c1 c2, aead_sized C /\ reachable C g c /\ idle c /\ whole a /\ whole b /\
  packed C c 0 [(CT_HANDSHAKE, a); (CT_HANDSHAKE, b)] two /\ packed C c 0 [(CT_HANDSHAKE, a ++ b)] one /\
  receive_data C two c = (Ok tt, c1) /\ receive_data C one c = (Err XTooMuch, c2) /\ c_state c2 = Failed.
Proof.
  exists toy, toy_client, pk_c, pk_a, pk_b, pk_two, pk_one, (snd (receive_data toy pk_two pk_c)), (snd (receive_data toy pk_one pk_c)).
  split; [exact toy_aead_sized|]. split; [exact pk_reachable|]. split; [exact pk_idle|].
  split; [apply pk_whole_ok; vm_compute; reflexivity|]. split; [apply pk_whole_ok; vm_compute; reflexivity|].
  split; [exact pk_two_packed|]. split; [exact pk_one_packed|].
  split; [apply receive_fst; vm_compute; reflexivity|]. split; [apply receive_fst; vm_compute; reflexivity | vm_compute; reflexivity].
Qed.
Print Assumptions c63_together_refuted.
(* a record of another type in the middle of a message is refused *)
Theorem c63_between : forall C g c, aead_sized C -> reachable C g c -> c_in c = [] ->
  can_receive (c_state c) = true -> can_send (c_state c) = true -> room c ->
  forall ct f l b rest, c_inhs c <> [] -> packed C c 0 ((ct, f) :: l) b -> ct <> CT_HANDSHAKE ->
  exists c' r, receive_data C (b ++ rest) c = (Err (XAlert UNEXPECTED_MESSAGE), c') /\ c_state c' = Failed /\
    alert_record C UNEXPECTED_MESSAGE r /\ c_out c' = c_out c ++ r.
Proof. exact between_fails. Qed.
Print Assumptions c63_between.
(* no message spans a change of the key that protects what is read *)
Theorem c63_boundary : forall C c r c', receive_one C c = (r, c') -> reading_key c' <> reading_key c -> c_inhs c' = [].
Proof. exact key_boundary. Qed.
Print Assumptions c63_boundary.
(* the first piece of EncryptedExtensions was read, the client waits for the rest *)
Definition c63_wait := run toy [ORecv (record CT_APPDATA (pk_seal pk_c 0 CT_HANDSHAKE (btake 5 pk_a)))] pk_c.
Example c63_case : c_inhs c63_wait <> [] /\ c_in c63_wait = [] /\ pk_ok c63_wait 0 CT_APPDATA [x61] = true /\
  packed toy pk_c 0 (map (pair CT_HANDSHAKE) [btake 5 pk_a; bdrop 5 pk_a])
    (record CT_APPDATA (pk_seal pk_c 0 CT_HANDSHAKE (btake 5 pk_a)) ++ record CT_APPDATA (pk_seal pk_c 1 CT_HANDSHAKE (bdrop 5 pk_a)) ++ []) /\
  whole (btake 5 pk_a ++ concat [bdrop 5 pk_a]) /\ 4 + of_bytes (btake 3 (bdrop 1 (pk_a ++ pk_b))) < blen (pk_a ++ pk_b).
Proof.
  split; [vm_compute; discriminate|]. split; [vm_compute; reflexivity|]. split; [vm_compute; reflexivity|].
  split; [|split; [apply pk_whole_ok; vm_compute; reflexivity | vm_compute; reflexivity]].
  apply pk_packed; [vm_compute; reflexivity|]. apply (pk_packed pk_c (0 + 1)); [vm_compute; reflexivity | constructor].
Qed.
(* reading the ServerHello changes the key *)
Example c63_case2 : reading_key (snd (receive_one toy (cset_in pk_hello (run toy [OInit] toy_c0)))) <> reading_key (run toy [OInit] toy_c0).
Proof. vm_compute. discriminate. Qed.

(* C64.  Full statement: once connected, the messages that the peer may send
   unprompted are processed.  All of them make the connection fail. *)
Theorem c64_fails : forall C g c f l b rest, aead_sized C -> reachable C g c -> idle c -> c_state c = Connected -> room c ->
  packed C c 0 (map (pair CT_HANDSHAKE) (f :: l)) b -> Forall (fun f => f <> []) l -> 4 <= blen f -> whole (f ++ concat l) ->
  exists e c' r, receive_data C (b ++ rest) c = (Err e, c') /\ c_state c' = Failed /\ alert_record C (alert_for e) r /\ c_out c' = c_out c ++ r.
Proof. exact any_fails. Qed.
Print Assumptions c64_fails.
Theorem c64_ticket : forall C g c lifetime age nonce ticket exts b rest, aead_sized C -> reachable C g c -> idle c -> c_state c = Connected -> room c ->
  blen nonce < 256 -> blen ticket < 65536 -> blen exts < 65536 ->
  packed C c 0 [(CT_HANDSHAKE, new_session_ticket lifetime age nonce ticket exts)] b ->
  exists c' r, receive_data C (b ++ rest) c = (Err (XAlert DECODE_ERROR), c') /\ c_state c' = Failed /\
    alert_record C DECODE_ERROR r /\ c_out c' = c_out c ++ r.
Proof. exact ticket_fails. Qed.
Print Assumptions c64_ticket.
Theorem c64_key_update : forall C g c rq b rest, aead_sized C -> reachable C g c -> idle c -> c_state c = Connected -> room c ->
  packed C c 0 [(CT_HANDSHAKE, key_update rq)] b ->
  exists c' r, receive_data C (b ++ rest) c = (Err (XAlert DECODE_ERROR), c') /\ c_state c' = Failed /\
    alert_record C DECODE_ERROR r /\ c_out c' = c_out c ++ r.
Proof. exact update_fails. Qed.
Print Assumptions c64_key_update.
(* a connected client that is given a ticket *)
Definition c64_ticket_msg : bytes := new_session_ticket 7200 1 [x00] [xaa] [].
Definition c64_wire : bytes := record CT_APPDATA (pk_seal c43_c 0 CT_HANDSHAKE c64_ticket_msg) ++ [].
Theorem c64_ticket_refuted : exists C g c lifetime age nonce ticket b c', aead_sized C /\ reachable C g c /\ idle c /\ c_state c = Connected /\
  lifetime <= 604800 /\ ticket <> [] /\ packed C c 0 [(CT_HANDSHAKE, new_session_ticket lifetime age nonce ticket [])] b /\
  receive_data C b c = (Err (XAlert DECODE_ERROR), c') /\ c_state c' = Failed.
Proof.
  exists toy, toy_client, c43_c, 7200, 1, [x00], [xaa], c64_wire, (snd (receive_data toy c64_wire c43_c)).
  split; [exact toy_aead_sized|]. split; [exists toy_c0; eexists; split; [exact toy_c0_created | reflexivity]|].
  split; [split; vm_compute; reflexivity|]. split; [vm_compute; reflexivity|]. split; [discriminate|]. split; [discriminate|].
  split; [apply pk_packed; [vm_compute; reflexivity | constructor]|].
  split; [apply receive_fst; vm_compute; reflexivity | vm_compute; reflexivity].
Qed.
Print Assumptions c64_ticket_refuted.
(* and none is ever sent: what the handshake gained is what the peer said *)
Theorem c64_sends : forall C o c, is_post_handshake c = true ->
  is_post_handshake (after C o c) = true /\
  exists l, c_hs (after C o c) = c_hs c ++ l /\ Forall (fun e => fst (fst e) = other_side (g_side (c_config c))) l.
Proof. exact late_sends. Qed.
Print Assumptions c64_sends.
(* the hypotheses hold of the client of c43_case *)
Example c64_case : idle c43_c /\ room c43_c /\ c_state c43_c = Connected /\ is_post_handshake c43_c = true /\
  packed toy c43_c 0 [(CT_HANDSHAKE, key_update true)] (record CT_APPDATA (pk_seal c43_c 0 CT_HANDSHAKE (key_update true)) ++ []).
Proof.
  destruct c43_case as (A & _ & B & _). split; [exact A|]. split; [exact B|]. split; [vm_compute; reflexivity|]. split; [vm_compute; reflexivity|].
  apply pk_packed; [vm_compute; reflexivity | constructor].
Qed.
