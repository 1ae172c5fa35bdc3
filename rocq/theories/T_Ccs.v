(* C71 *)
From Verif Require Import Base P_Base Iana Crypto Config Serial Ext Msg Cipher Conn S_Hist S_Conn S_Send S_Nonce S_Alert S_Pack S_Split S_Ccs P_Split P_Ccs P_Ccs2 P_PackToy Toy P_Toy.
From Verif Require T_Alert.
Local Open Scope N_scope.

(* C71.  In every state: records that say change_cipher_spec, put anywhere between
   the records received, change neither what is raised nor anything in the
   connection, but for those that were not read yet. *)
Theorem c71_dropped : forall C c v d d', d <> [] -> d' <> [] -> sprinkled (c_in c) v -> sprinkled (c_in c ++ d) (v ++ d') ->
  fst (receive_data C d' (cset_in v c)) = fst (receive_data C d c) /\
  exists w, snd (receive_data C d' (cset_in v c)) = cset_in w (snd (receive_data C d c)) /\ sprinkled (c_in (snd (receive_data C d c))) w.
Proof. exact receive_like. Qed.
Print Assumptions c71_dropped.
Definition c71_u : bytes := [x14; x03; x03; x00; x01; x01].
(* the client that waits for the ServerHello, what the server sent, and the same
   with a change_cipher_spec in front of and behind the ServerHello *)
Definition c71_c := run toy [OInit; OFlush] toy_c0.
Definition c71_d' : bytes := c71_u ++ pk_hello ++ c71_u ++ bdrop (blen pk_hello) (c_out toy_s2).
Example c71_dropped_case : c_in c71_c = [] /\ sprinkled (c_out toy_s2) c71_d' /\
  c_state (snd (receive_data toy (c_out toy_s2) c71_c)) = Connected /\ c_state (snd (receive_data toy c71_d' c71_c)) = Connected.
Proof.
  split; [vm_compute; reflexivity|]. split.
  - assert (E : c_out toy_s2 = pk_hello ++ bdrop (blen pk_hello) (c_out toy_s2)) by (apply beqb_eq; vm_compute; reflexivity).
    unfold c71_d'. rewrite E at 1. apply sprinkled_ccs; [exists (x03, x03); reflexivity|]. apply sprinkled_record.
    + exists x16, (x03, x03), (bdrop 5 pk_hello). split; [vm_compute; reflexivity | apply beqb_eq; vm_compute; reflexivity].
    + apply sprinkled_ccs; [exists (x03, x03); reflexivity | apply sprinkled_rest].
  - split; vm_compute; reflexivity.
Qed.
(* when nothing else arrives *)
Theorem c71_alone : forall C c us, us <> [] -> Forall a_ccs us -> c_in c = [] -> can_receive (c_state c) = true -> rekey_due c = false ->
  receive_data C (concat us) c = (Ok tt, c).
Proof. exact receive_nothing. Qed.
Print Assumptions c71_alone.

(* Any other record of that type is refused. *)
Theorem c71_other : forall C g c, aead_sized C -> reachable C g c -> c_in c = [] ->
  can_receive (c_state c) = true -> can_send (c_state c) = true -> room c ->
  forall v f rest, dec_on c = false -> blen f <= max_frag c -> f <> [x01] ->
  exists c' r, receive_data C (framed x14 v f ++ rest) c = (Err (XAlert UNEXPECTED_MESSAGE), c') /\ c_state c' = Failed /\
    alert_record C UNEXPECTED_MESSAGE r /\ c_out c' = c_out c ++ r.
Proof. exact bad_clear. Qed.
Print Assumptions c71_other.
Theorem c71_protected : forall C g c, aead_sized C -> reachable C g c -> c_in c = [] ->
  can_receive (c_state c) = true -> can_send (c_state c) = true -> room c ->
  forall x p inner f rest, c_cipher c = Some x -> dec_on c = true -> left_at x 0 -> blen p <= max_frag c + 256 ->
  opens_at C x 0 p inner -> wraps CT_CCS f inner ->
  exists c' r, receive_data C (record CT_APPDATA p ++ rest) c = (Err (XAlert UNEXPECTED_MESSAGE), c') /\ c_state c' = Failed /\
    alert_record C UNEXPECTED_MESSAGE r /\ c_out c' = c_out c ++ r.
Proof. exact bad_sealed. Qed.
Print Assumptions c71_protected.
Definition c71_fst {A} (x : res A * conn) : res A := fst x.
Example c71_other_case : c71_fst (receive_data toy (framed x14 (x03, x03) [x02]) c71_c) = Err (XAlert UNEXPECTED_MESSAGE) /\
  can_send (c_state c71_c) = true /\ can_receive (c_state c71_c) = true /\ dec_on c71_c = false /\
  c71_fst (receive_data toy (record CT_APPDATA (pk_seal pk_c 0 CT_CCS [x01])) pk_c) = Err (XAlert UNEXPECTED_MESSAGE) /\
  can_send (c_state pk_c) = true /\ can_receive (c_state pk_c) = true /\ dec_on pk_c = true.
Proof. repeat (split; [vm_compute; reflexivity|]). vm_compute. reflexivity. Qed.

(* Full statement: they are ignored during the handshake only, and refused before
   the ClientHello and after the Finished of the peer.  They are ignored there
   too. *)
Theorem c71_late_refuted : exists C g c, reachable C g c /\ c_state c = Connected /\ receive_data C c71_u c = (Ok tt, c).
Proof.
  exists toy, toy_client, T_Alert.c43_c. split; [exists toy_c0; eexists; split; [exact toy_c0_created | reflexivity]|]. split; [vm_compute; reflexivity|].
  apply (c71_alone toy T_Alert.c43_c [c71_u]); try (vm_compute; reflexivity); [discriminate|]. constructor; [exists (x03, x03); reflexivity | constructor].
Qed.
Print Assumptions c71_late_refuted.
Definition c71_s := run toy [OInit] toy_s0.
Theorem c71_early_refuted : exists C g c, reachable C g c /\ g_side g = Server /\ c_hs c = [] /\ receive_data C c71_u c = (Ok tt, c).
Proof.
  exists toy, toy_server, c71_s. split; [exists toy_s0, [OInit]; split; [exact toy_s0_created | reflexivity]|]. split; [reflexivity|]. split; [vm_compute; reflexivity|].
  apply (c71_alone toy c71_s [c71_u]); try (vm_compute; reflexivity); [discriminate|]. constructor; [exists (x03, x03); reflexivity | constructor].
Qed.
Print Assumptions c71_early_refuted.
