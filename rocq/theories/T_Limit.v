(* C72 *)
From Verif Require Import Base P_Base Iana Crypto Config Serial Ext Msg Cipher Conn S_Hist S_Conn S_Send S_Nonce S_Alert S_Pack S_Split S_Ccs P_Send P_Hist P_Nonce P_Alert P_Pack P_Split P_Ccs P_Ccs2 P_Limit P_PackToy P_LimitToy Toy P_Toy.
From Verif Require T_Alert.
Local Open Scope N_scope.

(* C72.  Full statement: with record_overflow. *)
Theorem c72_long_partial : forall C g c, aead_sized C -> reachable C g c -> c_in c = [] ->
  can_receive (c_state c) = true -> can_send (c_state c) = true -> room c ->
  forall ct v l rest, l < 65536 -> max_record c < l ->
  exists c' r, receive_data C ([ct; fst v; snd v; Nb (l / 256); Nb (l mod 256)] ++ rest) c = (Err XAttr, c') /\ c_state c' = Failed /\
    alert_record C INTERNAL_ERROR r /\ c_out c' = c_out c ++ r.
Proof. exact too_long. Qed.
Print Assumptions c72_long_partial.
Definition c72_c := run toy [OInit; OFlush] toy_c0.
Example c72_long_case : c_in c72_c = [] /\ can_receive (c_state c72_c) = true /\ can_send (c_state c72_c) = true /\ room c72_c /\ max_record c72_c = 16384 /\
  max_record T_Alert.c43_c = 16640.
Proof.
  repeat (split; [vm_compute; reflexivity|]). split; [intros x H _; vm_compute in H; discriminate H|]. split; vm_compute; reflexivity.
Qed.
Theorem c72_overflow_refuted : exists C g c d, aead_sized C /\ reachable C g c /\ c_in c = [] /\ can_receive (c_state c) = true /\
  dec_on c = false /\ record_length d = 2 ^ 14 + 1 /\ fst (receive_data C d c) <> Err (XAlert RECORD_OVERFLOW).
Proof.
  exists toy, toy_client, c72_c, [x16; x03; x03; x40; x01]. split; [exact toy_aead_sized|]. split; [exists toy_c0; eexists; split; [exact toy_c0_created | reflexivity]|].
  split; [vm_compute; reflexivity|]. split; [vm_compute; reflexivity|]. split; [vm_compute; reflexivity|]. split; [vm_compute; reflexivity|].
  assert (E : fst (receive_data toy [x16; x03; x03; x40; x01] c72_c) = Err XAttr) by (vm_compute; reflexivity). rewrite E. discriminate.
Qed.
Print Assumptions c72_overflow_refuted.

(* The version in front of a record in clear is ignored. *)
Theorem c72_version : forall C g c ct v v' f, reachable C g c -> c_in c = [] -> dec_on c = false -> blen f <= max_frag c ->
  receive_data C (framed ct v f) c = receive_data C (framed ct v' f) c.
Proof. intros C g c ct v v' f R Ci Dn L. apply version_ignored; try assumption. exact (reachable_mfl _ _ _ R). Qed.
Print Assumptions c72_version.
Example c72_version_case : dec_on c72_c = false /\ c_in c72_c = [] /\ c_out toy_s2 <> [] /\
  fst (receive_data toy (framed x16 (x00, x07) (bdrop 5 pk_hello)) c72_c) = Ok tt.
Proof. split; [vm_compute; reflexivity|]. split; [vm_compute; reflexivity|]. split; [vm_compute; discriminate|]. vm_compute. reflexivity. Qed.

(* Full statement: content longer than the limit is refused.  What a protected
   record holds is handed over whatever its length, and the room left for the tag
   and the padding is enough for more than the limit. *)
Theorem c72_inner : forall C g c f b, reachable C g c -> idle c -> c_state c = Connected -> packed C c 0 [(CT_APPDATA, f)] b ->
  exists r c', receive_data C b c = (r, c') /\ c_app c' = c_app c ++ f /\ c_state c' = Connected.
Proof.
  intros C g c f b R [Ci Hi] S P.
  destruct (long_delivered C c f b) as (r & c' & E & A & S'); try assumption; try (rewrite S; reflexivity);
    [exact (reachable_iv _ _ _ R) | exact (reachable_mfl _ _ _ R) |]. exists r, c'. rewrite S', S. auto.
Qed.
Print Assumptions c72_inner.
Theorem c72_inner_refuted : exists C g c f b r c', reachable C g c /\ c_state c = Connected /\ max_frag c = 2 ^ 14 /\ c_app c = [] /\
  packed C c 0 [(CT_APPDATA, f)] b /\ max_frag c < blen f /\ receive_data C b c = (r, c') /\ c_app c' = f /\ c_state c' = Connected.
Proof.
  set (c := T_Alert.c43_c). set (f := repeat x61 (N.to_nat 16600)).
  assert (R : reachable toy toy_client c) by (exists toy_c0; eexists; split; [exact toy_c0_created | reflexivity]).
  assert (S : c_state c = Connected) by (vm_compute; reflexivity). assert (M : max_frag c = 2 ^ 14) by (vm_compute; reflexivity).
  assert (A : c_app c = []) by (vm_compute; reflexivity). assert (I : idle c) by (split; vm_compute; reflexivity).
  assert (Lf : blen f = 16600) by (unfold f, blen; rewrite repeat_length, N2Nat.id; reflexivity).
  assert (F : forall h, blen h = 16600 -> exists b, packed toy c 0 [(CT_APPDATA, h)] b) by (intros h Lh; apply sealable; [vm_compute; reflexivity | rewrite M, Lh; lia]).
  destruct (F f Lf) as [b P]. destruct (c72_inner toy toy_client c f b R I S P) as (r & c' & E & A' & S').
  exists toy, toy_client, c, f, b, r, c'. split; [exact R|]. split; [exact S|]. split; [exact M|]. split; [exact A|]. split; [exact P|].
  split; [rewrite M, Lf; reflexivity|]. split; [exact E|]. split; [rewrite A', A; reflexivity | exact S'].
Qed.
Print Assumptions c72_inner_refuted.

(* Full statement: a record that is protected has the type application_data
   outside, and an empty handshake record is refused. *)
Definition c72_seal (ct : byte) (inner : bytes) (c : conn) : bytes :=
  match c_cipher c with
  | Some x => match d_key (cs_r x), rfc_nonce (cs_r x) with
              | Some k, Some n => let h := ct :: x03 :: x03 :: be_bytes 2 (blen inner + 16) in h ++ cr_seal toy (cs_suite x) k n inner h
              | _, _ => [] end
  | None => [] end.
Theorem c72_outer_refuted : exists C g c d, reachable C g c /\ c_state c = Connected /\ c_app c = [] /\ btake 1 d = [Nb CT_ALERT] /\
  fst (receive_data C d c) = Ok tt /\ c_app (snd (receive_data C d c)) = [x68; x69].
Proof.
  exists toy, toy_client, T_Alert.c43_c, (c72_seal x15 [x68; x69; x17] T_Alert.c43_c).
  split; [exists toy_c0; eexists; split; [exact toy_c0_created | reflexivity]|]. repeat (split; [vm_compute; reflexivity|]). vm_compute. reflexivity.
Qed.
Print Assumptions c72_outer_refuted.
Theorem c72_empty_refuted : exists C g c b, reachable C g c /\ idle c /\ packed C c 0 [(CT_HANDSHAKE, [])] b /\
  fst (receive_data C b c) = Ok tt /\ c_state (snd (receive_data C b c)) = c_state c.
Proof.
  exists toy, toy_client, pk_c, (record CT_APPDATA (pk_seal pk_c 0 CT_HANDSHAKE []) ++ []).
  split; [exists toy_c0; eexists; split; [exact toy_c0_created | reflexivity]|]. split; [split; vm_compute; reflexivity|].
  split; [apply pk_packed; [vm_compute; reflexivity | constructor]|]. split; vm_compute; reflexivity.
Qed.
Print Assumptions c72_empty_refuted.
