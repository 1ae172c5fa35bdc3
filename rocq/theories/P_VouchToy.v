(* Two toy endpoints, the first of which writes and closes. *)
From Verif Require Import Base P_Base Iana Crypto Config Cipher Conn S_Hist S_Conn S_Send S_Nonce S_Alert S_Auth S_Deliver S_Integrity S_Entire S_Server S_Heed S_Vouch
  P_Send P_Deliver Toy P_Toy P_IntegToy P_EntireToy P_HeedToy.

Definition vo_close : bytes := inner_bytes CT_ALERT 16384 16 [x01; x00].
Definition vo_table : list (bytes * bytes) := [(st_nonce 0, st_data x61); (st_nonce 1, st_data x62); (st_nonce 2, vo_close)].
Definition vo : crypto := tabled st_key vo_table.
Definition vo_a : conn := run vo st_a_ops toy_c0.
Definition vo_b : conn := run vo st_b_ops toy_s0.
(* the client writes "a" and "b" and closes; the attacker has the close_notify
   arrive in two pieces *)
Definition vo_ops : list op := [OSend [x61]; OSend [x62]; OCloseS].
Definition vo_end : bytes :=
  record CT_APPDATA (toy_seal TLS_CHACHA20_POLY1305_SHA256 st_key (st_nonce 2) vo_close (aad_of (blen vo_close + 16))).
Definition vo_more : list op := [ORecv (st_record 0 x61); ORead; ORecv (st_record 1 x62 ++ firstn 9 vo_end); ORecv (skipn 9 vo_end)].
Lemma vo_aead_sized : aead_sized vo.
Proof. exact toy_aead_sized. Qed.
Lemma vo_a_reachable : reachable vo toy_client vo_a.
Proof. exists toy_c0, st_a_ops. split; [exact toy_c0_created | reflexivity]. Qed.
Lemma vo_b_reachable : reachable vo toy_server vo_b.
Proof. exists toy_s0, st_b_ops. split; [exact toy_s0_created | reflexivity]. Qed.
Definition closedb (c : conn) : bool := match c_state c with Closed true _ => true | _ => false end.
Lemma closedb_ok c : closedb c = true -> was_closed (c_state c).
Proof. unfold closedb, was_closed. destruct (c_state c) as [ | | | | | | | | | | |[] w| ]; try discriminate. intros _. exists w. reflexivity. Qed.
Lemma vo_ok : quiet_link vo_a vo_b /\ room vo_a /\ established (c_state vo_a) = true /\ c_state vo_b = Connected /\
  unforgeable vo vo_a (c_log (run vo vo_ops vo_a)) /\ heeded vo vo_more vo_b /\ was_closed (c_state (run vo vo_more vo_b)) /\
  written vo vo_ops vo_a = [x61; x62] /\ readout vo vo_more vo_b = [x61] /\ c_app (run vo vo_more vo_b) = [x62].
Proof.
  assert (H : quiet_linkb vo_a vo_b && roomb vo_a && established (c_state vo_a) && connectedb vo_b &&
    tabb st_key vo_table vo_a (c_log (run vo vo_ops vo_a)) && heededb vo vo_more vo_b && closedb (run vo vo_more vo_b) &&
    beqb (written vo vo_ops vo_a) [x61; x62] && beqb (readout vo vo_more vo_b) [x61] && beqb (c_app (run vo vo_more vo_b)) [x62] = true)
    by (vm_compute; reflexivity).
  apply andb_prop in H. destruct H as [H H10]. apply andb_prop in H. destruct H as [H H9]. apply andb_prop in H. destruct H as [H H8].
  apply andb_prop in H. destruct H as [H H7]. apply andb_prop in H. destruct H as [H H6].
  apply andb_prop in H. destruct H as [H H5]. apply andb_prop in H. destruct H as [H H4].
  apply andb_prop in H. destruct H as [H H3]. apply andb_prop in H. destruct H as [H1 H2]. split; [apply quiet_linkb_ok; exact H1|]. split; [apply roomb_ok; exact H2|].
  split; [exact H3|]. split; [apply connectedb_ok; exact H4|]. split; [apply tabb_ok; exact H5|]. split; [apply heededb_ok; exact H6|].
  split; [apply closedb_ok; exact H7|]. split; [apply beqb_eq; exact H8|]. split; [apply beqb_eq; exact H9 | apply beqb_eq; exact H10].
Qed.
Lemma vo_last : last_words vo vo_ops vo_a.
Proof.
  intros o1 o o2 (E & B). unfold vo_ops in *.
  destruct o1 as [|p1 o1]; cbn [app] in E; [injection E; intros <- <-|injection E; intros E1 <-].
  { exfalso. destruct B as [B|B]; [discriminate B|]. revert B. change ([] ++ [OSend [x61]]) with [OSend [x61]].
    assert (K : connectedb (run vo [OSend [x61]] vo_a) = true) by (vm_compute; reflexivity). apply connectedb_ok in K. rewrite K. discriminate. }
  destruct o1 as [|p2 o1]; cbn [app] in E1; [injection E1; intros <- <-|injection E1; intros E2 <-].
  { exfalso. destruct B as [B|B]; [discriminate B|]. revert B. cbn [app].
    assert (K : connectedb (run vo [OSend [x61]; OSend [x62]] vo_a) = true) by (vm_compute; reflexivity). apply connectedb_ok in K. rewrite K. discriminate. }
  destruct o1 as [|p3 o1]; cbn [app] in E2; [injection E2; intros <- _; reflexivity|]. injection E2; intros E3 _. destruct o1; discriminate E3.
Qed.
