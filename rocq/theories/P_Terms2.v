(* C75: what connected endpoints know, and what two honest ones agree on. *)
From Verif Require Import Base P_Base Iana Crypto Config Serial Ext Msg Hkdf Cipher Kex Sig Ocsp Transcript Conn S_Hist S_Conn S_Server S_Honest S_Terms P_Hist P_Neg P_Entire P_Honest5 P_Honest6 P_Honest10 P_Terms.

Lemma reach_KC C g c : reachable C g c -> g_side g = Client -> KC (c_state c) (c_nc c).
Proof.
  intros (c0 & ops & Cr & ->) Sd. apply kc_run; [eapply created_mfl; exact Cr|].
  destruct (created_cases _ _ Cr) as [(_ & h & o & u & r & t & -> & _)|(X & _)]; [exact Logic.I | congruence].
Qed.
Lemma reach_KS C g c : reachable C g c -> g_side g = Server -> KS (c_state c) (c_nc c).
Proof.
  intros (c0 & ops & Cr & ->) Sd. apply ks_run; [eapply created_mfl; exact Cr|].
  destruct (created_cases _ _ Cr) as [(X & _)|(_ & o & u & r & t & -> & _)]; [congruence | exact Logic.I].
Qed.
Lemma nn A (o : option A) : nnone o = true -> o <> None.
Proof. destruct o; discriminate. Qed.
Lemma client_known C g c : reachable C g c -> g_side g = Client -> c_state c = Connected -> client_knows c.
Proof.
  intros R Sd S. pose proof (reach_KC C g c R Sd) as H. rewrite S in H. cbn in H. unfold KC in H.
  destruct (c_nc c) as [n|] eqn:N; [|contradiction]. destruct H as ((H1 & _) & (H2 & H3 & H4 & H5 & H6) & H7 & H8).
  split; unfold tells; rewrite N; try (apply nn; assumption).
  destruct H7 as [(A & B & D)|(A & B & D)]; [left | right]; (split; [exact A|]; split; [try exact B; apply nn; exact B | try exact D; apply nn; exact D]).
Qed.
Lemma server_known C g c : reachable C g c -> g_side g = Server -> c_state c = Connected -> server_knows c.
Proof.
  intros R Sd S. pose proof (reach_KS C g c R Sd) as H. rewrite S in H. unfold KS in H.
  destruct (c_nc c) as [n|] eqn:N; [|contradiction]. destruct H as (_ & H1 & H2 & H3 & H4 & H5 & H6 & H7 & H8).
  split; unfold tells; rewrite N; apply nn; assumption.
Qed.
Lemma client_silent C g c : reachable C g c -> g_side g = Client -> tells n_group c = None.
Proof.
  intros R Sd. pose proof (reach_KC C g c R Sd) as H. unfold tells. destruct (c_nc c) as [n|]; [|reflexivity].
  destruct (c_state c) as [ |[|] ? ?| | | | | | | | | |? ?|]; cbn in H; unfold cbase in H; try contradiction; tauto.
Qed.
Lemma server_silent C g c : reachable C g c -> g_side g = Server ->
  tells n_sigalg c = None /\ tells n_peer_cert c = None /\ tells n_peer_key c = None.
Proof.
  intros R Sd. pose proof (reach_KS C g c R Sd) as H. unfold tells. destruct (c_nc c) as [n|]; [|auto].
  destruct (c_state c) as [ | | | | | | | |[|]| | |? ?|]; cbn in H; unfold sbase in H; try contradiction; tauto.
Qed.
Lemma run_over C g c ops : reachable C g c -> c_state c = Connected -> c_nc (run C ops c) = c_nc c.
Proof. intros R S. refine (proj2 (terms_fixed C g c ops R _)). unfold over. rewrite S. exact Logic.I. Qed.
Lemma echo_mode g : (heartbeat_mode g =? PEER_ALLOWED_TO_SEND) = g_echo g.
Proof. unfold heartbeat_mode. destruct (g_echo g); reflexivity. Qed.
Lemma agree C gc gs c s opc ops : honest_crypto C -> compatible C gc gs c s ->
  wide_fragments gc -> first_share gc gs -> no_ccm gc gs ->
  same_terms C gc gs (run C opc (run C (client_ops C c s) c)) (run C ops (run C (server_ops C c s) s)).
Proof.
  intros HC Cp Mc Sh Nccm. destruct (honest_all C gc gs c s HC Cp Mc Sh Nccm) as (_ & _ & P1 & P2 & _ & _ & _ & _ & _ & _ & _ & d & A & Ec & Es & Nc & Ns & _).
  destruct (cp_created _ _ _ _ _ Cp) as [Cc Cs].
  assert (Nc' : c_nc (run C opc (run C (client_ops C c s) c)) = Some (nc4 d)).
  { rewrite (run_over C gc); [exact Nc | exists c, (client_ops C c s); auto | exact P1]. }
  assert (Ns' : c_nc (run C ops (run C (server_ops C c s) s)) = Some (server_nc d (heartbeat_mode (dl_gc d)))).
  { rewrite (run_over C gs); [exact Ns | exists s, (server_ops C c s); auto | exact P2]. }
  split; unfold tells; rewrite Nc', Ns' || rewrite Nc' || rewrite Ns'.
  - exists (dl_suite d). split; [rewrite <- Ec, <- Es; apply first_common_prefers; exact (ag_suite _ _ A)|]. split; reflexivity.
  - exists (dl_group d). split; [rewrite <- Ec, <- Es; apply first_common_prefers; exact (ag_group _ _ A) | reflexivity].
  - exists (dl_sg d), (dl_leaf d), (dl_rest d). split; [rewrite <- Es; exact (ag_chain _ _ A)|]. split; [|repeat split].
    destruct (ag_algs _ _ A) as (l & E & F). apply key_schemes in E. subst l. rewrite <- Ec, <- Es.
    eapply find_prefers; [|exact F]. intro y. rewrite andb_true_iff, !memN_iff. reflexivity.
  - exists (dl_al d). split; reflexivity.
  - split; [reflexivity|]. cbn. rewrite (ag_mfls _ _ A). reflexivity.
  - split; reflexivity.
  - cbn. rewrite !echo_mode, Ec, Es. repeat split.
  - cbn. rewrite Ec. reflexivity.
Qed.
Lemma disagree C gc gs c s : honest_crypto C -> compatible C gc gs c s ->
  wide_fragments gc -> first_share gc gs -> no_ccm gc gs ->
  let c' := run C (client_ops C c s) c in let s' := run C (server_ops C c s) s in
  c_state c' = Connected /\ c_state s' = Connected /\
  tells n_group c' <> tells n_group s' /\ tells n_sigalg c' <> tells n_sigalg s'.
Proof.
  intros HC Cp Mc Sh Nccm c' s'. destruct (honest_handshake C gc gs c s HC Cp Mc Sh Nccm) as (_ & _ & P1 & P2 & _).
  destruct (cp_created _ _ _ _ _ Cp) as [Cc Cs]. destruct (cp_sides _ _ _ _ _ Cp) as [Sc Ss].
  assert (Rc : reachable C gc c') by (exists c, (client_ops C c s); auto).
  assert (Rs : reachable C gs s') by (exists s, (server_ops C c s); auto).
  split; [exact P1|]. split; [exact P2|]. split.
  - rewrite (client_silent C gc c' Rc Sc). intro E. exact (sk_group _ (server_known C gs s' Rs Ss P2) (eq_sym E)).
  - rewrite (proj1 (server_silent C gs s' Rs Ss)). exact (ck_sigalg _ (client_known C gc c' Rc Sc P1)).
Qed.
Lemma both_connected C gc gs c s : honest_crypto C -> compatible C gc gs c s ->
  wide_fragments gc -> first_share gc gs -> no_ccm gc gs ->
  exists c' s', reachable C gc c' /\ g_side gc = Client /\ c_state c' = Connected /\ over c' /\
    reachable C gs s' /\ g_side gs = Server /\ c_state s' = Connected /\ over s'.
Proof.
  intros HC Cp Mc Sh Nccm. destruct (honest_handshake C gc gs c s HC Cp Mc Sh Nccm) as (_ & _ & P1 & P2 & _).
  destruct (cp_created _ _ _ _ _ Cp) as [Cc Cs]. destruct (cp_sides _ _ _ _ _ Cp) as [Sc Ss].
  exists (run C (client_ops C c s) c), (run C (server_ops C c s) s).
  split; [exists c, (client_ops C c s); auto|]. split; [exact Sc|]. split; [exact P1|]. split; [unfold over; rewrite P1; exact Logic.I|].
  split; [exists s, (server_ops C c s); auto|]. split; [exact Ss|]. split; [exact P2 | unfold over; rewrite P2; exact Logic.I].
Qed.
