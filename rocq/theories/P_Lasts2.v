(* C77 for endpoints that just finished their handshake. *)
From Verif Require Import Base P_Base Iana Crypto Config Serial Ext Msg Cipher Conn S_Hist S_Conn S_Nonce S_Send S_Alert S_Deliver S_Honest S_Lasts
  P_Hist P_Deliver P_Honest4 P_Honest10 P_Lasts.

Lemma usage_limit_table s lim : usage_limit s = Some lim -> In (s, lim) limit_table.
Proof.
  unfold usage_limit. destruct (s =? TLS_AES_128_GCM_SHA256) eqn:A; cbn [orb].
  { apply N.eqb_eq in A. intro H. injection H as <-. subst s. left. reflexivity. }
  destruct (s =? TLS_AES_256_GCM_SHA384) eqn:B.
  { apply N.eqb_eq in B. intro H. injection H as <-. subst s. right. left. reflexivity. }
  destruct (s =? TLS_CHACHA20_POLY1305_SHA256) eqn:D; [|discriminate].
  apply N.eqb_eq in D. intro H. injection H as <-. subst s. right. right. left. reflexivity.
Qed.
Lemma newly_fresh suite lim c : newly suite lim c -> fresh c.
Proof.
  intros (x & A & B & D & E). exists x, lim, (mkSeq 0 lim). subst suite. pose proof (usage_limit_table _ _ D) as T.
  split; [exact A|]. split; [exact T|]. split; [exact E|]. cbn [q_next]. cbn in T.
  repeat (destruct T as [T|T]; [injection T as _ <-; reflexivity|]). destruct T.
Qed.

Lemma honest_fresh C gc gs c s : honest_crypto C -> compatible C gc gs c s ->
  wide_fragments gc -> first_share gc gs -> no_ccm gc gs ->
  let w := honest_world C c s in
  built C w /\ linked w /\ fresh (w_a w) /\ fresh (w_b w) /\
  can_send_app (c_state (w_a w)) = true /\ can_send_app (c_state (w_b w)) = true.
Proof.
  intros HC Cp Mc Sh Nccm. destruct (honest_all C gc gs c s HC Cp Mc Sh Nccm)
    as (_ & _ & P1 & P2 & L & _ & _ & _ & _ & _ & _ & d & _ & _ & _ & _ & _ & lim & Nc & Ns).
  destruct (cp_created _ _ _ _ _ Cp) as [Cc Cs]. cbv zeta. unfold honest_world. cbn [w_a w_b].
  split. { split; [exists gc, c; eexists; split; [exact Cc | reflexivity] | exists gs, s; eexists; split; [exact Cs | reflexivity]]. }
  split; [exact L|]. split; [exact (newly_fresh _ _ _ Nc)|]. split; [exact (newly_fresh _ _ _ Ns)|].
  rewrite P1, P2. split; reflexivity.
Qed.
Lemma honest_wears C gc gs c s : honest_crypto C -> compatible C gc gs c s ->
  wide_fragments gc -> first_share gc gs -> no_ccm gc gs ->
  exists w' p, traffic C (honest_world C c s) w' /\ w_ab w' = p /\ p <> [] /\
    fst (step C (ORecv p) (w_b w')) = Err XNotImpl.
Proof.
  intros HC Cp Mc Sh Nccm. destruct (honest_fresh C gc gs c s HC Cp Mc Sh Nccm) as (B & L & Fa & Fb & Ca & Cb).
  destruct (wears C _ (hc_correct _ HC) (hc_aead _ HC) B L Fa Fb Ca Cb) as (w' & p & T & E & P & _ & X).
  exists w', p. auto.
Qed.
Lemma honest_mute C gc gs c s : honest_crypto C -> compatible C gc gs c s ->
  wide_fragments gc -> first_share gc gs -> no_ccm gc gs ->
  exists w', traffic C (honest_world C c s) w' /\ c_state (w_b w') = Connected /\
    (forall d, exists e, fst (step C (OSend d) (w_b w')) = Err e) /\
    exists e, fst (step C OCloseS (w_b w')) = Err e.
Proof.
  intros HC Cp Mc Sh Nccm. destruct (honest_fresh C gc gs c s HC Cp Mc Sh Nccm) as (B & L & Fa & Fb & Ca & Cb).
  destruct (honest_all C gc gs c s HC Cp Mc Sh Nccm) as (_ & _ & P1 & P2 & _).
  destruct (wears_out C _ (hc_correct _ HC) (hc_aead _ HC) B L Fb Cb) as (w' & T & S & _ & X & Y).
  exists w'. split; [exact T|]. split; [rewrite S; exact P2|]. split; assumption.
Qed.
(* at the start it works *)
Lemma honest_lasts C gc gs c s w' p rest : honest_crypto C -> compatible C gc gs c s ->
  wide_fragments gc -> first_share gc gs -> no_ccm gc gs ->
  traffic C (honest_world C c s) w' -> w_ab w' = p ++ rest -> p <> [] -> fresh (w_b w') ->
  fst (step C (ORecv p) (w_b w')) = Ok [].
Proof.
  intros HC Cp Mc Sh Nccm T E P F. destruct (honest_fresh C gc gs c s HC Cp Mc Sh Nccm) as (B & L & _).
  exact (lasts C _ w' p rest (hc_correct _ HC) B L T E P F).
Qed.
