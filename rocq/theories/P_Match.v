(* C50 with handshakes of all kinds. *)
From Verif Require Import Base Iana Crypto Config Ext Msg Cipher Kex Conn S_Hist S_Conn S_Send S_Utils S_Keys S_Auth S_Server S_Codec S_Agree S_Match P_Agree P_Keys.

Lemma rfc_keys_meet C suite h shared th c s : rfc_keys C Client suite h shared th c -> rfc_keys C Server suite h shared th s -> keys_meet c s.
Proof.
  intros (x & klen & Ex & Sx & Ix & [W1 W2] & [R1 R2]) (y & klen' & Ey & Sy & Iy & [V1 V2] & [Q1 Q2]).
  destruct (suite_of_hash _ _ _ Ix) as [_ K1], (suite_of_hash _ _ _ Iy) as [_ K2].
  assert (klen' = klen) by congruence. subst klen'. cbn [other_side] in *.
  exists x, y. rewrite W1, W2, R1, R2, V1, V2, Q1, Q2. repeat split; congruence.
Qed.
Lemma same_start_fin a b : same_start a b -> exists sd, In (SFin sd) a /\ In (SFin sd) b.
Proof. intros (ms & sd & r & r' & -> & ->). exists sd. split; apply in_or_app; right; left; reflexivity. Qed.
Lemma same_keys_all C gc gs c s : aead_sized C -> hmac_sized C -> hash_sized C ->
  g_side gc = Client -> reachable C gc c -> c_state c = Connected -> few c ->
  g_side gs = Server -> started C gs s -> c_state s = Connected -> few s ->
  Forall (Forall (fun b => 32 <= bN b <= 126)) (g_alpn gc) -> host_fine C (c_host c) -> dh_commutes C (c_rng c) (c_rng s) ->
  same_start (c_hs c) (c_hs s) ->
  (keys_meet c s /\ exists ms sd r suite h shared, c_hs c = ms ++ SFin sd :: r /\
    rfc_keys C Client suite h shared (rfc_transcript C h (ms ++ [SFin sd])) c /\
    rfc_keys C Server suite h shared (rfc_transcript C h (ms ++ [SFin sd])) s) \/
  finished_clash C c s \/ digest_mixup C gc c s.
Proof.
  intros As Hs Hh Sc Rc Kc Fc Ss Rs Ks Fs Al Ho Dh St. destruct (same_start_fin _ _ St) as (sd & I1 & I2).
  destruct (bound_keys C As Hs Hh gc gs c s sd Sc Rc Kc Fc Ss Rs Ks Fs Al Ho Dh I1 I2) as [(ms & r & suite & h & shared & E & A & B)|X]; [left | right; exact X].
  split; [exact (rfc_keys_meet _ _ _ _ _ _ _ A B)|]. exists ms, sd, r, suite, h, shared. auto.
Qed.
