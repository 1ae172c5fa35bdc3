(* What a server refuses, and how. *)
From Verif Require Import Base P_Base Iana Crypto Config Serial Ext Msg Hkdf Cipher Kex Sig Ocsp Transcript Conn
  S_Hist S_Conn S_State S_Send S_Nonce S_Alert S_Utils S_Keys S_Auth S_Server
  P_Monad P_Frame P_Hist P_Send P_Wp P_State P_Speak P_Alert P_Keys P_Tr P_Auth P_Neg P_Flight P_Server.

Lemma first_common_some ours theirs : common ours theirs -> exists x, first_common ours theirs = Some x.
Proof.
  intros (x & I1 & I2). unfold first_common. destruct (find _ _) eqn:F; [eauto|].
  pose proof (find_none _ _ F x I1) as K. cbn in K. apply memN_iff in I2. congruence.
Qed.
Lemma first_common_none ours theirs : ~ common ours theirs -> first_common ours theirs = None.
Proof.
  intro N. unfold first_common. destruct (find _ _) eqn:F; [|reflexivity]. apply find_some in F as [I1 I2]. destruct N.
  exists n. split; [exact I1 | apply memN_iff; exact I2].
Qed.
Lemma prefers_find A (f : A -> bool) (ok : A -> Prop) l x : (forall y, f y = true <-> ok y) -> prefers ok l x -> find f l = Some x.
Proof.
  intros E (a & b & -> & O & N). induction a as [|u a IH]; cbn.
  - apply E in O. rewrite O. reflexivity.
  - destruct (f u) eqn:F; [apply E in F; destruct (N u (or_introl eq_refl) F)|]. apply IH. intros y I. apply N. right. exact I.
Qed.
Lemma prefers_first ours theirs x : prefers (fun y => In y theirs) ours x -> first_common ours theirs = Some x.
Proof. apply prefers_find. intro. apply memN_iff. Qed.
Lemma assocN_some (A : Type) k (l : list (N * A)) p : (forall q, In (k, q) l <-> q = p) -> assocN k l = Some p.
Proof.
  intro H. assert (I : In (k, p) l) by (apply H; reflexivity).
  destruct (assocN k l) as [q|] eqn:E; [apply assocN_in, H in E; congruence|].
  exfalso. clear H. induction l as [|[a b] l IH]; [destruct I|]. cbn in E. destruct (k =? a) eqn:K; [discriminate|].
  destruct I as [I|I]; [injection I; intros; subst; rewrite N.eqb_refl in K; discriminate | exact (IH I E)].
Qed.
Lemma assocN_none (A : Type) k (l : list (N * A)) : (forall q, ~ In (k, q) l) -> assocN k l = None.
Proof. intro H. destruct (assocN k l) as [q|] eqn:E; [apply assocN_in in E; destruct (H _ E) | reflexivity]. Qed.
Lemma schemes_ok oid : schemes_of_key oid <> [] -> for_public_key_oid oid = Ok (schemes_of_key oid).
Proof.
  unfold for_public_key_oid, schemes_of_key. intro H.
  repeat match goal with |- context [if ?b then _ else _] => destruct b end; try reflexivity. destruct (H eq_refl).
Qed.

Section neg.
Variables (C : crypto) (g : config) (priv : bytes) (exts : list ext).
Definition at_ (c : conn) : Prop := c_config c = g /\ c_nc c <> None /\ c_rng c (c_rngi c) = priv.
Definition pass {A} (P : A -> Prop) (m : M A) : Prop := forall c, at_ c -> wp m c (fun r c' => exists a, r = Ok a /\ P a /\ at_ c').
Definition stop {A} (a : N) (m : M A) : Prop := forall c, at_ c -> wp m c (fun r _ => r = Err (XAlert a)).
Lemma stop_bind A B (m : M A) (f : A -> M B) a : stop a m -> stop a (bind m f).
Proof. intros H c K. eapply wpb_mono; [apply H; exact K|]. intros r c1 ->. reflexivity. Qed.
Lemma pass_bind A B (P : A -> Prop) (m : M A) (f : A -> M B) a : pass P m -> (forall x, P x -> stop a (f x)) -> stop a (bind m f).
Proof. intros H1 H2 c K. eapply wpb_mono; [apply H1; exact K|]. intros r c1 (x & -> & Px & K1). apply (H2 x Px c1 K1). Qed.

Lemma pass_version : version_ok exts -> pass (fun _ => True) (server_neg_versions exts).
Proof.
  intros (l & E & I0) c K. unfold server_neg_versions. rewrite E. apply memN_iff in I0. change TLS_1_3 with 0x0304. rewrite I0. wstep. eauto.
Qed.
Lemma upd_at f c : at_ c -> exists n, c_nc c = Some n /\ at_ (cset_nc (Some (f n)) c).
Proof. intros (A & B & D). destruct (c_nc c) as [n|] eqn:E; [|destruct (B eq_refl)]. exists n. split; [reflexivity|]. split; [exact A|]. split; [discriminate | exact D]. Qed.
Ltac upd K := wstep; [destruct K as (_ & K & _); contradiction|];
  match goal with |- wp _ (cset_nc (Some ?x) ?c) _ => assert (at_ (cset_nc (Some x) c)) by (destruct K as (? & ? & ?); split; [assumption | split; [discriminate | assumption]]) end.
Lemma pass_groups : groups_ok g exts -> pass (fun x => exists l, ext_get SUPPORTED_GROUPS exts = Some (ESupportedGroups l) /\ prefers (fun y => In y l) (g_groups g) x) (server_neg_groups exts).
Proof.
  intros (l & E & I0) c K. unfold server_neg_groups. wstep. rewrite E. pose proof K as (-> & _). destruct (first_common_some _ _ I0) as [x F]. rewrite F.
  upd K. wstep. exists x. split; [reflexivity|]. split; [exists l; split; [reflexivity | apply first_common_prefers; exact F] | assumption].
Qed.
Lemma pass_algs : algs_ok C g exts -> pass (fun _ => True) (server_neg_sigalgs C exts).
Proof.
  intros (l & cert & rest & E & Ec & Ns & x & X1 & X2 & X3) c K. unfold server_neg_sigalgs. wstep. rewrite E. pose proof K as (Eg & _). rewrite Eg, Ec.
  rewrite (schemes_ok _ Ns). wstep; [|discriminate]. match goal with E : Ok _ = Ok _ |- _ => injection E; intros <- end.
  destruct (find _ _) as [s|] eqn:F.
  - wrun. exists tt. split; [reflexivity|]. split; [exact I | exact K].
  - pose proof (find_none _ _ F x X1) as Z. cbn in Z. apply memN_iff in X2, X3. rewrite X2, X3 in Z. discriminate.
Qed.
Lemma pass_share group : share_ok C g priv exts -> (exists l, ext_get SUPPORTED_GROUPS exts = Some (ESupportedGroups l) /\ prefers (fun y => In y l) (g_groups g) group) ->
  forall c, at_ c -> wp (server_neg_key_share C group exts) c (fun r c' => (exists e x s, r = Ok (e, Some (x :: s))) /\ c_config c' = g /\ c_nc c' <> None).
Proof.
  intros (group' & peer & pub & x & s & (gs & Eg & Pf & l & Ek & Ng & Hq) & E1 & E2) (gs' & Eg' & Pf') c (A & B & D).
  rewrite Eg in Eg'. injection Eg'; intros <-. rewrite (prefers_unique _ _ _ _ _ Pf' Pf).
  unfold server_neg_key_share. rewrite Ek, (assocN_some _ _ _ _ Hq). apply memN_iff in Ng. rewrite Ng. cbn [negb].
  wstep. rewrite D. rewrite E1. cbn [on_value_error]. wstep; [|discriminate]. rewrite E2. cbn [on_value_error]. wstep; [|discriminate].
  match goal with E : Ok _ = Ok ?a |- context [Some ?a] => injection E; intros <- end.
  wstep. split; [eauto|]. split; [exact A | exact B].
Qed.
End neg.
Section neg2.
Variables (C : crypto) (g : config) (exts : list ext).
Let at2 (c : conn) : Prop := c_config c = g /\ c_nc c <> None.
Let pass2 {A} (m : M A) : Prop := forall c, at2 c -> wp m c (fun r c' => (exists a, r = Ok a) /\ at2 c').
Let stop2 {A} (a : N) (m : M A) : Prop := forall c, at2 c -> wp m c (fun r _ => r = Err (XAlert a)).
Lemma stop2_bind A B (m : M A) (f : A -> M B) a : stop2 a m -> stop2 a (bind m f).
Proof. intros H c K. eapply wpb_mono; [apply H; exact K|]. intros r c1 ->. reflexivity. Qed.
Lemma pass2_bind A B (m : M A) (f : A -> M B) a : pass2 m -> (forall x, stop2 a (f x)) -> stop2 a (bind m f).
Proof. intros H1 H2 c K. eapply wpb_mono; [apply H1; exact K|]. intros r c1 ((x & ->) & K1). apply (H2 x c1 K1). Qed.
Ltac upd K := wstep; [destruct K as (_ & K); contradiction|];
  match goal with |- wp _ (cset_nc (Some ?x) ?c) _ => assert (at2 (cset_nc (Some x) c)) by (destruct K as (? & ?); split; [assumption | discriminate]) end.
Lemma pass_cct : cct_ok g exts -> pass2 (server_neg_cct exts).
Proof.
  intros O c K. unfold server_neg_cct. wstep. pose proof K as (Eg & _). rewrite Eg. destruct O as [-> | (l & [(E & ->) | E] & Cm)].
  - cbn [negb]. wstep. split; [eauto | exact K].
  - rewrite E. destruct (require_peer_auth g); cbn [negb]; [|wstep; split; [eauto | exact K]].
    destruct (first_common_some _ _ Cm) as [x F]. wstep. rewrite F. upd K. wstep. split; [eauto | assumption].
  - rewrite E. destruct (require_peer_auth g); cbn [negb]; [|wstep; split; [eauto | exact K]].
    destruct (first_common_some _ _ Cm) as [x F]. wstep. rewrite F. upd K. wstep. split; [eauto | assumption].
Qed.
Lemma pass_sct : sct_ok g exts -> pass2 (server_neg_sct exts).
Proof.
  intros (l & O & Cm) c K. unfold server_neg_sct. wstep. pose proof K as (Eg & _). rewrite Eg. destruct (first_common_some _ _ Cm) as [x F].
  destruct O as [(E & ->) | E]; rewrite E; wstep; rewrite F; upd K; wstep; (split; [eauto | assumption]).
Qed.
Lemma pass_mfl : mfl_ok exts -> pass2 (server_neg_mfl exts).
Proof.
  intros O c K. unfold server_neg_mfl. wstep. destruct O as [E | (code & o & E & Em)]; rewrite E.
  - upd K. wstep. split; [eauto | assumption].
  - rewrite Em. upd K. wstep. split; [eauto | assumption].
Qed.
Lemma stop_cct l : require_peer_auth g = true -> offers_cct exts l -> ~ common (peer_certificate_types g) l -> stop2 43 (server_neg_cct exts).
Proof.
  intros Ra O N c K. unfold server_neg_cct. wstep. pose proof K as (Eg & _). rewrite Eg, Ra. cbn [negb].
  destruct O as [(E & ->) | E]; rewrite E; wstep; rewrite (first_common_none _ _ N); reflexivity.
Qed.
Lemma stop_sct l : offers_sct exts l -> ~ common (certificate_types g) l -> stop2 43 (server_neg_sct exts).
Proof.
  intros O N c K. unfold server_neg_sct. wstep. pose proof K as (Eg & _). rewrite Eg.
  destruct O as [(E & ->) | E]; rewrite E; wstep; rewrite (first_common_none _ _ N); reflexivity.
Qed.
Lemma stop_alpn l : ext_get ALPN exts = Some (EAlpn l) -> g_alpn g <> [] -> (forall p, In p l -> ~ In p (g_alpn g)) -> stop2 120 (server_neg_alpn exts).
Proof.
  intros E Na N c K. unfold server_neg_alpn. wstep. rewrite E. pose proof K as (Eg & _). rewrite Eg.
  destruct (g_alpn g) as [|p q] eqn:Ea; [destruct (Na eq_refl)|]. cbn [is_nil]. rewrite <- Ea in *. destruct (find _ _) as [s|] eqn:F; [|reflexivity].
  apply find_some in F as [I1 I2]. apply memB_iff in I2. destruct (N _ I2 I1).
Qed.
End neg2.

Lemma negociate_refuses C g priv exts a : refuses C g priv exts a -> stop g priv a (server_negociate C exts).
Proof.
  intro R. unfold server_negociate.
  assert (V : version_ok exts -> forall B (f : unit -> M B), stop g priv a (f tt) -> stop g priv a (bind (server_neg_versions exts) f)).
  { intros V B f K. eapply pass_bind; [apply (pass_version g priv); exact V|]. intros [] _. exact K. }
  destruct R as [E | l E N | V0 E | l V0 E N | V0 G0 E | l cert rest V0 G0 E Ec Ns N | group peer pub V0 G0 A0 Sf E1 E2
    | l V0 G0 A0 S0 Ra O N | l V0 G0 A0 S0 C0 O N | l V0 G0 A0 S0 C0 T0 M0 E Na N].
  - apply stop_bind. intros c K. unfold server_neg_versions. rewrite E. reflexivity.
  - apply stop_bind. intros c K. unfold server_neg_versions. rewrite E. change TLS_1_3 with 0x0304. destruct (memN 0x0304 l) eqn:M; [apply memN_iff in M; contradiction | reflexivity].
  - apply (V V0). apply stop_bind. intros c K. unfold server_neg_groups. wstep. rewrite E. reflexivity.
  - apply (V V0). apply stop_bind. intros c K. unfold server_neg_groups. wstep. rewrite E. pose proof K as (-> & _).
    rewrite (first_common_none _ _ N). reflexivity.
  - apply (V V0). eapply pass_bind; [apply (pass_groups g priv exts G0)|]. intros group Hgr.
    apply stop_bind. intros c K. unfold server_neg_sigalgs. wstep. rewrite E. reflexivity.
  - apply (V V0). eapply pass_bind; [apply (pass_groups g priv exts G0)|]. intros group Hgr.
    apply stop_bind. intros c K. unfold server_neg_sigalgs. wstep. rewrite E. pose proof K as (-> & _). rewrite Ec, (schemes_ok _ Ns).
    wstep; [|discriminate]. match goal with E : Ok _ = Ok _ |- _ => injection E; intros <- end.
    destruct (find _ _) as [s|] eqn:F; [|reflexivity]. apply find_some in F as [I1 I2]. apply andb_prop in I2 as [I2 I3].
    apply memN_iff in I2, I3. destruct N. exists s. auto.
  - apply (V V0). eapply pass_bind; [apply (pass_groups g priv exts G0)|]. intros group' (gs' & Eg' & Pf').
    eapply pass_bind; [apply (pass_algs C g priv exts A0)|]. intros _ _. apply stop_bind. intros c (K1 & K2 & K3).
    destruct Sf as (gs & Eg & Pf & l & Ek & Ng & Hq). rewrite Eg in Eg'. injection Eg'; intros <-. rewrite (prefers_unique _ _ _ _ _ Pf' Pf).
    unfold server_neg_key_share. rewrite Ek, (assocN_some _ _ _ _ Hq). apply memN_iff in Ng. rewrite Ng. cbn [negb].
    wstep. rewrite K3, E1. cbn [on_value_error]. wstep; [|discriminate]. rewrite E2. cbn. wstep; [discriminate|].
    match goal with E : Err _ = Err _ |- _ => injection E; intros <- end. reflexivity.
  - apply (V V0). eapply pass_bind; [apply (pass_groups g priv exts G0)|]. intros group Hgr.
    eapply pass_bind; [apply (pass_algs C g priv exts A0)|]. intros _ _ c K. eapply wpb_mono; [apply (pass_share C g priv exts group S0 Hgr c K)|].
    intros r c1 ((e & x & s & ->) & K1). cbv beta iota zeta. revert c1 K1.
    apply (stop2_bind g). exact (stop_cct g exts l Ra O N).
  - apply (V V0). eapply pass_bind; [apply (pass_groups g priv exts G0)|]. intros group Hgr.
    eapply pass_bind; [apply (pass_algs C g priv exts A0)|]. intros _ _ c K. eapply wpb_mono; [apply (pass_share C g priv exts group S0 Hgr c K)|].
    intros r c1 ((e & x & s & ->) & K1). cbv beta iota zeta. revert c1 K1. apply (pass2_bind g); [apply pass_cct; exact C0|]. intros ?.
    apply (stop2_bind g). exact (stop_sct g exts l O N).
  - apply (V V0). eapply pass_bind; [apply (pass_groups g priv exts G0)|]. intros group Hgr.
    eapply pass_bind; [apply (pass_algs C g priv exts A0)|]. intros _ _ c K. eapply wpb_mono; [apply (pass_share C g priv exts group S0 Hgr c K)|].
    intros r c1 ((e & x & s & ->) & K1). cbv beta iota zeta. revert c1 K1. apply (pass2_bind g); [apply pass_cct; exact C0|]. intros ?.
    apply (pass2_bind g); [apply pass_sct; exact T0|]. intros ?. apply (pass2_bind g); [apply pass_mfl; exact M0|]. intros ?.
    apply (stop2_bind g). exact (stop_alpn g exts l E Na N).
Qed.

Section hello.
Variables (C : crypto) (g : config) (c : conn).
Hypothesis As : aead_sized C.
Hypothesis Hs : hmac_sized C.
Hypothesis Hh : hash_sized C.
Hypothesis Hg : g_side g = Server.
Hypothesis R : started C g c.
Notation turned_down := (turned_down C c).
Lemma hello_body d random sid suites exts a l : c_tr c = mkTr l 1 -> g_side (c_config c) = Server ->
  says C None d (HClientHello random sid suites exts) ->
  wp (process C (KHandshake (HClientHello random sid suites exts)))
     (cset_hs (c_hs c ++ [(Client, CLIENT_HELLO, d)]) (cset_tr (mkTr (feed d l) 2) c))
     (fun r c' => r = Err (XAlert a) /\ can_send (c_state c') = true /\ enc_on c' = false) -> turned_down d a.
Proof.
  intros Et Gs Sy W. unfold turned_down.
  assert (W' : wp (handle_content C CT_HANDSHAKE d) c (fun r c' => r = Err (XAlert a) /\ can_send (c_state c') = true /\ enc_on c' = false)).
  { unfold handle_content. wstep. rewrite (parse_content_pct C (Some None) (peer_cert_type c) d _ Sy eq_refl).
    wstep; [|discriminate]. match goal with E : Ok _ = Ok _ |- _ => injection E; intros <- end. cbn [msg_type].
    rewrite Gs. cbn [other_side]. wstep; rewrite Et, tr_client_hello in *; [|discriminate].
    match goal with E : (_, _) = (Ok tt, _) |- _ => injection E; intros <- end. exact W. }
  unfold wp in W'. destruct (handle_content C CT_HANDSHAKE d c) as [r c']. cbn [fst snd] in W'. destruct W' as (-> & A & B). eauto.
Qed.
Lemma negR_plain c1 c2 : negR c1 c2 -> enc_on c2 = enc_on c1 /\ c_state c2 = c_state c1.
Proof. intros [E _]. rewrite E. split; reflexivity. Qed.
Lemma rest_refused c1 f a exts : refuses C (c_config c1) (c_rng c1 (c_rngi c1)) exts a -> c_nc c1 <> None ->
  can_send (c_state c1) = true -> enc_on c1 = false ->
  wp (bind (server_negociate C exts) f) c1 (fun (r : res unit) c' => r = Err (XAlert a) /\ can_send (c_state c') = true /\ enc_on c' = false).
Proof.
  intros Rf Nn Cs Pl. apply (wpb_rel _ _ _ negR); [apply negR_negociate|]. intros r c2 N E. apply negR_plain in N as [N1 N2].
  pose proof (negociate_refuses _ _ _ _ _ Rf c1 (conj eq_refl (conj Nn eq_refl))) as W. unfold wp in W. rewrite E in W. cbn in W. subst r.
  rewrite N1, N2. auto.
Qed.

Lemma first_waiting : c_state c = ServerWaitClientHello true -> c_hs c = [] ->
  c_config c = g /\ c_cipher c = None /\ exists hl, c_tr c = mkTr (map (fun h => (h, [])) hl) 1 /\
    forall s, In s (g_suites g) -> exists h, suite_hash s = Some h /\ In h hl.
Proof.
  intros S E0. destruct (server_live' C g c As Hs Hh Hg R) as (ocsp & rng & unique & hl & _ & _ & _ & L & Al). unfold live in L. rewrite S in L.
  destruct L as [(_ & _ & _ & n & _ & Z) | (_ & _ & Wt)].
  - rewrite E0 in Z. destruct n; discriminate Z.
  - destruct Wt as (_ & Et & _ & Ex & Eg). eauto 8.
Qed.
Lemma setup_ok random suites c1 hl d0 : c_config c1 = g -> c_cipher c1 = None -> c_tr c1 = mkTr (map (fun h => (h, d0)) hl) 2 ->
  (forall s, In s (g_suites g) -> exists h, suite_hash s = Some h /\ In h hl) -> common (g_suites g) suites ->
  wp (server_setup random suites) c1 (fun r c' => r = Ok tt /\ c_config c' = g /\ c_nc c' <> None /\ c_rng c' = c_rng c1 /\
    c_rngi c' = c_rngi c1 /\ c_state c' = c_state c1 /\ enc_on c' = false).
Proof.
  intros Eg Ex Et Al Cm. unfold server_setup. wstep. wstep. change (c_config (cset_nc _ c1)) with (c_config c1). rewrite Eg.
  destruct (first_common_some _ _ Cm) as [s F]. rewrite F. apply find_some in F as [Is _]. destruct (Al s Is) as (h & E1 & E2).
  wstep; [discriminate|]. wstep. rewrite E1. wstep. wstep. wstep; cbn [c_tr cset_cipher cset_cunique cset_nc] in *; unfold tr_post_init in *; rewrite Et in *; cbn [t_hashes t_i] in *.
  - wstep. repeat (split; [reflexivity || discriminate || exact Eg|]). reflexivity.
  - exfalso. destruct (find _ _) eqn:Ef; [discriminate|]. pose proof (find_none _ _ Ef (h, d0)) as Z. cbn in Z.
    rewrite (in_map (fun h => (h, d0)) hl h E2 : _) in Z || idtac. assert (K : hashalg_eqb h h = true) by (destruct h; reflexivity).
    rewrite Z in K; [discriminate|]. apply (in_map (fun h => (h, d0)) hl h E2).
Qed.
Lemma first_no_suite d random sid suites exts : c_state c = ServerWaitClientHello true -> c_hs c = [] ->
  says C None d (HClientHello random sid suites exts) -> ~ common (g_suites g) suites -> turned_down d 40.
Proof.
  intros S E0 Sy N. destruct (first_waiting S E0) as (Eg & Ex & hl & Et & Al).
  eapply hello_body; [exact Et | rewrite Eg; exact Hg | exact Sy |]. unfold process. wstep.
  change (c_state (cset_hs _ (cset_tr _ c))) with (c_state c). rewrite S. unfold process_wait_ch. cbn [negb]. wstep. unfold server_setup.
  wstep. wstep. wstep. wstep. cbn [c_config cset_nc cset_hs cset_tr]. rewrite Eg, (first_common_none _ _ N). wstep.
  split; [reflexivity|]. cbn. rewrite S. split; [reflexivity|]. unfold enc_on. cbn. rewrite Ex. reflexivity.
Qed.
Lemma first_refused d random sid suites exts a : c_state c = ServerWaitClientHello true -> c_hs c = [] ->
  says C None d (HClientHello random sid suites exts) -> common (g_suites g) suites ->
  refuses C g (c_rng c (c_rngi c)) exts a -> turned_down d a.
Proof.
  intros S E0 Sy Cm Rf. destruct (first_waiting S E0) as (Eg & Ex & hl & Et & Al).
  eapply hello_body; [exact Et | rewrite Eg; exact Hg | exact Sy |]. rewrite feed_map. unfold process. wstep.
  set (c1 := cset_hs _ _). change (c_state c1) with (c_state c). rewrite S. unfold process_wait_ch. cbn [negb]. wstep.
  eapply wpb_mono; [apply (setup_ok random suites c1 hl ([] ++ d)); [exact Eg | exact Ex | reflexivity | exact Al | exact Cm]|].
  intros r c2 (-> & G2 & N2 & R2 & R2' & S2 & P2). apply rest_refused.
  - rewrite G2, R2, R2'. exact Rf.
  - exact N2.
  - rewrite S2. change (c_state c1) with (c_state c). rewrite S. reflexivity.
  - exact P2.
Qed.

(* C21 *)
Lemma picks_unique su gr al ch d r r' s s' gp gp' sg sg' : picks C su gr al ch d r s gp sg -> picks C su gr al ch d r' s' gp' sg' ->
  r' = r /\ s' = s /\ gp' = gp /\ sg' = sg.
Proof.
  intros (sid & suites & exts & versions & groups & algs & cert & rest & A1 & A2 & A3 & A4 & A5 & A6 & A7 & A8 & A9)
         (sid' & suites' & exts' & versions' & groups' & algs' & cert' & rest' & B1 & B2 & B3 & B4 & B5 & B6 & B7 & B8 & B9).
  unfold says in *. rewrite A1 in B1. injection B1; intros <- <- <- <-. rewrite A5 in B5. injection B5; intros <-.
  rewrite A7 in B7. injection B7; intros <-. rewrite A8 in B8. injection B8; intros <- <-.
  split; [reflexivity|]. split; [eapply prefers_unique; eassumption|]. split; eapply prefers_unique; eassumption.
Qed.
Lemma second_waiting random suite group sg : retrying C g c random suite group sg ->
  c_config c = restrict g suite group [sg] /\ enc_on c = false /\ c_cunique c = Some random /\ c_nc c <> None /\ exists l, c_tr c = mkTr l 1.
Proof.
  intros (S & d0 & dr & E0 & Ir & Pk). destruct (server_live C g c As Hs Hh Hg R) as (ocsp & rng & unique & hl & _ & _ & _ & L).
  unfold live in L. rewrite S in L. destruct L as [(_ & _ & _ & n & _ & Z) | Wt].
  - rewrite E0 in Z. cbn [map token_of m_side m_type fst snd] in Z. change (SERVER_HELLO =? 2) with true in Z. cbv iota in Z. rewrite Ir in Z.
    destruct n as [|[|n]]; discriminate Z.
  - pose proof (waiting_plain _ _ _ _ _ _ _ _ Wt) as Pl. destruct Wt as (_ & _ & d0' & dr' & random' & suite' & h & group' & sg' & n & Sh & E0' & _ & Pk' & Eu & En & _ & _ & Eg & Et).
    rewrite E0 in E0'. injection E0'; intros <- <-. destruct (picks_unique _ _ _ _ _ _ _ _ _ _ _ _ _ Pk Pk') as (-> & -> & -> & ->).
    rewrite En. split; [exact Eg|]. split; [exact Pl|]. split; [exact Eu|]. split; [discriminate | eauto].
Qed.
Lemma second_start d random sid suites exts a random0 suite group sg : retrying C g c random0 suite group sg ->
  says C None d (HClientHello random sid suites exts) ->
  (forall c1, c_config c1 = restrict g suite group [sg] -> enc_on c1 = false -> c_cunique c1 = Some random0 -> c_nc c1 <> None ->
     c_state c1 = ServerWaitClientHello false -> c_rng c1 = c_rng c -> c_rngi c1 = c_rngi c ->
     wp (process_wait_ch C false (KHandshake (HClientHello random sid suites exts))) c1
       (fun r c' => r = Err (XAlert a) /\ can_send (c_state c') = true /\ enc_on c' = false)) -> turned_down d a.
Proof.
  intros Rt Sy K. destruct (second_waiting _ _ _ _ Rt) as (Eg & Pl & Eu & En & l & Et). destruct Rt as (S & _).
  eapply hello_body; [exact Et | rewrite Eg; exact Hg | exact Sy |]. unfold process. wstep.
  change (c_state (cset_hs _ (cset_tr _ c))) with (c_state c). rewrite S. apply K; try assumption; reflexivity.
Qed.
Lemma second_no_suite d random sid suites exts random0 suite group sg : retrying C g c random0 suite group sg ->
  says C None d (HClientHello random sid suites exts) -> ~ In suite suites -> turned_down d 40.
Proof.
  intros Rt Sy N. eapply second_start; [exact Rt | exact Sy |]. intros c1 Eg Pl Eu En S _ _. unfold process_wait_ch. wstep. cbn [negb].
  rewrite Eg. cbn [g_suites restrict]. rewrite first_common_none by (intros (x & [<-|[]] & Ix); contradiction).
  wrun. rewrite S. auto.
Qed.
Lemma second_other_random d random sid suites exts random0 suite group sg : retrying C g c random0 suite group sg ->
  says C None d (HClientHello random sid suites exts) -> In suite suites -> random <> random0 -> turned_down d 47.
Proof.
  intros Rt Sy Is N. eapply second_start; [exact Rt | exact Sy |]. intros c1 Eg Pl Eu En S _ _. unfold process_wait_ch. wstep. cbn [negb].
  rewrite Eg. cbn [g_suites restrict]. destruct (first_common_some [suite] suites) as [x F]; [exists suite; split; [left; reflexivity | exact Is]|].
  rewrite F, Eu. destruct (beqb random random0) eqn:B; [apply beqb_eq in B; contradiction|]. wrun. rewrite S. auto.
Qed.
Lemma second_go random sid suites exts random0 suite group sg a c1 : In suite suites -> random = random0 ->
  c_config c1 = restrict g suite group [sg] -> c_cunique c1 = Some random0 ->
  (forall f : list ext * list ext * option bytes -> M unit, f = (fun '(clear, enc, shared) => 
      match shared with
      | None => server_send_hrr C false sid clear
      | Some key =>
        server_send_hello C false sid clear enc key ;;
        do c <- get;
        (if require_peer_auth (c_config c)
         then send_content C (KHandshake (HCertReq [] [ESigAlgs (g_sigalgs (c_config c))]))
         else ret tt) ;;
        server_send_certificate C ;;
        do h <- digest C;
        do f <- ask_cipher (fun x => sign_finish C h x);
        send_content C (KHandshake (HFinished f)) ;;
        do h <- digest C;
        do c <- get;
        if require_peer_auth (c_config c) then raise XType
        else set_state (ServerWaitFinished h)
      end) -> wp (bind (server_negociate C exts) f) c1 (fun r c' => r = Err (XAlert a) /\ can_send (c_state c') = true /\ enc_on c' = false)) ->
  wp (process_wait_ch C false (KHandshake (HClientHello random sid suites exts))) c1
       (fun r c' => r = Err (XAlert a) /\ can_send (c_state c') = true /\ enc_on c' = false).
Proof.
  intros Is -> Eg Eu K. unfold process_wait_ch. wstep. cbn [negb]. rewrite Eg. cbn [g_suites restrict].
  destruct (first_common_some [suite] suites) as [x F]; [exists suite; split; [left; reflexivity | exact Is]|]. rewrite F, Eu.
  assert (B : beqb random0 random0 = true) by (apply beqb_eq; reflexivity). rewrite B. wstep. apply K. reflexivity.
Qed.
Lemma second_refused d sid suites exts a random0 suite group sg : retrying C g c random0 suite group sg ->
  says C None d (HClientHello random0 sid suites exts) -> In suite suites ->
  refuses C (restrict g suite group [sg]) (c_rng c (c_rngi c)) exts a -> turned_down d a.
Proof.
  intros Rt Sy Is Rf. eapply second_start; [exact Rt | exact Sy |]. intros c1 Eg Pl Eu En S Er Ei.
  eapply second_go; [exact Is | reflexivity | exact Eg | exact Eu |]. intros f _. apply rest_refused.
  - rewrite Eg, Er, Ei. exact Rf.
  - exact En.
  - rewrite S. reflexivity.
  - exact Pl.
Qed.
Lemma second_no_share d sid suites exts random0 suite group sg : retrying C g c random0 suite group sg ->
  says C None d (HClientHello random0 sid suites exts) -> In suite suites ->
  version_ok exts -> groups_ok (restrict g suite group [sg]) exts -> algs_ok C (restrict g suite group [sg]) exts ->
  share_for (restrict g suite group [sg]) exts group None -> turned_down d 47.
Proof.
  intros Rt Sy Is V0 G0 A0 Sf. eapply second_start; [exact Rt | exact Sy |]. intros c1 Eg Pl Eu En S Er Ei.
  eapply second_go; [exact Is | reflexivity | exact Eg | exact Eu |]. intros f ->.
  apply (wpb_rel _ _ _ negR); [apply negR_negociate|]. intros r c2 N E. apply negR_plain in N as [N1 N2].
  assert (W : wp (server_negociate C exts) c1 (fun r _ => exists clear enc, r = Ok (clear, enc, None))).
  { clear E. unfold server_negociate. set (g' := restrict g suite group [sg]) in *.
    eapply wpb_mono; [apply (pass_version g' (c_rng c1 (c_rngi c1)) exts V0 c1); repeat split; assumption|]. intros r1 c3 (x1 & -> & _ & K3).
    eapply wpb_mono; [apply (pass_groups g' (c_rng c1 (c_rngi c1)) exts G0 c3 K3)|]. intros r2 c4 (x2 & -> & (gs & Egs & Pf) & K4).
    eapply wpb_mono; [apply (pass_algs C g' (c_rng c1 (c_rngi c1)) exts A0 c4 K4)|]. intros r5 c5 (x5 & -> & _ & K5).
    destruct Sf as (gs' & Egs' & Pf' & Sh). rewrite Egs in Egs'. injection Egs'; intros <-. rewrite (prefers_unique _ _ _ _ _ Pf Pf').
    unfold server_neg_key_share. destruct Sh as [Ek | (l & Ek & Nl)]; rewrite Ek; [|rewrite (assocN_none _ _ _ Nl)]; wrun; eauto. }
  unfold wp in W. rewrite E in W. cbn in W. destruct W as (clear & enc & ->). unfold server_send_hrr. cbn [negb]. wrun. rewrite N1, N2, S. auto.
Qed.
End hello.
