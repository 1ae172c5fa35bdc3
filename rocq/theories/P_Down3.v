(* Two ends that saw the same messages: the client holds the certificate of the
   server. *)
From Verif Require Import Base P_Base Iana Crypto Config Serial Ext Msg Hkdf Cipher Kex Sig Ocsp Transcript Conn
  S_Hist S_Conn S_State S_Send S_Utils S_Keys S_Codec S_Auth S_Server S_Agree S_Terms S_Down
  P_Monad P_Hist P_Codec P_Neg P_Agree P_Down.
From Verif Require P_Client P_Server P_Order.

Section down.
Variable C : crypto.
Hypothesis As : aead_sized C.
Hypothesis Hs : hmac_sized C.
Hypothesis Hh : hash_sized C.

Lemma presented g n l cd t ctx e rest : loadable C g -> presents g n l -> n_sct n = Some t ->
  ser_content C (KHandshake (HCert [] l)) = Ok cd ->
  says C (Some t) cd (HCert ctx (e :: rest)) -> t = CT_X509 \/ t = CT_RAW_PUBLIC_KEY -> e :: rest = l.
Proof.
  intros [L1 L2] P Et Ser Sy Ht.
  assert (F : Forall (entry_ok C t) l).
  { destruct P as [(E & key & Ek & ->)|(E & chain & Ec & Em & F)]; rewrite Et in E.
    - assert (t = CT_RAW_PUBLIC_KEY) as -> by congruence. constructor; [|constructor]. split; [reflexivity|]. split; [exact (L2 _ Ek)|].
      split; constructor.
    - assert (t = CT_X509) as -> by (destruct Ht as [->| ->]; [reflexivity | destruct (E eq_refl)]).
      specialize (L1 _ Ec). subst chain. rewrite Forall_map in L1. rewrite Forall_forall in *. intros x I. specialize (L1 x I). specialize (F x I).
      destruct F as [Ft Fe]. split; [exact Ft|]. split; [exact L1|]. destruct Fe as [->|(der & ->)]; split.
      + constructor.
      + constructor.
      + cbn. repeat constructor. intros [].
      + repeat (apply Forall_cons || apply Forall_nil). split; cbn; tauto. }
  assert (Ok1 : message_ok C (Some (Some t)) (HCert [] l)).
  { exists t. split; [reflexivity|]. split; [exact Ht | exact F]. }
  pose proof (content_roundtrip C (Some (Some t)) (KHandshake (HCert [] l)) cd Ok1 Ser) as R.
  unfold says in Sy. cbn [content_type] in R. rewrite Sy in R. congruence.
Qed.

Lemma identity gc gs c s : g_side gc = Client -> reachable C gc c -> c_state c = Connected -> few c ->
  g_side gs = Server -> started C gs s -> c_state s = Connected -> few s ->
  Forall (Forall (fun b => 32 <= bN b <= 126)) (g_alpn gc) -> host_fine C (c_host c) -> loadable C gs ->
  same_start (c_hs c) (c_hs s) -> forallb (fun m => negb (is_retry m)) (c_hs c) = true ->
  right_peer C gc gs c.
Proof.
  intros Gc Rc Sc Fc Gs Rs Ss Fs Ha Hf Lo Sm N.
  pose proof (bt_type _ _ _ _ _ (best C As Hs Hh gc gs c s Gc Rc Sc Fc Gs Rs Ss Fs Ha Hf Sm N)) as (t & _ & Tc & Ts).
  destruct Sm as (ms & sd0 & r & r' & E & E').
  pose proof (P_Client.client_live C gc c As Hs Hh Gc Rc) as (host & ocsp & rng & hl & hc & L).
  unfold P_Client.live in L. rewrite Sc in L.
  destruct L as (k & ee & cd & vd & sd & fd & nc & key & alg & x & junk & K & (S1 & S2 & S3 & S4) & Eh & _ & En & _ & (Pk & Ho) & Cy & _ & _ & _ & _ & _ & _ & J).
  rewrite (J (P_Order.client_few C gc c As Hs Hh Gc Rc Fc Sc)) in Eh. clear J.
  destruct K as (Wn & _).
  pose proof (P_Server.server_live C gs s As Hs Hh Gs Rs) as (ocsp' & rng' & unique & hl' & Lu & Nu & _ & L).
  unfold P_Server.live in L. rewrite Ss in L.
  destruct L as (k' & ee' & cd' & vd' & sd' & fd' & j1 & j2 & x' & K' & _ & Ra & En' & Fl & Eh' & _ & _ & _ & _ & J).
  destruct (J Fs) as (-> & -> & _). clear J.
  destruct K' as (_ & _ & Sh & _ & Hl & _).
  destruct Fl as (_ & (l & Pl & F2) & _).
  assert (Sp : (P_Client.x_w0 k ++ [(Server, SERVER_HELLO, P_Client.x_d1 k); EE ee; Cert cd; CV vd]) = ms /\ sd = sd0 /\ [CFin fd] = r).
  { apply (sfin_split); [|apply no_sfin_cfin |].
    - apply no_sfin_app; [eapply no_sfin_word; exact Wn | apply no_sfin_five].
    - transitivity (c_hs c); [|exact E]. rewrite Eh. unfold P_Client.W. rewrite <- !app_assoc. reflexivity. }
  assert (Sp' : (P_Server.y_w0 k' ++ [(Server, SERVER_HELLO, P_Server.y_d1 k'); EE ee'; Cert cd'; CV vd']) = ms /\ sd' = sd0 /\ [CFin fd'] = r').
  { apply (sfin_split); [|apply no_sfin_cfin |].
    - apply no_sfin_app; [eapply no_sfin_hellos; exact Hl | apply no_sfin_five].
    - transitivity (c_hs s); [|exact E']. rewrite Eh'. unfold P_Server.W. rewrite <- !app_assoc. reflexivity. }
  destruct Sp as (<- & _). destruct Sp' as (X & _).
  apply app_tail in X as [Xw X]; [|reflexivity].
  assert (cd' = cd) as -> by (unfold EE, Cert, CV in X; congruence). clear X.
  unfold tells in Tc, Ts. rewrite En in Tc. rewrite En' in Ts.
  destruct Ho as (t' & ctx & e & rest & Et' & Sy & Ho). assert (t' = t) as -> by congruence. clear Et'.
  assert (Ht : t = CT_X509 \/ t = CT_RAW_PUBLIC_KEY) by (destruct Ho as [[-> _]|[-> _]]; auto).
  pose proof (presented gs _ l cd t ctx e rest Lo Pl Ts F2 Sy Ht) as El.
  unfold right_peer, tells. rewrite En, S1.
  assert (Det : forall t2 ctx2 e2 rest2, says C (Some t2) cd (HCert ctx2 (e2 :: rest2)) -> t2 = t -> e2 = e /\ rest2 = rest).
  { intros t2 ctx2 e2 rest2 S' ->. unfold says in Sy, S'. rewrite Sy in S'. split; congruence. }
  destruct Ho as [(-> & Pc & Pn)|(-> & Pn & Rf)]; destruct Pl as [(Q & ky & Ek & Er)|(Q & chain & Ec & Em & _)]; rewrite Ts in Q; try discriminate Q; try (destruct (Q eq_refl)).
  - left. split; [exact Tc|]. rewrite <- El in Em. cbn [map] in Em. exists (en_data e), (map en_data rest). split; [congruence|].
    split; [exact Pc|]. split; [exact Pn|]. intro Rq.
    destruct Cy as [(ctx2 & e2 & rest2 & S2' & _ & V)|(ctx2 & e2 & rest2 & _ & _ & V)]; [|congruence].
    destruct (Det _ _ _ _ S2' eq_refl) as [-> ->]. exact (proj1 (V Rq)).
  - right. split; [exact Tc|]. split; [exact Rf|]. exists ky. split; [exact Ek|]. rewrite Pn, Er in *. injection El; intros _ ->. reflexivity.
Qed.
Lemma right_or_clash gc gs c s sd : g_side gc = Client -> reachable C gc c -> c_state c = Connected -> few c ->
  g_side gs = Server -> started C gs s -> c_state s = Connected -> few s ->
  Forall (Forall (fun b => 32 <= bN b <= 126)) (g_alpn gc) -> host_fine C (c_host c) -> loadable C gs ->
  In (SFin sd) (c_hs c) -> In (SFin sd) (c_hs s) ->
  right_peer C gc gs c \/ finished_clash C c s \/ digest_mixup C gc c s.
Proof.
  intros Gc Rc Sc Fc Gs Rs Ss Fs Ha Hf Lo I1 I2.
  destruct (bound C As Hs Hh gc gs c s sd Gc Rc Sc Fc Gs Rs Ss Fs I1 I2) as [(ms & r & r' & E & E' & N)|X]; [left | right; exact X].
  eapply identity; try eassumption. exists ms, sd, r, r'. auto.
Qed.
End down.
