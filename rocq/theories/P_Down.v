(* Two ends that saw the same messages negotiated the best terms. *)
From Verif Require Import Base P_Base Iana Crypto Config Serial Ext Msg Hkdf Cipher Kex Sig Ocsp Transcript Conn
  S_Hist S_Conn S_State S_Send S_Utils S_Keys S_Codec S_Auth S_Server S_Agree S_Terms S_Down
  P_Monad P_Hist P_Codec P_Neg P_Agree.
From Verif Require P_Client P_Server P_Order.

Section down.
Variable C : crypto.
Hypothesis As : aead_sized C.
Hypothesis Hs : hmac_sized C.
Hypothesis Hh : hash_sized C.

(* the ClientHello that is not preceded by a retry offers everything *)
Definition full_hello (g : config) (d : bytes) : Prop :=
  exists random sid share host cookie, says C None d (HClientHello random sid (g_suites g) (client_extensions C g host cookie share)) /\
    exts_ok C NClientHello (client_extensions C g host cookie share).
Lemma offers_full g host d group secret :
  Forall (Forall (fun c => 32 <= bN c <= 126)) (g_alpn g) -> host_fine C host ->
  P_Client.offers C g host [(Client, CLIENT_HELLO, d)] group secret -> full_hello g d.
Proof.
  intros Ha Hf (ms0 & d' & gc & E & _ & F & unique & cookie & pub & ch & Ki & Mk & Ser).
  change [(Client, CLIENT_HELLO, d)] with ([] ++ [(Client, CLIENT_HELLO, d)]) in E. apply app_inj_tail in E as [<- E].
  assert (d' = d) as -> by congruence. rewrite (F eq_refl) in *. clear F gc.
  pose proof (client_hello_ok C (Some None) g host cookie (group, pub) unique ch Ha Hf Mk) as Ok1.
  pose proof (content_roundtrip C (Some None) (KHandshake ch) d Ok1 Ser) as P.
  pose proof (client_extensions_ok C g host cookie (group, pub) Ha Hf) as K.
  destruct (P_Client.mk_client_hello_ok _ _ _ _ Mk) as (sid & e & Ech).
  assert (Ee : e = client_extensions C g host cookie (group, pub)).
  { unfold mk_client_hello in Mk. rewrite (ext_dict_nodup _ (proj1 K)) in Mk. cbv zeta in Mk.
    repeat match type of Mk with (if ?b then _ else _) = _ => destruct b; [discriminate|] end. congruence. }
  exists unique, sid, (group, pub), host, cookie. split; [|exact K]. subst e. unfold says. rewrite <- Ech. exact P.
Qed.

(* what the extensions of the hello are *)
Record offer_of (g : config) (exts : list ext) : Prop := {
  of_groups : ext_get SUPPORTED_GROUPS exts = Some (ESupportedGroups (g_groups g));
  of_algs : ext_get SIGNATURE_ALGORITHMS exts = Some (ESigAlgs (g_sigalgs g));
  of_hb : ext_get HEARTBEAT exts = Some (EHeartbeat (if g_echo g then 1 else 2));
  of_alpn : ext_get ALPN exts = if is_nil (g_alpn g) then None else Some (EAlpn (g_alpn g));
  of_sct : ext_get SERVER_CERTIFICATE_TYPE exts =
    if is_nil (g_trusted_keys g) then None else Some (EServerCertTypeReq (peer_certificate_types g));
  of_mfl : ext_get MAX_FRAGMENT_LENGTH exts = None;
  of_status : opt_bool (ext_get STATUS_REQUEST exts) = opt_bool (g_trust g) }.
Lemma extensions_offer g host cookie share : offer_of g (client_extensions C g host cookie share).
Proof.
  constructor; unfold client_extensions; (destruct host as [[|z zz]|]; [|destruct (cr_is_ip C (z :: zz))|]);
  destruct (is_nil (g_alpn g)), (opt_bool (g_public g)), (is_nil (g_trusted_keys g)), (opt_bool (g_trust g)), cookie as [[|? ?]|]; reflexivity.
Qed.

(* the EncryptedExtensions of a server that answers such a hello *)
Record reply_of (gc gs : config) (nc : nconfig) (exts : list ext) : Prop := {
  ry_type : exists t, n_sct nc = Some t /\ prefers (fun y => In y (types_for gc)) (certificate_types gs) t /\
    ext_get SERVER_CERTIFICATE_TYPE exts = if is_nil (g_trusted_keys gc) then None else Some (EServerCertTypeResp t);
  ry_alpn : exists v, n_alpn nc = Some v /\ protocol (g_alpn gc) (g_alpn gs) v /\
    ext_get ALPN exts = match v with Some p => Some (EAlpn [p]) | None => None end;
  ry_mfl : ext_get MAX_FRAGMENT_LENGTH exts = None /\ n_mfl nc = Some (g_mfl gs);
  ry_hb : ext_get HEARTBEAT exts = Some (EHeartbeat (if g_echo gs then 1 else 2)) /\
    n_send_hb nc = Some (g_echo gc) /\ n_echo_hb nc = Some (g_echo gs);
  ry_ocsp : n_want_ocsp nc = Some (opt_bool (g_trust gc)) }.
Lemma settles_reply gc gs d nc enc ee : full_hello gc d -> settles C gs d nc enc -> require_peer_auth gs = false ->
  Forall (Forall (fun c => 32 <= bN c <= 126)) (g_alpn gc) ->
  ser_content C (KHandshake (HEncExt (ext_dict enc))) = Ok ee ->
  exists exts, says C None ee (HEncExt exts) /\ reply_of gc gs nc exts.
Proof.
  intros (random & sid & share & host & cookie & Sy & Ok1) (r' & sid' & suites & exts & e1 & e2 & e3 & e4 & e5 & Sy' & -> & P1 & P2 & P3 & P4 & P5 & P6) Ra Ha Ser.
  unfold says in Sy, Sy'. rewrite Sy in Sy'. assert (exts = client_extensions C gc host cookie share) as -> by congruence. clear Sy Sy'.
  pose proof (extensions_offer gc host cookie share) as O. set (ch := client_extensions C gc host cookie share) in *.
  unfold cct_pick in P1. rewrite Ra in P1. subst e1.
  unfold mfl_pick in P3. rewrite (of_mfl _ _ O) in P3. destruct P3 as [Nm ->].
  unfold hb_pick in P5. rewrite (of_hb _ _ O) in P5. destruct P5 as (m & Em & Ns & Ne & ->). injection Em; intros <-. clear Em.
  rewrite (of_status _ _ O) in P6.
  destruct P2 as (t & theirs & Nt & Pt & P2). rewrite (of_sct _ _ O) in P2.
  assert (T : theirs = types_for gc /\ e2 = if is_nil (g_trusted_keys gc) then [] else [EServerCertTypeResp t]).
  { unfold types_for. destruct (is_nil (g_trusted_keys gc)); [exact P2|]. destruct P2 as [E ->]. split; [congruence | reflexivity]. }
  destruct T as [-> ->]. clear P2.
  assert (V : exists v, n_alpn nc = Some v /\ protocol (g_alpn gc) (g_alpn gs) v /\ e4 = match v with Some p => [EAlpn [p]] | None => [] end /\
     match v with Some p => Forall (fun c => 32 <= bN c <= 126) p | None => True end).
  { unfold alpn_pick in P4. rewrite (of_alpn _ _ O) in P4. destruct (is_nil (g_alpn gc)) eqn:Ei.
    - destruct P4 as [-> ->]. exists None. split; [reflexivity|]. split; [|split; [reflexivity | exact I]]. left. destruct (g_alpn gc); [reflexivity | discriminate].
    - destruct P4 as (l & El & P4). assert (l = g_alpn gc) as -> by congruence. destruct P4 as [(Eg & -> & ->)|(p & Pp & -> & ->)].
      + exists None. split; [reflexivity|]. split; [right; exact Eg | split; [reflexivity | exact I]].
      + exists (Some p). split; [reflexivity|]. split; [exact Pp|]. split; [reflexivity|].
        destruct Pp as (a & b & _ & Ip & _). rewrite Forall_forall in Ha. exact (Ha _ Ip). }
  destruct V as (v & Nv & Pv & -> & Pr).
  set (enc := [] ++ _) in Ser.
  assert (Nd : NoDup (map ext_type enc)).
  { unfold enc. destruct (is_nil (g_trusted_keys gc)), v; cbn; repeat constructor; cbn; intuition discriminate. }
  rewrite (ext_dict_nodup _ Nd) in Ser.
  assert (Ek : exts_ok C NEncryptedExt enc).
  { split; [exact Nd|]. unfold enc. destruct (is_nil (g_trusted_keys gc)), v; cbn [app];
    repeat (apply Forall_cons || apply Forall_nil); (split; [|cbn; tauto]); cbn [sound]; auto; destruct (g_echo gs); cbn; auto. }
  exists enc. split; [exact (content_roundtrip C (Some None) (KHandshake (HEncExt enc)) ee Ek Ser)|].
  constructor.
  - exists t. split; [exact Nt|]. split; [exact Pt|]. unfold enc. destruct (is_nil (g_trusted_keys gc)), v; reflexivity.
  - exists v. split; [exact Nv|]. split; [exact Pv|]. unfold enc. destruct (is_nil (g_trusted_keys gc)), v; reflexivity.
  - split; [unfold enc; destruct (is_nil (g_trusted_keys gc)), v; reflexivity | exact Nm].
  - split; [unfold enc; destruct (is_nil (g_trusted_keys gc)), v; reflexivity|]. split; [|exact Ne]. rewrite Ns. destruct (g_echo gc); reflexivity.
  - exact P6.
Qed.

Lemma best gc gs c s : g_side gc = Client -> reachable C gc c -> c_state c = Connected -> few c ->
  g_side gs = Server -> started C gs s -> c_state s = Connected -> few s ->
  Forall (Forall (fun b => 32 <= bN b <= 126)) (g_alpn gc) -> host_fine C (c_host c) ->
  same_start (c_hs c) (c_hs s) -> forallb (fun m => negb (is_retry m)) (c_hs c) = true ->
  best_terms C gc gs c s.
Proof.
  intros Gc Rc Sc Fc Gs Rs Ss Fs Ha Hf (ms & sd0 & r & r' & E & E') N.
  pose proof (P_Client.client_live C gc c As Hs Hh Gc Rc) as (host & ocsp & rng & hl & hc & L).
  unfold P_Client.live in L. rewrite Sc in L.
  destruct L as (k & ee & cd & vd & sd & fd & nc & key & alg & x & junk & K & (S1 & S2 & S3 & S4) & Eh & _ & En & (Es1 & Es2) & _ & _ & Cv & Eg & _ & _ & _ & _ & J).
  rewrite (J (P_Order.client_few C gc c As Hs Hh Gc Rc Fc Sc)) in Eh. clear J. rewrite S1 in Hf.
  destruct K as (Wn & K2 & _ & _ & (random & sid & exts & pub & j & Sy & Ek & Kx & Of)).
  pose proof (P_Server.server_live C gs s As Hs Hh Gs Rs) as (ocsp' & rng' & unique & hl' & Lu & Nu & _ & L).
  unfold P_Server.live in L. rewrite Ss in L.
  destruct L as (k' & ee' & cd' & vd' & sd' & fd' & j1 & j2 & x' & K' & _ & Ra & En' & Fl & Eh' & _ & _ & _ & _ & J).
  destruct (J Fs) as (-> & -> & _). clear J.
  destruct K' as (_ & _ & Sh & _ & Hl & _ & St & Ns & Ng & sid' & Ser).
  destruct Fl as (F1 & _ & (pk & sig & _ & _ & F3) & _).
  assert (Sp : (P_Client.x_w0 k ++ [(Server, SERVER_HELLO, P_Client.x_d1 k); EE ee; Cert cd; CV vd]) = ms /\ sd = sd0 /\ [CFin fd] = r).
  { apply (sfin_split); [|apply no_sfin_cfin |].
    - apply no_sfin_app; [eapply no_sfin_word; exact Wn | apply no_sfin_five].
    - transitivity (c_hs c); [|exact E]. rewrite Eh. unfold P_Client.W. rewrite <- !app_assoc. reflexivity. }
  assert (Sp' : (P_Server.y_w0 k' ++ [(Server, SERVER_HELLO, P_Server.y_d1 k'); EE ee'; Cert cd'; CV vd']) = ms /\ sd' = sd0 /\ [CFin fd'] = r').
  { apply (sfin_split); [|apply no_sfin_cfin |].
    - apply no_sfin_app; [eapply no_sfin_hellos; exact Hl | apply no_sfin_five].
    - transitivity (c_hs s); [|exact E']. rewrite Eh'. unfold P_Server.W. rewrite <- !app_assoc. reflexivity. }
  destruct Sp as (<- & _). destruct Sp' as (X & _).
  apply app_tail in X as [Xw X]; [|reflexivity].
  assert (X4 : (P_Server.y_d1 k' = P_Client.x_d1 k /\ ee' = ee) /\ cd' = cd /\ vd' = vd) by (unfold EE, Cert, CV in X; repeat split; congruence).
  destruct X4 as [[Xd ->] [-> ->]]. clear X.
  (* one hello *)
  assert (One : exists d, P_Client.x_w0 k = [(Client, CLIENT_HELLO, d)]).
  { apply (word_plain _ _ Wn). rewrite Eh in N. unfold P_Client.W in N. rewrite <- app_assoc, forallb_app in N. apply andb_prop in N as [N _]. exact N. }
  destruct One as [d Ew]. rewrite Ew in *. rewrite Xw in Hl.
  destruct Hl as [(rnd & Ed & Pk)|(d0 & dr & rnd & Ed & _)]; [|discriminate Ed].
  assert (P_Server.y_dn k' = d) as Edn by congruence. rewrite Edn in *. clear Ed Edn.
  pose proof (offers_full gc host d _ _ Ha Hf Of) as Fh.
  destruct (settles_reply gc gs d _ _ ee Fh St Ra Ha F1) as (ex & Sx & Ry).
  destruct Es1 as (ex' & Sx' & Q1 & Q2 & Q3 & Q4 & Q5). unfold says in Sx, Sx'. rewrite Sx in Sx'. assert (ex' = ex) as -> by congruence. clear Sx Sx'.
  (* the ServerHello *)
  assert (Sy2 : says C None (P_Client.x_d1 k) (HServerHello false unique sid' (P_Server.y_suite k')
     (ext_dict [ESupVersionsResp TLS_1_3; EKeyShareResp (P_Server.y_group k') (P_Server.y_pub k')]))).
  { apply (content_roundtrip C (Some None) (KHandshake _)); [|rewrite <- Xd; exact Ser].
    cbn [content_ok message_ok]. split; [exact Lu|]. split; [split; [discriminate | intro Z; destruct Nu; exact Z]|].
    split; [cbn; repeat constructor; cbn; intuition discriminate|].
    repeat constructor; cbn; tauto. }
  unfold says in Sy, Sy2. rewrite Sy in Sy2. assert (Y : P_Client.x_suite k = P_Server.y_suite k' /\
     exts = ext_dict [ESupVersionsResp TLS_1_3; EKeyShareResp (P_Server.y_group k') (P_Server.y_pub k')]) by (split; congruence).
  destruct Y as [Ysu Yex]. rewrite Ysu in *.
  (* the hello *)
  destruct Fh as (rn & sd1 & share & ho & ck & Sh1 & _). destruct Pk as (sid2 & suites & ex2 & vs & groups & algs & leaf & rest & Sh2 & Ps & _ & _ & Eg2 & Pg & Ea2 & Ec2 & Pa).
  unfold says in Sh1, Sh2. rewrite Sh1 in Sh2. assert (Z : suites = g_suites gc /\ ex2 = client_extensions C gc ho ck share) by (split; congruence).
  destruct Z as [-> ->]. pose proof (extensions_offer gc ho ck share) as O.
  rewrite (of_groups _ _ O) in Eg2. assert (groups = g_groups gc) as -> by congruence.
  rewrite (of_algs _ _ O) in Ea2. assert (algs = g_sigalgs gc) as -> by congruence.
  (* the CertificateVerify *)
  destruct Cv as (ct & sg2 & Sv & _).
  pose proof (content_roundtrip C (Some ct) (KHandshake (HCertVerify (P_Server.y_sg k') sig)) vd I F3) as Sv2.
  unfold says in Sv. cbn [content_type] in Sv2. rewrite Sv in Sv2. assert (alg = P_Server.y_sg k') as -> by congruence.
  assert (Gm : g_mfl gs = 16384).
  { destruct Rs as (c0 & ops & Cr & _). destruct Cr as (Ck & _). unfold check_config in Ck. rewrite Gs in Ck.
    unfold check_server in Ck. destruct (g_mfl gs =? 16384) eqn:Em; [apply N.eqb_eq; exact Em|].
    exfalso. revert Ck. destruct (check_mandatory gs); cbn; discriminate. }
  destruct Ry as [(t & T1 & T2 & T3) (v & V1 & V2 & V3) (M1 & M2) (B1 & B2 & B3) Oc].
  constructor; unfold tells; rewrite ?En, ?En'.
  - exists (P_Server.y_suite k'). auto.
  - exists (P_Server.y_group k'), (P_Client.x_d1 k), (P_Server.y_suite k'), (P_Server.y_pub k'). split; [exact Pg|]. split; [exact Ng|].
    split; [rewrite Eh; unfold P_Client.W; apply in_or_app; left; apply in_or_app; right; left; reflexivity|].
    exists random, sid, exts. split; [exact Sy|]. rewrite Yex. reflexivity.
  - exists (P_Server.y_sg k'), leaf, rest. auto.
  - exists v. split; [exact V2|]. split; [|exact V1]. rewrite V3 in Q2. destruct v as [p|]; [|exact Q2].
    destruct Q2 as (p' & Ep & _ & ->). congruence.
  - rewrite M1 in Q1. rewrite M2, Gm. auto.
  - exists t. split; [exact T2|]. split; [|exact T1]. rewrite T3 in Q4. destruct (is_nil (g_trusted_keys gc)) eqn:Et.
    + rewrite Q4. f_equal. destruct T2 as (a & b & _ & It & _). unfold types_for in It. rewrite Et in It. destruct It as [It|[]]. exact It.
    + destruct Q4 as (t' & Et' & _ & ->). congruence.
  - rewrite B1 in Q5. destruct Q5 as (m & Em & -> & ->). injection Em; intros <-. split; [destruct (g_echo gs); reflexivity|]. auto.
  - exact Oc.
Qed.
End down.
