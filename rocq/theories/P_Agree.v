(* The traffic keys of a connected endpoint, and when two of them agree. *)
From Verif Require Import Base P_Base Iana Crypto Config Serial Ext Msg Hkdf Cipher Kex Sig Ocsp Transcript Conn
  S_Hist S_Conn S_State S_Send S_Nonce S_Alert S_Utils S_Keys S_Codec S_Auth S_Server S_Layout S_Kex S_Agree
  P_Monad P_Frame P_Hist P_Send P_Wp P_State P_Speak P_Alert P_Keys P_Tr P_Count P_Auth P_Codec P_Layout P_Kex P_Tr.
From Verif Require P_Client P_Client2 P_Server P_Server2 P_Order.

Section agree.
Variable C : crypto.
Hypothesis As : aead_sized C.
Hypothesis Hs : hmac_sized C.
Hypothesis Hh : hash_sized C.

Lemma keys_rfc sd suite h shared th th_sf x c : suite_hash suite = Some h -> c_cipher c = Some x ->
  application_keys C suite sd shared th th_sf x -> rfc_keys C sd suite h shared th_sf c.
Proof.
  intros E Ex A. destruct (suite_hash_of _ _ E) as [_ [klen I]]. exists x, klen. split; [exact Ex|].
  split; [eapply P_Server.app_suite; eassumption|]. split; [exact I|].
  destruct (application_keys_rfc C suite sd shared th th_sf x h klen Hs I A) as [U V]. split; assumption.
Qed.
Lemma offers_says g host ms group secret :
  Forall (Forall (fun c => 32 <= bN c <= 126)) (g_alpn g) -> host_fine C host ->
  P_Client.offers C g host ms group secret -> offers_share C ms group secret.
Proof.
  intros Ha Hf (ms0 & d & gc & E & Cf & _ & unique & cookie & pub & ch & Ki & Mk & Ser).
  assert (Ha' : Forall (Forall (fun c => 32 <= bN c <= 126)) (g_alpn gc)).
  { destruct Cf as [->|(s & gr & _ & _ & ->)]; exact Ha. }
  pose proof (client_hello_ok C (Some None) gc host cookie (group, pub) unique ch Ha' Hf Mk) as Ok1.
  pose proof (content_roundtrip C (Some None) (KHandshake ch) d Ok1 Ser) as P.
  pose proof (client_extensions_ok C gc host cookie (group, pub) Ha' Hf) as K.
  destruct (P_Client.mk_client_hello_ok _ _ _ _ Mk) as (sid & e & Ech).
  assert (Ee : e = client_extensions C gc host cookie (group, pub)).
  { unfold mk_client_hello in Mk. rewrite (ext_dict_nodup _ (proj1 K)) in Mk. cbv zeta in Mk.
    repeat match type of Mk with (if ?b then _ else _) = _ => destruct b; [discriminate|] end. congruence. }
  exists ms0, d, unique, sid, (g_suites gc), e, pub. split; [exact E|]. split; [unfold says; rewrite <- Ech; exact P|].
  split; [|exact Ki]. subst e. unfold client_extensions.
  clear. destruct host as [[|z zz]|]; [|destruct (cr_is_ip C (z :: zz))|];
  destruct (is_nil (g_alpn gc)), (opt_bool (g_public gc)), (is_nil (g_trusted_keys gc)), (opt_bool (g_trust gc)), cookie as [[|? ?]|]; reflexivity.
Qed.
Lemma offers_dn ms group secret dn suite gr sg g : offers_share C ms group secret -> hellos C g ms dn suite gr sg ->
  exists random sid suites exts pub, says C None dn (HClientHello random sid suites exts) /\
    ext_get KEY_SHARE exts = Some (EKeyShareReq [(group, pub)]) /\ kx_init C group secret = Ok pub.
Proof.
  intros (ms0 & d & random & sid & suites & exts & pub & E & S1 & S2 & S3) Hl.
  assert (d = dn).
  { destruct Hl as [(r & E' & _) | (d0 & dr & r & E' & _)]; rewrite E' in E.
    - change [(Client, CLIENT_HELLO, dn)] with ([] ++ [(Client, CLIENT_HELLO, dn)]) in E. apply app_inj_tail in E as [_ E]. congruence.
    - change [(Client, CLIENT_HELLO, d0); (Server, SERVER_HELLO, dr); (Client, CLIENT_HELLO, dn)]
        with ([(Client, CLIENT_HELLO, d0); (Server, SERVER_HELLO, dr)] ++ [(Client, CLIENT_HELLO, dn)]) in E.
      apply app_inj_tail in E as [_ E]. congruence. }
  subst d. exists random, sid, suites, exts, pub. auto.
Qed.
Lemma app_tail {A} (a b l m : list A) : length l = length m -> a ++ l = b ++ m -> a = b /\ l = m.
Proof.
  intros L E. assert (La : length a = length b) by (apply (f_equal (@length A)) in E; rewrite !app_length in E; lia).
  clear L. revert b La E. induction a as [|x a IH]; intros [|y b] La E; try discriminate La; [auto|].
  cbn in La, E. injection La; intro L'. injection E; intros E' ->. destruct (IH b L' E') as [-> ->]. auto.
Qed.

(* --- one connected endpoint ----------------------------------------------- *)
Lemma client_keys g c : g_side g = Client -> reachable C g c -> c_state c = Connected ->
  Forall (Forall (fun b => 32 <= bN b <= 126)) (g_alpn g) -> host_fine C (c_host c) ->
  exists hello sh ee cd vd sd fd junk suite h hc group pub shared j,
    c_hs c = hello ++ [(Server, SERVER_HELLO, sh); EE ee; Cert cd; CV vd; SFin sd; CFin fd] ++ junk /\ (few c -> junk = []) /\
    suite_hash suite = Some h /\ offers_share C hello group (c_rng c j) /\ answers_share C sh suite group pub /\
    kx_resume C group (c_rng c j) pub = Ok shared /\
    rfc_keys C Client suite h shared (heard_hash C h hc false (hello ++ [(Server, SERVER_HELLO, sh); EE ee; Cert cd; CV vd; SFin sd])) c.
Proof.
  intros Hg R S Ha Hf. pose proof (P_Client.client_live C g c As Hs Hh Hg R) as (host & ocsp & rng & hl & hc & L).
  unfold P_Client.live in L. rewrite S in L.
  destruct L as (k & ee & cd & vd & sd & fd & nc & key & alg & x & junk & K & (S1 & S2 & S3 & S4) & Eh & _ & _ & _ & _ & _ & _ & _ & _ & _ & Ex & Ak & J).
  destruct K as (_ & K2 & _ & _ & (random & sid & exts & pub & j & Sy & Ek & Kx & Of)).
  exists (P_Client.x_w0 k), (P_Client.x_d1 k), ee, cd, vd, sd, fd, junk, (P_Client.x_suite k), (P_Client.x_h k), hc, (P_Client.x_group k), pub, (P_Client.x_shared k), j.
  rewrite S3. rewrite S1 in Hf.
  split; [rewrite Eh; unfold P_Client.W; rewrite <- app_assoc; reflexivity|].
  split; [intro F; apply J; apply (P_Order.client_few C g c); assumption|].
  split; [exact K2|]. split; [eapply offers_says; eassumption|]. split; [exists random, sid, exts; auto|]. split; [exact Kx|].
  unfold P_Client.H, P_Client.T, P_Client.W in Ak. rewrite <- !app_assoc in Ak. eapply keys_rfc; eassumption.
Qed.
Lemma server_keys g s : g_side g = Server -> started C g s -> c_state s = Connected ->
  exists hello sh ee cd vd sd j1 fd j2 dn suite h group sg pub shared j,
    c_hs s = hello ++ [(Server, SERVER_HELLO, sh); EE ee; Cert cd; CV vd; SFin sd] ++ j1 ++ [CFin fd] ++ j2 /\
    (few s -> j1 = [] /\ j2 = []) /\
    suite_hash suite = Some h /\ hellos C g hello dn suite group sg /\ answers_share C sh suite group pub /\
    kx_init C group (c_rng s j) = Ok pub /\
    (exists random sid suites exts l peer, says C None dn (HClientHello random sid suites exts) /\
       ext_get KEY_SHARE exts = Some (EKeyShareReq l) /\ In (group, peer) l /\ kx_resume C group (c_rng s j) peer = Ok shared) /\
    rfc_keys C Server suite h shared (rfc_transcript C h (hello ++ [(Server, SERVER_HELLO, sh); EE ee; Cert cd; CV vd; SFin sd])) s.
Proof.
  intros Hg R S. pose proof (P_Server.server_live C g s As Hs Hh Hg R) as (ocsp & rng & unique & hl & Lu & Nu & _ & L).
  unfold P_Server.live in L. rewrite S in L.
  destruct L as (k & ee & cd & vd & sd & fd & j1 & j2 & x & K & (S1 & S2 & S3 & S4) & _ & En & Fl & Eh & Fy & Ex & Ak & U & J).
  pose proof K as (_ & _ & Sh & _ & Hl & Sr & _ & _ & _ & sid & Ser).
  pose proof Sr as (random & sid' & suites & exts & l & peer & j & Y1 & Y2 & Y3 & Y4 & Y5).
  exists (P_Server.y_w0 k), (P_Server.y_d1 k), ee, cd, vd, sd, j1, fd, j2, (P_Server.y_dn k), (P_Server.y_suite k), (P_Server.y_h k), (P_Server.y_group k), (P_Server.y_sg k), (P_Server.y_pub k), (P_Server.y_shared k), j.
  rewrite S2.
  split; [rewrite Eh; unfold P_Server.W; rewrite <- app_assoc; reflexivity|].
  split; [intro F; destruct (J F) as (-> & -> & _); auto|]. split; [exact Sh|]. split; [exact Hl|].
  split.
  { exists unique, sid, (ext_dict [ESupVersionsResp TLS_1_3; EKeyShareResp (P_Server.y_group k) (P_Server.y_pub k)]).
    split; [|reflexivity]. apply (content_roundtrip C (Some None) (KHandshake _)); [|exact Ser].
    cbn [content_ok message_ok]. split; [exact Lu|]. split; [split; [discriminate | intro E; destruct Nu; exact E]|].
    split; [cbn; repeat constructor; cbn; intuition discriminate|].
    repeat constructor; cbn; tauto. }
  split; [exact Y4|]. split; [exists random, sid', suites, exts, l, peer; auto|].
  rewrite (P_Server2.t_rfc C g rng unique k _ K) in Ak by reflexivity.
  rewrite (P_Server2.t_rfc C g rng unique k _ K) in Ak by reflexivity.
  unfold P_Server.W in Ak. rewrite <- !app_assoc in Ak. eapply keys_rfc; eassumption.
Qed.

(* --- where the server's Finished stands ----------------------------------- *)
Definition no_sfin (l : list hmsg) : Prop := forall d, ~ In (SFin d) l.
Lemma no_sfin_app a b : no_sfin a -> no_sfin b -> no_sfin (a ++ b).
Proof. intros A B d I. apply in_app_or in I as [I|I]; [exact (A d I) | exact (B d I)]. Qed.
Lemma sfin_split : forall a x b a' y b', no_sfin a -> no_sfin b -> a ++ SFin x :: b = a' ++ SFin y :: b' -> a = a' /\ x = y /\ b = b'.
Proof.
  induction a as [|m a IH]; intros x b a' y b' A B E.
  - destruct a' as [|m' a'].
    + cbn [app] in E. unfold SFin in E. repeat split; congruence.
    + cbn [app] in E. assert (E' : b = a' ++ SFin y :: b') by congruence. destruct (B y). rewrite E'. apply in_or_app. right; left; reflexivity.
  - destruct a' as [|m' a'].
    + cbn [app] in E. destruct (A y). left. congruence.
    + cbn [app] in E. destruct (IH x b a' y b') as (-> & -> & ->); [intros d I; apply (A d); right; exact I | exact B | congruence|].
      repeat split; congruence.
Qed.
Lemma no_sfin_five sh ee cd vd : no_sfin [(Server, SERVER_HELLO, sh); EE ee; Cert cd; CV vd].
Proof. intros d [E|[E|[E|[E|[]]]]]; unfold SFin, EE, Cert, CV in E; assert (T := f_equal m_type E); discriminate T. Qed.
Lemma no_sfin_cfin fd : no_sfin [CFin fd].
Proof. intros d [E|[]]. assert (T := f_equal m_side E). discriminate T. Qed.
Lemma no_sfin_hellos g ms dn suite group sg : hellos C g ms dn suite group sg -> no_sfin ms.
Proof.
  intros [(r & -> & _)|(d0 & dr & r & -> & _)] d I; cbn [In] in I.
  - destruct I as [E|[]]. assert (T := f_equal m_side E). discriminate T.
  - destruct I as [E|[E|[E|[]]]]; [assert (T := f_equal m_side E) | assert (T := f_equal m_type E) | assert (T := f_equal m_side E)]; discriminate T.
Qed.
Lemma no_sfin_word ms n : map token_of ms = hello_word n -> no_sfin ms.
Proof.
  intros E d I. apply (in_map token_of) in I. rewrite E in I. unfold hello_word in I. destruct I as [I|I]; [discriminate I|].
  apply in_concat in I as (l & Il & I). apply repeat_spec in Il. subst l. destruct I as [I|[I|[]]]; discriminate I.
Qed.
Lemma client_log g c : g_side g = Client -> reachable C g c -> c_state c = Connected -> few c ->
  exists hello sh ee cd vd sd fd n, c_hs c = (hello ++ [(Server, SERVER_HELLO, sh); EE ee; Cert cd; CV vd]) ++ SFin sd :: [CFin fd] /\
    map token_of hello = hello_word n.
Proof.
  intros Hg R S F. destruct (P_Client2.client_connected C g c As Hs Hh Hg R S) as (hello & sh & ee & cd & vd & sd & fd & junk & n & suite & h & hc & group & shared & key & alg & W & _ & E & J & _).
  rewrite J in E by (apply (P_Order.client_few C g c); assumption).
  exists hello, sh, ee, cd, vd, sd, fd, n. split; [|exact W]. rewrite E, <- app_assoc. reflexivity.
Qed.

(* --- the key exchange ----------------------------------------------------- *)
Lemma dh_all a b group i j pa pb za zb : dh_commutes C a b -> kx_init C group (a i) = Ok pa -> kx_init C group (b j) = Ok pb ->
  kx_resume C group (a i) pb = Ok za -> kx_resume C group (b j) pa = Ok zb -> za = zb.
Proof.
  intros Dh Ia Ib Ra Rb. clear As Hs Hh.
  destruct (ffdhe_params group) as [f|] eqn:Ef.
  - assert (G : exists v, In (group, v) ffdhe_groups).
    { unfold ffdhe_params in Ef. unfold ffdhe_groups.
      repeat match type of Ef with context [if ?x =? ?y then _ else _] => destruct (N.eqb_spec x y) as [->|_] end; try discriminate Ef; eexists; cbn [In]; tauto. }
    destruct G as [v G]. destruct (ffdhe_agree C group v (a i) (b j) pa pb za G Ia Ib Ra) as (_ & _ & _ & _ & _ & X). symmetry. apply X. exact Rb.
  - unfold kx_init, kx_resume in *. rewrite Ef in *. destruct (negb (memN group named_groups)); [discriminate|].
    assert (pa = cr_kx_pub C group (a i)) as -> by congruence. assert (pb = cr_kx_pub C group (b j)) as -> by congruence.
    exact (Dh group i j za zb Ra Rb).
Qed.

(* --- two of them ---------------------------------------------------------- *)
Lemma same_keys_c gc gs c s : g_side gc = Client -> reachable C gc c -> c_state c = Connected -> few c ->
  g_side gs = Server -> started C gs s -> c_state s = Connected -> few s ->
  Forall (Forall (fun b => 32 <= bN b <= 126)) (g_alpn gc) -> host_fine C (c_host c) -> dh_commutes C (c_rng c) (c_rng s) ->
  same_start (c_hs c) (c_hs s) -> forallb (fun m => negb (is_retry m)) (c_hs c) = true ->
  exists ms sd r suite h shared, c_hs c = ms ++ SFin sd :: r /\
    rfc_keys C Client suite h shared (rfc_transcript C h (ms ++ [SFin sd])) c /\
    rfc_keys C Server suite h shared (rfc_transcript C h (ms ++ [SFin sd])) s.
Proof.
  intros Gc Rc Sc Fc Gs Rs Ss Fs Ha Hf Dh (ms & sd0 & r & r' & E & E') N.
  destruct (client_keys gc c Gc Rc Sc Ha Hf) as (hello & sh & ee & cd & vd & sd & fd & junk & suite & h & hc & group & pub & shared & j & Eh & J & Sh & Of & An & Kx & Rk).
  destruct (server_keys gs s Gs Rs Ss) as (hello' & sh' & ee' & cd' & vd' & sd' & j1 & fd' & j2 & dn & suite' & h' & group' & sg & pub' & shared' & j' & Eh' & J' & Sh' & Hl & An' & Ki' & (random & sid & suites & exts & l & peer & Y1 & Y2 & Y3 & Y4) & Rk').
  rewrite (J Fc) in Eh. destruct (J' Fs) as [-> ->].
  destruct (client_log gc c Gc Rc Sc Fc) as (he & s1 & e1 & c1 & v1 & d1 & f1 & n & El & Wn).
  assert (X : (hello = he /\ sh = s1) /\ (ee = e1 /\ cd = c1) /\ (vd = v1 /\ sd = d1 /\ fd = f1)).
  { rewrite Eh, <- app_assoc in El. cbn [app] in El. apply app_tail in El as [-> El]; [|reflexivity].
    unfold EE, Cert, CV, SFin, CFin in El. repeat split; congruence. }
  destruct X as [[-> ->] [[-> ->] (-> & -> & ->)]].
  assert (Sp : he ++ [(Server, SERVER_HELLO, s1); EE e1; Cert c1; CV v1] = ms /\ d1 = sd0 /\ [CFin f1] = r).
  { apply sfin_split; [|apply no_sfin_cfin | transitivity (c_hs c); [symmetry; exact El | exact E]]. apply no_sfin_app; [eapply no_sfin_word; exact Wn | apply no_sfin_five]. }
  assert (Sp' : hello' ++ [(Server, SERVER_HELLO, sh'); EE ee'; Cert cd'; CV vd'] = ms /\ sd' = sd0 /\ [CFin fd'] = r').
  { apply sfin_split; [|apply no_sfin_cfin | transitivity (c_hs s); [rewrite Eh', <- app_assoc; reflexivity | exact E']]. apply no_sfin_app; [eapply no_sfin_hellos; exact Hl | apply no_sfin_five]. }
  destruct Sp as (<- & -> & _). destruct Sp' as (X & -> & _).
  apply app_tail in X as [-> X]; [|reflexivity].
  assert (X4 : (sh' = s1 /\ ee' = e1) /\ cd' = c1 /\ vd' = v1) by (unfold EE, Cert, CV in X; repeat split; congruence).
  destruct X4 as [[-> ->] [-> ->]]. clear X.
  destruct An as (r1 & i1 & x1 & P1 & Q1). destruct An' as (r2 & i2 & x2 & P2 & Q2).
  unfold says in P1, P2. rewrite P1 in P2. assert (suite' = suite /\ x2 = x1) as [-> ->] by (split; congruence).
  rewrite Q1 in Q2. assert (group' = group /\ pub' = pub) as [-> ->] by (split; congruence).
  rewrite Sh in Sh'. assert (h' = h) as -> by congruence.
  destruct (offers_dn _ _ _ _ _ _ _ _ Of Hl) as (r3 & i3 & s3 & x3 & p3 & P3 & Q3 & K3).
  unfold says in P3, Y1. rewrite P3 in Y1. assert (exts = x3) as -> by congruence.
  rewrite Q3 in Y2. assert (l = [(group, p3)]) as -> by congruence.
  destruct Y3 as [Y3|[]]. assert (peer = p3) as -> by congruence.
  assert (shared' = shared) as -> by (symmetry; eapply (dh_all (c_rng c) (c_rng s)); eassumption).
  exists (he ++ [(Server, SERVER_HELLO, s1); EE e1; Cert c1; CV v1]), sd0, [CFin f1], suite, h, shared.
  split; [exact El|]. rewrite <- app_assoc. cbn [app]. split; [|exact Rk'].
  rewrite P_Client2.thash_plain in Rk; [exact Rk|].
  rewrite Eh in N. rewrite forallb_app in *. apply andb_prop in N as [N1 N2]. rewrite N1. cbn [app forallb] in *.
  apply andb_prop in N2 as [N2 _]. rewrite N2. reflexivity.
Qed.

(* --- the Finished binds the messages -------------------------------------- *)
Definition framed (m : hmsg) : Prop := exists ty b, ty < 256 /\ m_data m = be_bytes 1 ty ++ vec 3 b /\ blen b < 256 ^ 3.
Lemma msg_type_small h ty : msg_type h = Some ty -> ty < 256.
Proof. destruct h; cbn; intro E; try discriminate; assert (X : forall a b : N, Some a = Some b -> a = b) by congruence; apply X in E; subst ty; reflexivity. Qed.
Lemma framed_says ct d h sd t : says C ct d h -> msg_type h <> None -> framed (sd, t, d).
Proof.
  intros S N. destruct (layout_content C (Some ct) d h S) as (ty & b & E & L & _ & M). exists ty, b.
  split; [|split; [exact E | exact L]]. destruct (msg_type h) as [t'|] eqn:Et; [|destruct (N eq_refl)]. subst ty. eapply msg_type_small; exact Et.
Qed.
Lemma framed_ser h d sd t : ser_content C (KHandshake h) = Ok d -> framed (sd, t, d).
Proof.
  cbn [ser_content]. unfold ser_hs. intro H. apply rbind_ok in H as [b [H1 H]]. destruct (msg_type h) as [ty|] eqn:Et; [|discriminate].
  apply rbind_ok in H as [t1 [H2 H]]. apply rbind_ok in H as [d1 [H3 H]]. apply put_var_ok in H3 as [-> Lb].
  apply to_bytes_ok in H2 as [-> _]. assert (X : forall a b : bytes, (Ok a : res bytes) = Ok b -> a = b) by congruence. apply X in H. subst d.
  exists ty, b. split; [eapply msg_type_small; exact Et|]. split; [reflexivity | exact Lb].
Qed.
Lemma app_len_inv {A} (a b l m : list A) : length a = length b -> a ++ l = b ++ m -> a = b /\ l = m.
Proof.
  revert b. induction a as [|x a IH]; intros [|y b] La E; try discriminate La; [auto|].
  cbn in La, E. injection La; intro L'. injection E; intros E' ->. destruct (IH b L' E') as [-> ->]. auto.
Qed.
Lemma framed_cons m m' x y : framed m -> framed m' -> m_data m ++ x = m_data m' ++ y -> m_data m = m_data m' /\ x = y.
Proof.
  intros (ty & b & _ & E & L) (ty' & b' & _ & E' & L') X. rewrite E, E' in *. unfold vec in *. rewrite <- !app_assoc in X.
  apply app_len_inv in X as [X1 X]; [|rewrite !length_be_bytes; reflexivity].
  apply app_len_inv in X as [X2 X]; [|rewrite !length_be_bytes; reflexivity].
  pose proof (f_equal of_bytes X2) as X3. rewrite !of_be_bytes in X3 by assumption.
  apply app_len_inv in X as [-> ->]; [|unfold blen in X3; lia]. rewrite X1. auto.
Qed.
Lemma framed_concat : forall l l', Forall framed l -> Forall framed l' -> length l = length l' ->
  concat (map m_data l) = concat (map m_data l') -> map m_data l = map m_data l'.
Proof.
  induction l as [|m l IH]; intros [|m' l'] F F' L E; try discriminate L; [reflexivity|].
  inversion F as [|? ? F1 F2]. inversion F' as [|? ? F1' F2']. subst. cbn [map concat] in *.
  apply framed_cons in E as [-> E]; [|assumption..]. rewrite (IH l' F2 F2' ltac:(cbn in L; congruence) E). reflexivity.
Qed.
Lemma word_plain ms n : map token_of ms = hello_word n -> forallb (fun m => negb (is_retry m)) ms = true -> exists d, ms = [(Client, 1, d)].
Proof.
  intros W N. destruct n as [|n].
  - destruct ms as [|m [|? ?]]; try discriminate W. unfold hello_word in W. cbn [map repeat concat] in W.
    destruct m as [[[] ty] d]; cbn [token_of m_side m_type fst snd] in W; assert (W' : forall a b : token, [a] = [b] -> a = b) by congruence; apply W' in W.
    + destruct (ty =? 1) eqn:E; [apply N.eqb_eq in E; subst ty; eauto|]. destruct (ty =? 20); discriminate W.
    + exfalso. unfold token_of in W. cbn [m_side m_type fst snd] in W.
      repeat match type of W with context [if ?b then _ else _] => destruct b end; discriminate W.
  - exfalso. assert (I : In THRR (map token_of ms)) by (rewrite W; right; left; reflexivity).
    apply in_map_iff in I as (m & T & I). rewrite forallb_forall in N. specialize (N m I).
    unfold token_of in T. destruct (is_retry m); [discriminate N|].
    destruct m as [[[] ty] d]; cbn [m_side m_type fst snd] in T;
    repeat match type of T with context [if ?b then _ else _] => destruct b end; discriminate T.
Qed.
Lemma finished_mac_parse ct d v h : says C ct d (HFinished v) -> ser_content C (KHandshake (HFinished h)) = Ok d -> v = h.
Proof.
  intros S P. destruct (layout_content _ _ _ _ S) as (ty & b & E & L & Lb & M). cbn in Lb, M. subst b ty.
  cbn [ser_content] in P. unfold ser_hs in P. cbn [ser_hs_body rbind msg_type] in P.
  apply rbind_ok in P as [t1 [H2 H]]. apply rbind_ok in H as [d1 [H3 H]]. apply put_var_ok in H3 as [-> Lb'].
  apply to_bytes_ok in H2 as [-> _]. assert (X : forall a b : bytes, (Ok a : res bytes) = Ok b -> a = b) by congruence. apply X in H.
  rewrite <- H in E. apply app_len_inv in E as [_ E]; [|rewrite !length_be_bytes; reflexivity].
  unfold vec in E. apply app_len_inv in E as [_ E]; [|rewrite !length_be_bytes; reflexivity]. symmetry. exact E.
Qed.
Lemma bytes_dec (a b : bytes) : a = b \/ a <> b.
Proof. destruct (beqb a b) eqn:E; [left; apply beqb_eq; exact E | right; intros ->; assert (X : beqb b b = true) by (apply beqb_eq; reflexivity); congruence]. Qed.
Lemma hash_dec (a b : hashalg) : a = b \/ a <> b.
Proof. destruct a, b; (left; reflexivity) || (right; discriminate). Qed.
Lemma starts_ser h d ty : ser_content C (KHandshake h) = Ok d -> msg_type h = Some ty -> exists z, d = be_bytes 1 ty ++ z.
Proof.
  cbn [ser_content]. unfold ser_hs. intros H Et. apply rbind_ok in H as [b [_ H]]. rewrite Et in H.
  apply rbind_ok in H as [t1 [H2 H]]. apply rbind_ok in H as [d1 [_ H]]. apply to_bytes_ok in H2 as [-> _].
  assert (X : forall a b : bytes, (Ok a : res bytes) = Ok b -> a = b) by congruence. apply X in H. subst d. eauto.
Qed.
Lemma starts_says ct d h ty : says C ct d h -> msg_type h = Some ty -> exists z, d = be_bytes 1 ty ++ z.
Proof.
  intros S Et. destruct (layout_content C (Some ct) d h S) as (ty' & b & E & _ & _ & M). rewrite Et in M. subst ty'. eauto.
Qed.
Lemma word_retry ms n : map token_of ms = hello_word (S n) -> exists w hrr ch, ms = w ++ [hrr; ch] /\ is_retry hrr = true /\ is_retry ch = false.
Proof.
  assert (E : hello_word (S n) = hello_word n ++ [THRR; TCH]).
  { unfold hello_word. cbn [app]. f_equal. replace (S n) with (n + 1)%nat by lia. rewrite repeat_app, concat_app. reflexivity. }
  rewrite E. intro M. apply map_eq_app in M as (w & t & -> & _ & M). destruct t as [|hrr [|ch [|? ?]]]; try discriminate M.
  cbn [map] in M. assert (T1 : token_of hrr = THRR) by congruence. assert (T2 : token_of ch = TCH) by congruence.
  exists w, hrr, ch. split; [reflexivity|]. split.
  - destruct hrr as [[[] ty] d]; unfold token_of in T1; cbn [m_side m_type fst snd] in T1;
    destruct (is_retry _); try reflexivity; repeat match type of T1 with context [if ?b then _ else _] => destruct b end; discriminate T1.
  - destruct ch as [[[] ty] d]; unfold token_of in T2; cbn [m_side m_type fst snd] in T2.
    + destruct (N.eqb_spec ty 1) as [->|_]; [reflexivity|]. destruct (ty =? 20); discriminate T2.
    + repeat match type of T2 with context [if ?b then _ else _] => destruct b end; discriminate T2.
Qed.
Lemma word_zero ms : map token_of ms = hello_word 0 -> forallb (fun m => negb (is_retry m)) ms = true.
Proof.
  intro W. destruct ms as [|m [|? ?]]; try discriminate W. unfold hello_word in W. cbn [map repeat concat] in W.
  assert (T : token_of m = TCH) by congruence. cbn [forallb]. rewrite andb_true_r.
  destruct m as [[[] ty] d]; unfold token_of in T; cbn [m_side m_type fst snd] in T.
  - destruct (N.eqb_spec ty 1) as [->|_]; [reflexivity|]. destruct (ty =? 20); discriminate T.
  - repeat match type of T with context [if ?b then _ else _] => destruct b end; discriminate T.
Qed.
Lemma hear_hash h w : forall hc m, fst (fold_left (heard_step C h false) w (hc, m)) = hc \/ fst (fold_left (heard_step C h false) w (hc, m)) = h.
Proof.
  induction w as [|x w IH]; intros hc m; cbn [fold_left]; [left; reflexivity|].
  unfold heard_step at 2 4. destruct (is_retry x); [|apply IH]. right. destruct (IH h (synthetic h (cr_hash C hc m) ++ [])) as [E|E]; exact E.
Qed.
Lemma heard_again h hc w hrr ch l : is_retry hrr = true -> is_retry ch = false -> forallb (fun m => negb (is_retry m)) l = true ->
  exists h0 m, heard C h hc false ((w ++ [hrr; ch]) ++ l) = synthetic h (cr_hash C h0 m) ++ m_data ch ++ concat (map m_data l) /\ (h0 = hc \/ h0 = h).
Proof.
  intros R1 R2 F. rewrite heard_plains by exact F. unfold heard. rewrite fold_left_app. cbn [fold_left].
  pose proof (hear_hash h w hc []) as Z.
  destruct (fold_left (heard_step C h false) w (hc, [])) as [h0 m] eqn:Eq.
  assert (Z' : fst (h0, m) = hc \/ fst (h0, m) = h) by (rewrite <- Eq; exact Z). cbn [fst] in Z'.
  unfold heard_step. rewrite R1, R2. cbn [snd]. exists h0, m.
  split; [rewrite app_nil_r, <- app_assoc; reflexivity | exact Z'].
Qed.
Lemma bound gc gs c s sd : g_side gc = Client -> reachable C gc c -> c_state c = Connected -> few c ->
  g_side gs = Server -> started C gs s -> c_state s = Connected -> few s ->
  In (SFin sd) (c_hs c) -> In (SFin sd) (c_hs s) ->
  (exists ms r r', c_hs c = ms ++ SFin sd :: r /\ c_hs s = ms ++ SFin sd :: r' /\
     forallb (fun m => negb (is_retry m)) (c_hs c) = true) \/
  finished_clash C c s \/ digest_mixup C gc c s.
Proof.
  intros Gc Rc Sc Fc Gs Rs Ss Fs Ic Is.
  pose proof (P_Client.client_live_hash C gc c As Hs Hh Gc Rc) as (host & ocsp & rng & hl & hc & L & s0 & Is0 & Hs0). unfold P_Client.live in L. rewrite Sc in L.
  destruct L as (k & ee & cd & vd & sd1 & fd & nc & key & alg & x & junk & K & (S1 & S2 & S3 & S4) & Eh & _ & _ & Ee & _ & Ce & Cv & _ & Fy & _ & Ex & Ak & J).
  rewrite J, app_nil_r in Eh by (apply (P_Order.client_few C gc c); assumption).
  destruct K as (Wn & K2 & K3 & (_ & _ & _ & _ & _ & _ & _ & _ & _ & Iu & _) & (random & sid & exts & pub & j & Sy & Ek & Kx & Of)).
  pose proof (P_Server.server_live C gs s As Hs Hh Gs Rs) as (ocsp' & rng' & unique & hl' & Lu & Nu & _ & L). unfold P_Server.live in L. rewrite Ss in L.
  destruct L as (k' & ee' & cd' & vd' & sd2 & fd' & j1 & j2 & x' & K' & (T1 & T2 & T3 & T4) & _ & En & Fl & Eh' & _ & Ex' & Ak' & U & J').
  destruct (J' Fs) as (-> & -> & _). rewrite app_nil_r in Eh'. cbn [app] in Eh'.
  pose proof K' as (_ & _ & Sh' & R3' & Hl & Sr & _ & _ & _ & sid' & Ser).
  pose proof Sr as (random' & sid2 & suites & exts' & l & peer & j' & Y1 & Y2 & Y3 & Y4 & Y5).
  destruct Fl as (F1 & (cl & _ & F2) & (pk & sig & _ & _ & F3) & F4).
  set (tA := [(Server, SERVER_HELLO, P_Client.x_d1 k); EE ee; Cert cd; CV vd]).
  set (A := P_Client.x_w0 k ++ tA).
  set (B := P_Server.y_w0 k' ++ [(Server, SERVER_HELLO, P_Server.y_d1 k'); EE ee'; Cert cd'; CV vd']).
  assert (EA : c_hs c = A ++ SFin sd1 :: [CFin fd]).
  { rewrite Eh. unfold A, tA, P_Client.W. rewrite <- !app_assoc. reflexivity. }
  assert (EB : c_hs s = B ++ SFin sd2 :: [CFin fd']).
  { rewrite Eh'. unfold B, P_Server.W. rewrite <- !app_assoc. reflexivity. }
  assert (NA : no_sfin A) by (apply no_sfin_app; [eapply no_sfin_word; exact Wn | apply no_sfin_five]).
  assert (NB : no_sfin B) by (apply no_sfin_app; [eapply no_sfin_hellos; exact Hl | apply no_sfin_five]).
  apply in_split in Ic as (a1 & a2 & Ea). apply in_split in Is as (b1 & b2 & Eb).
  rewrite EA in Ea. apply sfin_split in Ea as (_ & -> & _); [|exact NA | apply no_sfin_cfin].
  rewrite EB in Eb. apply sfin_split in Eb as (_ & -> & _); [|exact NB | apply no_sfin_cfin].
  assert (NtA : forallb (fun m => negb (is_retry m)) tA = true) by (unfold tA; cbn [forallb]; rewrite K3; reflexivity).
  set (kA := finished_key C (P_Client.x_h k) (hs_traffic C (P_Client.x_h k) Server (P_Client.x_shared k) (heard_hash C (P_Client.x_h k) hc false (P_Client.W k)))).
  set (kB := finished_key C (P_Server.y_h k') (hs_traffic C (P_Server.y_h k') Server (P_Server.y_shared k') (rfc_transcript C (P_Server.y_h k') (P_Server.W k')))).
  assert (InA : finished_input C c (P_Client.x_h k) kA (heard C (P_Client.x_h k) hc false) A).
  { exists (P_Client.x_w0 k), (P_Client.x_d1 k), [EE ee; Cert cd; CV vd], (P_Client.x_suite k), (P_Client.x_group k), pub, j, pub, (P_Client.x_shared k).
    split; [reflexivity|]. split; [exact K3|]. split; [exists random, sid, exts; auto|]. split; [exact K2|]. split; [rewrite S3; exact Kx | reflexivity]. }
  assert (InB : finished_input C s (P_Server.y_h k') kB (rfc_messages C (P_Server.y_h k')) B).
  { exists (P_Server.y_w0 k'), (P_Server.y_d1 k'), [EE ee'; Cert cd'; CV vd'], (P_Server.y_suite k'), (P_Server.y_group k'), (P_Server.y_pub k'), j', peer, (P_Server.y_shared k').
    split; [reflexivity|]. split; [exact R3'|]. split.
    { exists unique, sid', (ext_dict [ESupVersionsResp TLS_1_3; EKeyShareResp (P_Server.y_group k') (P_Server.y_pub k')]).
      split; [|reflexivity]. apply (content_roundtrip C (Some None) (KHandshake _)); [|exact Ser].
      cbn [content_ok message_ok]. split; [exact Lu|]. split; [split; [discriminate | intro E; destruct Nu; exact E]|].
      split; [cbn; repeat constructor; cbn; intuition discriminate|].
      repeat constructor; cbn; tauto. }
    split; [exact Sh'|]. split; [rewrite T2; exact Y5 | reflexivity]. }
  assert (Cl : hmac_clash C (P_Client.x_h k, kA, heard_hash C (P_Client.x_h k) hc false A) (P_Server.y_h k', kB, rfc_transcript C (P_Server.y_h k') B) \/
     hash_clash C (P_Client.x_h k) (heard C (P_Client.x_h k) hc false A) (rfc_messages C (P_Client.x_h k) B) -> finished_clash C c s).
  { intro X. exists A, B, [CFin fd], [CFin fd'], sd, (P_Client.x_h k), (P_Server.y_h k'), hc, kA, kB. auto. }
  (* the Finished of both sides *)
  assert (MA : exists ct, says C ct sd (HFinished (cr_hmac C (P_Client.x_h k) kA (heard_hash C (P_Client.x_h k) hc false A)))).
  { destruct Fy as [ct Fy]. exists ct. unfold kA.
    assert (E1 : P_Client.H C hc k [] = heard_hash C (P_Client.x_h k) hc false (P_Client.W k)).
    { unfold P_Client.H, P_Client.T. rewrite app_nil_r. reflexivity. }
    assert (E2 : P_Client.H C hc k [EE ee; Cert cd; CV vd] = heard_hash C (P_Client.x_h k) hc false A).
    { unfold P_Client.H, P_Client.T, P_Client.W. rewrite <- app_assoc. reflexivity. }
    rewrite <- E1, <- E2. exact Fy. }
  assert (MB : ser_content C (KHandshake (HFinished (cr_hmac C (P_Server.y_h k') kB (rfc_transcript C (P_Server.y_h k') B)))) = Ok sd).
  { unfold kB. rewrite <- F4.
    assert (E1 : P_Server.H C k' [] = rfc_transcript C (P_Server.y_h k') (P_Server.W k')).
    { rewrite (P_Server2.t_rfc C gs rng' unique k' _ K') by reflexivity. rewrite app_nil_r. reflexivity. }
    assert (E2 : P_Server.H C k' [EE ee'; Cert cd'; CV vd'] = rfc_transcript C (P_Server.y_h k') B).
    { rewrite (P_Server2.t_rfc C gs rng' unique k' _ K') by reflexivity. unfold P_Server.W. rewrite <- app_assoc. reflexivity. }
    rewrite E1, E2. reflexivity. }
  destruct MA as [ct MA]. pose proof (finished_mac_parse _ _ _ _ MA MB) as Em.
  destruct (hash_dec (P_Client.x_h k) (P_Server.y_h k')) as [Hq|Hq]; [|right; left; apply Cl; left; split; [intro Z; apply Hq; congruence | exact Em]].
  destruct (bytes_dec kA kB) as [Kq|Kq]; [|right; left; apply Cl; left; split; [intro Z; apply Kq; congruence | exact Em]].
  destruct (bytes_dec (heard_hash C (P_Client.x_h k) hc false A) (rfc_transcript C (P_Server.y_h k') B)) as [Tq|Tq]; [|right; left; apply Cl; left; split; [intro Z; apply Tq; congruence | exact Em]].
  destruct (bytes_dec (heard C (P_Client.x_h k) hc false A) (rfc_messages C (P_Client.x_h k) B)) as [Mq|Mq].
  2:{ right; left; apply Cl; right. split; [exact Mq|]. unfold rfc_transcript, heard_hash in Tq. rewrite <- Hq in Tq. exact Tq. }
  clear Em MA MB Tq Kq Cl.
  (* the hellos *)
  assert (Lc : exists w d0, P_Client.x_w0 k = w ++ [(Client, CLIENT_HELLO, d0)] /\ framed (Client, CLIENT_HELLO, d0) /\ exists z, d0 = x01 :: z).
  { destruct Of as (ms0 & d0 & gg & Eo & _ & _ & un & ck & pp & ch & _ & Mk & Sr0). exists ms0, d0. split; [exact Eo|]. split; [eapply framed_ser; exact Sr0|].
    destruct (P_Client.mk_client_hello_ok _ _ _ _ Mk) as (si & e & ->). destruct (starts_ser _ _ _ Sr0 eq_refl) as [z ->]. exists z. reflexivity. }
  destruct Lc as (w & d0 & Ew & Fd0 & z & Ez).
  assert (Sv0 : (exists r0, P_Server.y_w0 k' = [(Client, CLIENT_HELLO, P_Server.y_dn k')] /\ framed (Client, CLIENT_HELLO, P_Server.y_dn k') /\ P_Server.y_dn k' = x01 :: r0) \/
    exists q0 qr, P_Server.y_w0 k' = [(Client, CLIENT_HELLO, q0); (Server, SERVER_HELLO, qr); (Client, CLIENT_HELLO, P_Server.y_dn k')] /\
      is_retry (Server, SERVER_HELLO, qr) = true /\ exists z', qr = x02 :: z').
  { destruct Hl as [(r0 & Ew' & Pk) | (q0 & qr & r0 & Ew' & (Rq & si & ex & Sq) & _)].
    - left. destruct Pk as (si & su & ex & ve & gr & al & ce & re & Sp & _). destruct (starts_says _ _ _ _ Sp eq_refl) as [z' E].
      exists z'. split; [exact Ew'|]. split; [eapply framed_says; [exact Sp | discriminate] | exact E].
    - right. exists q0, qr. split; [exact Ew'|]. split; [exact Rq|]. destruct (starts_ser _ _ _ Sq eq_refl) as [z' E]. exists z'. exact E. }
  destruct (P_Client.x_n k) as [|n] eqn:En0.
  2:{ (* the client saw a HelloRetryRequest *)
    destruct (word_retry _ _ Wn) as (w1 & hrr & ch & Ew1 & Rh & Rc1).
    destruct (hash_dec hc (P_Client.x_h k)) as [Eq0|Nq].
    2:{ right; right. split.
      - intros [h0 Oh]. pose proof (Oh _ Is0). pose proof (Oh _ Iu). congruence.
      - exists A, B, [CFin fd], [CFin fd'], sd, (P_Client.x_h k), hc. split; [exact EA|]. split; [exact EB|]. split; [exact Nq|].
        split; [|exact Mq]. unfold A. rewrite Ew1, !existsb_app. cbn [existsb]. rewrite Rh. cbn [orb]. rewrite orb_true_r. reflexivity. }
    exfalso.
    assert (ch = (Client, CLIENT_HELLO, d0)).
    { rewrite Ew in Ew1. change [hrr; ch] with ([hrr] ++ [ch]) in Ew1. rewrite app_assoc in Ew1. apply app_inj_tail in Ew1 as [_ E]. symmetry. exact E. }
    subst ch. unfold A in Mq. rewrite Ew1 in Mq.
    destruct (heard_again (P_Client.x_h k) hc w1 hrr _ tA Rh Rc1 NtA) as (h0 & m0 & E0 & Zh). rewrite E0 in Mq.
    destruct Sv0 as [(r0 & Ew' & _ & E') | (q0 & qr & Ew' & Rq & z' & E')].
    - unfold B in Mq. rewrite Ew' in Mq. cbn [app rfc_messages] in Mq. rewrite R3' in Mq. cbn [map concat m_data snd] in Mq. rewrite E' in Mq. discriminate Mq.
    - unfold B in Mq. rewrite Ew' in Mq. cbn [app rfc_messages] in Mq. rewrite Rq in Mq. unfold synthetic in Mq. rewrite <- !app_assoc in Mq.
      apply app_len_inv in Mq as [_ Mq]; [|reflexivity]. apply app_len_inv in Mq as [_ Mq].
      + unfold m_data at 1 in Mq. cbn [snd] in Mq. rewrite Ez in Mq. unfold m_data at 2 in Mq. cbn [snd] in Mq. rewrite E' in Mq. discriminate Mq.
      + apply Nat2N.inj. change (blen (cr_hash C h0 m0) = blen (cr_hash C (P_Client.x_h k) (m_data (Client, CLIENT_HELLO, q0)))).
        rewrite !Hh. destruct Zh as [->| ->]; [rewrite Eq0|]; reflexivity. }
  left. pose proof (word_zero _ Wn) as Nw.
  destruct (word_plain _ _ Wn Nw) as [d0' Ew2].
  assert (w = [] /\ d0' = d0) as [-> ->].
  { rewrite Ew in Ew2. change [(Client, 1, d0')] with ([] ++ [(Client, 1, d0')]) in Ew2. apply app_inj_tail in Ew2 as [-> E].
    split; [reflexivity|]. unfold CLIENT_HELLO in E. congruence. }
  cbn [app] in Ew. clear Ew2.
  assert (NAt : forallb (fun m => negb (is_retry m)) A = true) by (unfold A; rewrite forallb_app, Nw, NtA; reflexivity).
  rewrite heard_rfc_plain in Mq by exact NAt.
  assert (EmA : rfc_messages C (P_Client.x_h k) A = concat (map m_data A)).
  { unfold A, tA. rewrite Ew. cbn [app rfc_messages]. rewrite K3. reflexivity. }
  destruct Sv0 as [(r0 & Ew' & Fdn & _) | (q0 & qr & Ew' & Rq & _)].
  2:{ exfalso. rewrite EmA in Mq. unfold A, B in Mq. rewrite Ew, Ew' in Mq. cbn [app rfc_messages map concat] in Mq. rewrite Rq in Mq.
      unfold m_data at 1 in Mq. cbn [snd] in Mq. rewrite Ez in Mq. discriminate Mq. }
  assert (EmB : rfc_messages C (P_Client.x_h k) B = concat (map m_data B)).
  { unfold B. rewrite Ew'. cbn [app rfc_messages]. rewrite R3'. reflexivity. }
  rewrite EmA, EmB in Mq.
  assert (AB : A = B).
  { apply framed_concat in Mq.
    - unfold A, tA, B in *. rewrite Ew, Ew' in *. cbn [app map m_data snd] in Mq. unfold EE, Cert, CV in *. cbn [snd] in Mq.
      assert (Q : forall (a b c d e a' b' c' d' e' : bytes), [a; b; c; d; e] = [a'; b'; c'; d'; e'] -> a = a' /\ b = b' /\ c = c' /\ d = d' /\ e = e')
        by (intros; repeat split; congruence).
      apply Q in Mq as (Q1 & Q2 & Q3 & Q4 & Q5). unfold m_data in Q1, Q2, Q3, Q4, Q5. cbn [snd] in Q1, Q2, Q3, Q4, Q5.
      cbn [app]. rewrite Q1, Q2, Q3, Q4, Q5. reflexivity.
    - unfold A, tA. rewrite Ew. cbn [app].
      destruct Ee as [(ex & Se & _) _]. destruct Cv as (ctv & sg & Sv & _ & _).
      constructor; [exact Fd0|]. constructor; [eapply framed_says; [exact Sy | discriminate]|].
      constructor; [eapply framed_says; [exact Se | discriminate]|].
      constructor; [destruct Ce as [(ctx & e & rest & Sc' & _)|(ctx & e & rest & Sc' & _)]; (eapply framed_says; [exact Sc' | discriminate])|].
      constructor; [eapply framed_says; [exact Sv | discriminate] | constructor].
    - unfold B. rewrite Ew'. cbn [app].
      constructor; [exact Fdn|]. constructor; [eapply framed_ser; exact Ser|].
      constructor; [eapply framed_ser; exact F1|]. constructor; [eapply framed_ser; exact F2|].
      constructor; [eapply framed_ser; exact F3 | constructor].
    - unfold A, tA, B. rewrite Ew, Ew'. reflexivity. }
  exists A, [CFin fd], [CFin fd']. split; [exact EA|]. split; [rewrite AB; exact EB|].
  rewrite EA, forallb_app, NAt. reflexivity.
Qed.
Lemma bound_keys gc gs c s sd : g_side gc = Client -> reachable C gc c -> c_state c = Connected -> few c ->
  g_side gs = Server -> started C gs s -> c_state s = Connected -> few s ->
  Forall (Forall (fun b => 32 <= bN b <= 126)) (g_alpn gc) -> host_fine C (c_host c) -> dh_commutes C (c_rng c) (c_rng s) ->
  In (SFin sd) (c_hs c) -> In (SFin sd) (c_hs s) ->
  (exists ms r suite h shared, c_hs c = ms ++ SFin sd :: r /\
    rfc_keys C Client suite h shared (rfc_transcript C h (ms ++ [SFin sd])) c /\
    rfc_keys C Server suite h shared (rfc_transcript C h (ms ++ [SFin sd])) s) \/
  finished_clash C c s \/ digest_mixup C gc c s.
Proof.
  intros Gc Rc Sc Fc Gs Rs Ss Fs Ha Hf Dh Ic Is.
  destruct (bound gc gs c s sd Gc Rc Sc Fc Gs Rs Ss Fs Ic Is) as [(ms & r & r' & E & E' & N')|X]; [|right; exact X].
  left. destruct (same_keys_c gc gs c s Gc Rc Sc Fc Gs Rs Ss Fs Ha Hf Dh) as (m2 & d2 & r2 & suite & h2 & shared & E2 & K1 & K2); [exists ms, sd, r, r'; auto | exact N'|].
  destruct (client_log gc c Gc Rc Sc Fc) as (he & s1 & e1 & c1 & v1 & d1 & f1 & n & El & Wn).
  assert (Na : no_sfin (he ++ [(Server, SERVER_HELLO, s1); EE e1; Cert c1; CV v1])) by (apply no_sfin_app; [eapply no_sfin_word; exact Wn | apply no_sfin_five]).
  assert (Nb := no_sfin_cfin f1).
  destruct (sfin_split _ _ _ _ _ _ Na Nb (eq_trans (eq_sym El) E)) as (<- & -> & <-).
  destruct (sfin_split _ _ _ _ _ _ Na Nb (eq_trans (eq_sym El) E2)) as (<- & <- & <-).
  exists (he ++ [(Server, SERVER_HELLO, s1); EE e1; Cert c1; CV v1]), [CFin f1], suite, h2, shared. auto.
Qed.
End agree.
