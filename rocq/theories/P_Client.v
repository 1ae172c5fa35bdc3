(* The handshake of a client. *)
From Verif Require Import Base P_Base Iana Crypto Config Serial Ext Msg Hkdf Cipher Kex Sig Ocsp Transcript Conn
  S_Hist S_Conn S_State S_Send S_Nonce S_Alert S_Utils S_Keys S_Ocsp S_Auth
  P_Monad P_Frame P_Hist P_Send P_Wp P_State P_Speak P_Alert P_Keys P_Tr P_Auth P_Ocsp.

Record ctx := mkCtx {
  x_n : nat; x_w0 : list hmsg; x_d1 : bytes; x_suite : N; x_h : hashalg; x_group : N; x_shared : bytes }.
Section client.
Variables (C : crypto) (g : config) (host : option str) (ocsp : bool) (rng : N -> bytes).
Variables (hl : list hashalg) (hc : hashalg).
Hypothesis As : aead_sized C.
Hypothesis Hs : hmac_sized C.
Hypothesis Hh : hash_sized C.
Hypothesis Hg : g_side g = Client.
Hypothesis Hhl : exists r, hl = hc :: r.

Definition cfgeq (k : config) : Prop := k = g \/ exists s gr, In s (g_suites g) /\ In gr (g_groups g) /\ k = restrict g s gr (g_sigalgs g).
Definition stat (c : conn) : Prop := c_host c = host /\ c_ocsp c = ocsp /\ c_rng c = rng /\ cfgeq (c_config c).
Lemma cfg_side k : cfgeq k -> g_side k = Client.
Proof. intros [-> | (s & gr & _ & _ & ->)]; exact Hg. Qed.

Definition W k := x_w0 k ++ [(Server, SERVER_HELLO, x_d1 k)].
Definition T k ms := heard C (x_h k) hc false (W k ++ ms).
Definition H k ms := cr_hash C (x_h k) (T k ms).
(* the last of [ms] is a ClientHello that offers the public value of [secret]
   for [group], and no other *)
Definition offered (gc : config) (d : bytes) (group : N) (secret : bytes) : Prop :=
  exists unique cookie pub ch, kx_init C group secret = Ok pub /\
    mk_client_hello unique (g_suites gc) (client_extensions C gc host cookie (group, pub)) = Ok ch /\
    ser_content C (KHandshake ch) = Ok d.
Definition offers (ms : list hmsg) (group : N) (secret : bytes) : Prop :=
  exists ms0 d gc, ms = ms0 ++ [(Client, CLIENT_HELLO, d)] /\ cfgeq gc /\ (ms0 = [] -> gc = g) /\ offered gc d group secret.
Definition agreed k : Prop :=
  exists random sid exts pub j, says C None (x_d1 k) (HServerHello false random sid (x_suite k) exts) /\
    ext_get KEY_SHARE exts = Some (EKeyShareResp (x_group k) pub) /\
    kx_resume C (x_group k) (rng j) pub = Ok (x_shared k) /\ offers (x_w0 k) (x_group k) (rng j).
Definition ctx_ok k : Prop :=
  map token_of (x_w0 k) = hello_word (x_n k) /\ suite_hash (x_suite k) = Some (x_h k) /\
  is_retry (Server, SERVER_HELLO, x_d1 k) = false /\
  hello_says C g rng (x_d1 k) (x_suite k) (x_group k) (x_shared k) /\ agreed k.
Definition keyed k (c : conn) : Prop :=
  exists x, c_cipher c = Some x /\ hk C (x_suite k) Client (x_shared k) (H k []) x /\ fresh x.
Definition mid k tail i (c : conn) : Prop :=
  ctx_ok k /\ stat c /\ c_hs c = W k ++ tail /\ c_tr c = mkTr [(x_h k, T k tail)] i /\ keyed k c.
Definition peer_key (n : nconfig) : option bytes :=
  match n_peer_key n with Some pk => Some pk | None => option_map (cr_cert_pubkey C) (n_peer_cert n) end.
Definition peered (n : nconfig) (key cd : bytes) : Prop := peer_key n = Some key /\ holds C g cd n.
Definition ee_ok k ee n : Prop := ee_says C g ee n /\ n_suite n = Some (x_suite k).
Definition crs_of (must : bool) (crs : list hmsg) : Prop := if must then exists d, crs = [CR d] else crs = [].

Definition zombie (c : conn) : Prop :=
  match c_state c with ClientWaitServerHello _ _ _ => True | _ => False end /\
  g_side (c_config c) = Client /\ (3 <= t_i (c_tr c) <= 11)%nat /\ at_slot (t_i (c_tr c)) (map token_of (c_hs c)).
Definition waiting (first : bool) shares chash (c : conn) : Prop :=
  stat c /\
  exists group j n, shares = [(group, rng j)] /\ In group (g_groups g) /\ map token_of (c_hs c) = hello_word n /\
  offers (c_hs c) group (rng j) /\
  if first
  then exists d, c_nc c = None /\ c_cipher c = None /\ c_config c = g /\ c_hs c = [(Client, CLIENT_HELLO, d)] /\
    c_tr c = mkTr (map (fun h => (h, d)) hl) 2 /\ chash = cr_hash C hc d
  else exists suite h, In suite (g_suites g) /\ suite_hash suite = Some h /\
    c_nc c = Some (nconfig_new (Some suite)) /\ c_cipher c = Some (cs_new 0 0 suite Client) /\
    c_config c = restrict g suite group (g_sigalgs g) /\
    c_tr c = mkTr [(h, heard C h hc false (c_hs c))] 2 /\ fst (hear C h hc false (c_hs c)) = h /\
    chash = cr_hash C h (heard C h hc false (c_hs c)).
Definition conn_ok (P : Prop) (c : conn) : Prop :=
  exists k ee cd vd sd fd n key alg x junk,
    ctx_ok k /\ stat c /\ c_hs c = W k ++ [EE ee; Cert cd; CV vd; SFin sd; CFin fd] ++ junk /\
    c_tr c = mkTr [(x_h k, T k [EE ee; Cert cd; CV vd; SFin sd; CFin fd])] 12 /\
    c_nc c = Some n /\ ee_ok k ee n /\ peered n key cd /\ cert_says C g host ocsp cd key /\
    cv_says C g vd key (H k [EE ee; Cert cd]) alg /\ n_sigalg n = Some alg /\
    finished_says C (x_h k) Server (x_shared k) (H k []) (H k [EE ee; Cert cd; CV vd]) sd /\
    ser_content C (KHandshake (HFinished (cr_hmac C (x_h k)
       (finished_key C (x_h k) (hs_traffic C (x_h k) Client (x_shared k) (H k []))) (H k [EE ee; Cert cd; CV vd; SFin sd])))) = Ok fd /\
    c_cipher c = Some x /\ application_keys C (x_suite k) Client (x_shared k) (H k []) (H k [EE ee; Cert cd; CV vd; SFin sd]) x /\
    (P -> junk = []).

Definition live (c : conn) : Prop :=
  match c_state c with
  | Closed _ _ | Failed => True
  | ServerStart | ServerWaitClientHello _ | ServerWaitFinished _ => False
  | ClientStart ck => stat c /\ ck = None /\ c_hs c = [] /\ c_tr c = mkTr (map (fun h => (h, [])) hl) 1 /\
      c_nc c = None /\ c_cipher c = None /\ c_config c = g
  | ClientWaitServerHello first shares chash => zombie c \/ waiting first shares chash c
  | ClientWaitEncryptedExtensions => exists k, mid k [] 3 c /\ c_nc c = Some (nconfig_new (Some (x_suite k)))
  | ClientWaitCertCr => exists k ee n, mid k [EE ee] 4 c /\ c_nc c = Some n /\ ee_ok k ee n /\ n_peer_key n = None
  | ClientWaitCertificate must => must = true /\
      exists k ee cr n, mid k [EE ee; CR cr] 5 c /\ c_nc c = Some n /\ ee_ok k ee n /\ n_peer_key n = None
  | ClientWaitCertificateVerify must ch =>
      exists k ee crs cd n key, crs_of must crs /\ mid k (EE ee :: crs ++ [Cert cd]) 6 c /\ c_nc c = Some n /\
        ee_ok k ee n /\ peered n key cd /\ cert_says C g host ocsp cd key /\ ch = H k (EE ee :: crs ++ [Cert cd])
  | ClientWaitFinished must vh =>
      exists k ee crs cd vd n key alg, crs_of must crs /\ mid k (EE ee :: crs ++ [Cert cd; CV vd]) 7 c /\ c_nc c = Some n /\
        ee_ok k ee n /\ peered n key cd /\ cert_says C g host ocsp cd key /\
        cv_says C g vd key (H k (EE ee :: crs ++ [Cert cd])) alg /\ n_sigalg n = Some alg /\
        vh = H k (EE ee :: crs ++ [Cert cd; CV vd])
  | Connected => conn_ok (room c) c
  end.
Definition soft (c : conn) : Prop :=
  done (c_state c) = true \/ zombie c \/ (c_state c = Connected /\ conn_ok False c) \/ (can_send (c_state c) = true /\ room c).
Definition Q (r : res unit) (c' : conn) : Prop := match r with Ok _ => live c' | Err _ => soft c' end.

Lemma live_done c : done (c_state c) = true -> live c.
Proof. unfold live. destruct (c_state c); try discriminate; intros; exact I. Qed.
Lemma keyed_soft k c : keyed k c -> can_send (c_state c) = true -> soft c.
Proof. intros (x & Ex & _ & F) S. right; right; right. split; [exact S | eapply fresh_room; eassumption]. Qed.
Lemma plain_soft c : enc_on c = false -> can_send (c_state c) = true -> soft c.
Proof. intros E S. right; right; right. split; [exact S | apply room_plain; exact E]. Qed.
Lemma conn_weaken (P P' : Prop) c : (P' -> P) -> conn_ok P c -> conn_ok P' c.
Proof.
  intros X (k & ee & cd & vd & sd & fd & n & key & alg & x & junk & A).
  exists k, ee, cd, vd, sd, fd, n, key, alg, x, junk. tauto.
Qed.
Lemma waiting_plain f s h c : waiting f s h c -> enc_on c = false.
Proof.
  intros (_ & gr & j & n & _ & _ & _ & _ & A). unfold enc_on. destruct f.
  - destruct A as (d & _ & -> & _). reflexivity.
  - destruct A as (su & hh & _ & _ & _ & -> & _). reflexivity.
Qed.
Lemma live_soft c : live c -> soft c.
Proof.
  unfold live. destruct (c_state c) eqn:S; try (intros; left; rewrite S; reflexivity); try (intros []; fail).
  - intros (_ & _ & _ & _ & _ & E & _). apply plain_soft; [unfold enc_on; rewrite E; reflexivity | rewrite S; reflexivity].
  - intros [Z|Z]; [right; left; exact Z|]. apply plain_soft; [eapply waiting_plain; exact Z | rewrite S; reflexivity].
  - intros (k & M & _). eapply keyed_soft; [apply M | rewrite S; reflexivity].
  - intros (k & ee & n & M & _). eapply keyed_soft; [apply M | rewrite S; reflexivity].
  - intros (_ & k & ee & cr & n & M & _). eapply keyed_soft; [apply M | rewrite S; reflexivity].
  - intros (k & ee & crs & cd & n & key & _ & M & _). eapply keyed_soft; [apply M | rewrite S; reflexivity].
  - intros (k & ee & crs & cd & vd & n & key & alg & _ & M & _). eapply keyed_soft; [apply M | rewrite S; reflexivity].
  - intro K. right; right; left. split; [exact S|]. eapply conn_weaken; [|exact K]. intros [].
Qed.
(* keys move along with records *)
Lemma keyed_read k c c' : olift cs_read (c_cipher c) (c_cipher c') -> keyed k c -> keyed k c'.
Proof.
  intros O (x & Ex & K & F). rewrite Ex in O. destruct (c_cipher c') as [y|] eqn:Ey; [|destruct O].
  exists y. split; [exact Ey|]. split; [eapply hk_same; [apply read_same; exact O | exact K] | eapply fresh_read; eassumption].
Qed.
Lemma conn_moves (P P' : Prop) c oc : (forall x, c_cipher c = Some x -> exists y, oc = Some y /\ same_keys x y) -> (P' -> P) ->
  conn_ok P c -> conn_ok P' (cset_cipher oc c).
Proof.
  intros O X (k & ee & cd & vd & sd & fd & n & key & alg & x & junk & A).
  decompose [and] A. destruct (O x) as (y & -> & S); [assumption|].
  exists k, ee, cd, vd, sd, fd, n, key, alg, y, junk. repeat (split; [assumption|]). split; [reflexivity|].
  split; [eapply app_same; eassumption | tauto].
Qed.
Lemma read_moves a b : olift cs_read a b -> forall x, a = Some x -> exists y, b = Some y /\ same_keys x y.
Proof. intros O x ->. destruct b as [y|]; [|destruct O]. exists y. split; [reflexivity | apply read_same; exact O]. Qed.
Lemma write_moves a b : olift cs_write a b -> forall x, a = Some x -> exists y, b = Some y /\ same_keys x y.
Proof. intros O x ->. destruct b as [y|]; [|destruct O]. exists y. split; [reflexivity | apply write_same; exact O]. Qed.
Lemma mid_cipher k l i c oc : (keyed k c -> keyed k (cset_cipher oc c)) -> mid k l i c -> mid k l i (cset_cipher oc c).
Proof. intros X (A & B & D & E & F). repeat (split; [assumption|]). auto. Qed.
Lemma live_cipher c oc : olift cs_read (c_cipher c) oc -> live c -> live (cset_cipher oc c).
Proof.
  intros O. unfold live. cbn [c_state cset_cipher].
  assert (K : forall k, keyed k c -> keyed k (cset_cipher oc c)) by (intro k; apply keyed_read; exact O).
  destruct (c_state c) eqn:S; try (intro L; exact L).
  - intros (A & B & D & E & F & G & I). rewrite G in O. destruct oc; [destruct O|]. repeat (split; [assumption|]). split; [reflexivity | exact I].
  - intros [Z|(A & gr & j & n & B1 & B2 & B3 & B4 & B)]; [left; exact Z|]. right. split; [exact A|]. exists gr, j, n.
    split; [exact B1|]. split; [exact B2|]. split; [exact B3|]. split; [exact B4|].
    destruct first.
    + destruct B as (d & D1 & D2 & D). rewrite D2 in O. destruct oc; [destruct O|]. exists d. split; [exact D1|]. split; [reflexivity | exact D].
    + destruct B as (su & h & D1 & D2 & D3 & D4 & D). rewrite D4 in O. destruct oc as [y|]; [|destruct O].
      apply new_read in O. subst y. exists su, h. repeat (split; [assumption|]). split; [reflexivity | exact D].
  - intros (k & M & N). exists k. split; [apply mid_cipher; auto | exact N].
  - intros (k & ee & n & M & N). exists k, ee, n. split; [apply mid_cipher; auto | exact N].
  - intros (E & k & ee & cr & n & M & N). split; [exact E|]. exists k, ee, cr, n. split; [apply mid_cipher; auto | exact N].
  - intros (k & ee & crs & cd & n & key & E & M & N). exists k, ee, crs, cd, n, key. split; [exact E|]. split; [apply mid_cipher; auto | exact N].
  - intros (k & ee & crs & cd & vd & n & key & alg & E & M & N). exists k, ee, crs, cd, vd, n, key, alg. split; [exact E|]. split; [apply mid_cipher; auto | exact N].
  - apply conn_moves; [apply read_moves; exact O|]. apply room_read. exact O.
Qed.
Lemma live_read c c' : reading c c' -> live c -> live c'.
Proof. intros [E O] L. rewrite E. apply (live_cipher (cset_inhs (c_inhs c') (cset_in (c_in c') c)) _ O). exact L. Qed.

Lemma soft_fail code c : code < 256 -> able c -> soft c -> live (snd (fail C (Some code) c)).
Proof.
  intros L A [D|[Z|[[S K]|[S R]]]].
  - apply live_done, done_fail. exact D.
  - destruct (fail_keeps C code c) as [F|(oc & lg & o & O & ->)]; [apply live_done; rewrite F; reflexivity|].
    unfold live. cbn [c_state after_send cset_out cset_log cset_hs cset_tr cset_cipher]. destruct Z as [Z1 Z2].
    destruct (c_state c) eqn:S; try destruct Z1. left. split; [cbn; rewrite S; exact I | exact Z2].
  - destruct (fail_keeps C code c) as [F|(oc & lg & o & O & E)]; [apply live_done; rewrite F; reflexivity|].
    destruct (c_state (snd (fail C (Some code) c))) eqn:S'; try (rewrite E in S'; cbn in S'; congruence).
    assert (NR : ~ room c).
    { intro R. pose proof (alert_fails C code c As A R) as F. rewrite S in F. specialize (F eq_refl L). congruence. }
    unfold live. rewrite S'. rewrite E in *.
    assert (NR' : ~ room (after_send c oc (c_tr c) (c_hs c) lg o)) by (intro R; apply NR; eapply room_write; [|exact R]; exact O).
    apply (conn_moves False _ (cset_out o (cset_log lg (cset_hs (c_hs c) (cset_tr (c_tr c) c)))) oc); [apply write_moves; exact O | exact NR'|].
    exact K.
  - apply live_done. rewrite (alert_fails C code c As A R S L). reflexivity.
Qed.

(* --- the ClientHello ------------------------------------------------------ *)
Lemma mk_client_hello_ok random suites exts h : mk_client_hello random suites exts = Ok h ->
  exists sid e, h = HClientHello random sid suites e.
Proof.
  unfold mk_client_hello. cbv zeta. intro K.
  repeat match type of K with (if ?b then _ else _) = _ => destruct b; [discriminate|] end.
  injection K; intros <-. eauto.
Qed.
Lemma wp_client_initiate ck c h0 d0 l : able c -> enc_on c = false -> can_send (c_state c) = true ->
  g_side (c_config c) = Client -> c_tr c = mkTr ((h0, d0) :: l) 1 ->
  wp (client_initiate C ck) c (fun r c' =>
    c_host c' = c_host c /\ c_ocsp c' = c_ocsp c /\ c_rng c' = c_rng c /\ c_config c' = c_config c /\ c_nc c' = c_nc c /\
    olift cs_write (c_cipher c) (c_cipher c') /\
    match r with
    | Ok _ => exists gr rest j d, g_groups (c_config c) = gr :: rest /\
        c_state c' = ClientWaitServerHello (negb (opt_bool (c_nc c))) [(gr, c_rng c j)] (cr_hash C h0 (d0 ++ d)) /\
        c_tr c' = mkTr (feed d ((h0, d0) :: l)) 2 /\ c_hs c' = c_hs c ++ [(Client, CLIENT_HELLO, d)] /\
        (c_host c = host -> offered (c_config c) d gr (c_rng c j))
    | Err _ => c_state c' = c_state c /\ c_tr c' = c_tr c /\ c_hs c' = c_hs c
    end).
Proof.
  intros A Ex Cs Gs Et.
  assert (Rf : olift cs_write (c_cipher c) (c_cipher c)) by (apply olift_refl, cs_write_refl).
  assert (B : forall c', c_host c' = c_host c /\ c_ocsp c' = c_ocsp c /\ c_rng c' = c_rng c /\ c_config c' = c_config c /\
     c_nc c' = c_nc c /\ c_cipher c' = c_cipher c /\ c_state c' = c_state c /\ c_tr c' = c_tr c /\ c_hs c' = c_hs c ->
     c_host c' = c_host c /\ c_ocsp c' = c_ocsp c /\ c_rng c' = c_rng c /\ c_config c' = c_config c /\ c_nc c' = c_nc c /\
     olift cs_write (c_cipher c) (c_cipher c') /\ c_state c' = c_state c /\ c_tr c' = c_tr c /\ c_hs c' = c_hs c).
  { intros c' (? & ? & ? & ? & ? & E & ?). rewrite E. tauto. }
  unfold client_initiate. wstep. cbv zeta.
  destruct (g_groups (c_config c)) as [|gr rest] eqn:Eg; [wstep; apply B; repeat split|].
  wstep. wstep; [|apply B; repeat split].
  wstep; [|wstep; apply B; repeat split].
  wstep; [|apply B; repeat split].
  match goal with E : mk_client_hello _ _ _ = Ok ?h |- _ => pose proof E as Mk; apply mk_client_hello_ok in E as (sid & e & ->) end.
  apply wpb_send. intros r oc t hs lg o O Sd Sn.
  pose proof (hello_send C _ _ _ _ (cset_rngi (c_rngi c + 1) c) ((h0, d0) :: l) _ _ _ _ _ _ A Ex Cs Gs Et Sd Sn) as K.
  destruct r as [[]|e']; [|destruct K as [-> ->]; repeat (split; [reflexivity|]); split; [exact O | repeat split]].
  destruct K as (d & Ser & -> & ->). wstep; [|discriminate].
  match goal with E : tr_digest _ _ = Ok ?x |- _ => injection E; intros <- end.
  wrun. repeat (split; [reflexivity|]). split; [exact O|].
  exists gr, rest, (c_rngi c), d. repeat (split; [reflexivity|]). intro Eho. rewrite Eho in Mk.
  eexists _, _, _, _. split; [eassumption|]. split; [exact Mk | exact Ser].
Qed.
Lemma live_init c : able c -> live c -> live (snd (initiate_connection C c)).
Proof.
  intros A L. unfold initiate_connection. rewrite bind_get.
  destruct (c_state c) eqn:S; try (unfold raise; exact L); try (unfold live in L; rewrite S in L; destruct L; fail).
  pose proof L as L0. unfold live in L. rewrite S in L. destruct L as ((S1 & S2 & S3 & S4) & -> & Eh & Et & En & Ec & Eg).
  destruct Hhl as [r Er]. rewrite Er in Et. cbn [map] in Et.
  assert (Gs : g_side (c_config c) = Client) by (apply cfg_side; exact S4).
  assert (Ex : enc_on c = false) by (unfold enc_on; rewrite Ec; reflexivity).
  assert (Cs : can_send (c_state c) = true) by (rewrite S; reflexivity).
  pose proof (wp_client_initiate None c hc [] _ A Ex Cs Gs Et) as K. unfold wp in K.
  destruct (client_initiate C None c) as [q c']. cbn [fst snd] in *.
  destruct K as (K1 & K2 & K3 & K4 & K5 & K6 & K). rewrite Ec in K6. destruct (c_cipher c') eqn:Ec'; [destruct K6|].
  assert (St : stat c') by (unfold stat; rewrite K1, K2, K3, K4; auto).
  unfold live. destruct q as [[]|e].
  - destruct K as (gr & rest & j & d & Gg & Es & Ett & Ehs & Of). rewrite Es, En. cbn [negb opt_bool]. right. split; [exact St|].
    exists gr, j, 0%nat. rewrite S3. split; [reflexivity|]. split; [rewrite Eg in Gg; rewrite Gg; left; reflexivity|].
    rewrite Ehs, Eh. split; [reflexivity|]. split; [exists [], d, (c_config c); rewrite <- S3; auto|]. exists d. rewrite K5, K4. repeat (split; [assumption || reflexivity|]).
    split; [|reflexivity]. rewrite Ett. change ((hc, []) :: map (fun h => (h, [])) r) with (map (fun h => (h, [] : bytes)) (hc :: r)).
    rewrite feed_map, <- Er. reflexivity.
  - destruct K as (Es & Ett & Ehs). rewrite Es, S. split; [exact St|]. split; [reflexivity|]. split; [congruence|].
    split; [rewrite Ett, Et, Er; reflexivity|]. split; [congruence|]. split; [exact Ec'|]. congruence.
Qed.

(* --- waiting for the ServerHello ------------------------------------------ *)
Lemma base_live k c : live c -> wp (base_process k) c Q.
Proof. intro L. apply wp_base; [exact L | exact I | intro; apply live_soft; exact L]. Qed.
Definition greeted suite h n w0 group j d (c : conn) : Prop :=
  stat c /\ offers w0 group (rng j) /\ (exists f s ch, c_state c = ClientWaitServerHello f s ch) /\
  In suite (g_suites g) /\ suite_hash suite = Some h /\ In group (g_groups g) /\
  (c_config c = g \/ c_config c = restrict g suite group (g_sigalgs g)) /\
  map token_of w0 = hello_word n /\ c_hs c = w0 ++ [(Server, SERVER_HELLO, d)] /\
  c_nc c = Some (nconfig_new (Some suite)) /\ c_cipher c = Some (cs_new 0 0 suite Client) /\
  c_tr c = mkTr [(h, snd (hear C h hc false w0) ++ d)] 3.
Lemma wp_hrr suite h n w0 group j0 d c exts : able c -> greeted suite h n w0 group j0 d c -> is_retry (Server, SERVER_HELLO, d) = true ->
  wp (client_process_hrr C (cr_hash C (fst (hear C h hc false w0)) (snd (hear C h hc false w0))) exts) c Q.
Proof.
  intros A (St & _ & (f & s & ch & Es) & I1 & Eh & I2 & Cf & Wt & Ehs & En & Ec & Et) R.
  assert (Ex : enc_on c = false) by (unfold enc_on; rewrite Ec; reflexivity).
  assert (Cs : can_send (c_state c) = true) by (rewrite Es; reflexivity).
  assert (SF : soft c) by (apply plain_soft; assumption).
  unfold client_process_hrr. destruct (ext_get KEY_SHARE exts) as [x|]; [|wstep; exact SF].
  destruct x; try (wstep; exact SF).
  match goal with |- context [memN ?x] => rename x into grp end.
  wstep. destruct (memN grp (g_groups (c_config c))) eqn:Em; cbn [negb]; [|wstep; exact SF].
  rewrite En. cbn [n_suite nconfig_new]. wstep.
  apply memN_in in Em.
  assert (Ig : In grp (g_groups g) /\ restrict (c_config c) suite grp (g_sigalgs (c_config c)) = restrict g suite grp (g_sigalgs g)).
  { destruct Cf as [E|E]; rewrite E in *; [split; [exact Em | reflexivity]|]. cbn in Em. destruct Em as [<-|[]]. split; [exact I2 | reflexivity]. }
  destruct Ig as [Ig Er]. rewrite Er.
  assert (Gs : g_side (c_config c) = Client) by (apply cfg_side, St).
  wstep; [|cbn [c_tr cset_config] in *; rewrite Et in *; discriminate].
  match goal with E : tr_dance _ _ _ = Ok ?t |- _ => cbn [c_tr cset_config] in E; rewrite Et, Gs in E; cbn [tr_dance t_hashes] in E; injection E; intros <- end.
  wstep. unfold initiate_connection. wstep. cbn [c_state cset_state]. cbv beta iota.
  set (chash := cr_hash C (fst (hear C h hc false w0)) (snd (hear C h hc false w0))).
  set (c1 := cset_state _ _).
  set (ck := match ext_get COOKIE exts with Some (ECookie b) => Some b | _ => None end).
  assert (A1 : able c1).
  { pose proof (st_config C _ (able_stable C) c suite grp (g_sigalgs (c_config c)) A) as A1. rewrite Er in A1. exact A1. }
  eapply wp_mono.
  { apply (wp_client_initiate ck c1 h (message_hash h chash) []); [exact A1 | exact Ex | reflexivity | exact Hg | reflexivity]. }
  intros r c' (K1 & K2 & K3 & K4 & K5 & K6 & K). change (c_cipher c1) with (c_cipher c) in K6. rewrite Ec in K6.
  destruct (c_cipher c') as [y|] eqn:Ec'; [|destruct K6]. apply new_write in K6. subst y.
  destruct r as [[]|e]; cbn [Q].
  - destruct K as (gr & rest & j & d' & Gg & S' & T' & H' & Of). cbn in Gg. injection Gg; intros <- <-.
    unfold live. rewrite S'. change (c_nc c1) with (c_nc c) in *. rewrite En. cbn [opt_bool negb]. right.
    destruct St as (St1 & St2 & St3 & St4). split.
    { unfold stat. rewrite K1, K2, K3, K4. repeat (split; [assumption|]). right. exists suite, grp. auto. }
    exists grp, j, (S n). change (c_rng c1 j) with (c_rng c j). rewrite St3. split; [reflexivity|]. split; [exact Ig|].
    change (c_hs c1) with (c_hs c) in H'. rewrite Ehs in H'. split.
    { rewrite H', !map_app, Wt, hello_word_S, <- app_assoc. cbn [map token_of m_side m_type fst snd].
      change (SERVER_HELLO =? 2) with true. cbv iota. rewrite R. reflexivity. }
    split.
    { exists (w0 ++ [(Server, SERVER_HELLO, d)]), d', (c_config c1). split; [exact H'|].
      split; [right; exists suite, grp; auto|]. split; [intro X0; destruct w0; discriminate X0|]. rewrite <- St3. apply Of. exact St1. }
    exists suite, h. split; [exact I1|]. split; [exact Eh|]. split; [rewrite K5; exact En|]. split; [exact Ec'|].
    split; [rewrite K4; reflexivity|].
    assert (He : hear C h hc false (c_hs c') = (h, message_hash h chash ++ d')).
    { rewrite H', hear_plain by (apply is_retry_type; discriminate). rewrite hear_retry by exact R. rewrite app_nil_r. reflexivity. }
    rewrite heard_hear, He. cbn [fst snd]. split; [exact T' | split; reflexivity].
  - destruct K as (S' & _). apply plain_soft; [unfold enc_on; rewrite Ec'; reflexivity | rewrite S'; reflexivity].
Qed.
Lemma wp_sh suite h n w0 group d c j random sid exts : able c -> greeted suite h n w0 group j d c ->
  says C None d (HServerHello false random sid suite exts) -> is_retry (Server, SERVER_HELLO, d) = false ->
  wp (client_process_sh C [(group, rng j)] random exts) c Q.
Proof.
  intros A G Sy R. pose proof G as (St & Of & (f & s & ch & Es) & I1 & Eh & I2 & Cf & Wt & Ehs & En & Ec & Et).
  assert (Ex : enc_on c = false) by (unfold enc_on; rewrite Ec; reflexivity).
  assert (Cs : can_send (c_state c) = true) by (rewrite Es; reflexivity).
  unfold client_process_sh. wstep. set (c1 := cset_sunique _ c).
  assert (SF : soft c1) by (apply plain_soft; assumption).
  unfold client_negociate_hello. wstep.
  apply wpb_mono with (P := fun r c2 => c2 = c1 /\ match r with Ok _ => ext_get SUPPORTED_VERSIONS exts = Some (ESupVersionsResp 0x0304) | _ => True end).
  { destruct (ext_get SUPPORTED_VERSIONS exts) as [x|]; [destruct x|]; wrun; try (split; [reflexivity | exact I]).
    split; [reflexivity|]. match goal with E : (?v =? TLS_1_3) = true |- _ => apply N.eqb_eq in E; subst v end. reflexivity. }
  intros r c2 [-> Sv]. destruct r as [[]|e]; [|exact SF].
  destruct (ext_get KEY_SHARE exts) as [x|] eqn:Ek; [|wstep; exact SF].
  destruct x; try (wstep; exact SF).
  match goal with |- context [assocN ?x] => rename x into grp end.
  destruct (assocN grp [(group, rng j)]) as [v|] eqn:Ea; [|wstep; exact SF]. apply assocN_one in Ea as [-> ->].
  wstep; [|exact SF]. match goal with E : on_value_error _ _ = Ok ?x |- _ => apply on_value_ok in E; rename E into Kx; rename x into shared end.
  apply wpb_on_cipher; [intro E; change (c_cipher c1) with (c_cipher c) in E; congruence|].
  intros x r x1 E1 H1. change (c_cipher c1) with (c_cipher c) in E1. rewrite Ec in E1. injection E1; intros <-. clear E1.
  destruct (skip_total C (cs_new 0 0 suite Client) Hs Hh eq_refl) as (x1' & H1' & Cst & Csu).
  rewrite H1' in H1. injection H1; intros <- <-. clear H1.
  wstep; [|match goal with E : tr_digest _ ?t = Err _ |- _ => change t with (c_tr c) in E; rewrite Et in E; discriminate E end].
  match goal with E : tr_digest _ _ = Ok ?x |- _ => change (c_tr (cset_cipher (Some x1') c1)) with (c_tr c) in E; rewrite Et in E; injection E; intros <- end.
  set (th := cr_hash C h _).
  assert (Lth : blen th <= 255) by (unfold th; rewrite Hh; destruct h; discriminate).
  apply wpb_on_cipher; [discriminate|]. intros x r x2 E1 H1. injection E1; intros <-. clear E1.
  destruct (derive_hs_step C shared th x1' Hs Hh Lth Cst) as (r' & x2' & H2 & Er & Cst2 & Csu2). rewrite H1 in H2. injection H2; intros <- <-. clear H2.
  assert (Tk : map token_of (w0 ++ [(Server, SERVER_HELLO, d)]) = hello_word n ++ [TSH]).
  { rewrite map_app, Wt. cbn [map token_of m_side m_type fst snd]. change (SERVER_HELLO =? 2) with true. cbv iota. rewrite R. reflexivity. }
  destruct (usage_limit (cs_suite x1')) eqn:Eu; subst r.
  - wrun. cbn [Q]. unfold live. cbn [c_state cset_state].
    exists (mkCtx n w0 d suite h group shared). split; [|exact En].
    assert (Eth : T (mkCtx n w0 d suite h group shared) [] = snd (hear C h hc false w0) ++ d).
    { unfold T, W. cbn [x_h x_w0 x_d1]. rewrite app_nil_r. rewrite heard_plain by exact R. reflexivity. }
    unfold mid; split; [|split; [exact St|split; [cbn [c_hs cset_state cset_cipher]; change (c_hs c1) with (c_hs c); rewrite Ehs, app_nil_r; reflexivity|split]]].
    + split; [exact Wt|]. split; [exact Eh|]. split; [exact R|]. split; exists random, sid, exts;
      match goal with E : ext_get KEY_SHARE exts = Some (EKeyShareResp _ ?p) |- _ => exists p, j end;
      cbn [x_d1 x_suite x_group x_shared x_w0]; tauto.
    + change (c_tr c = mkTr [(h, T (mkCtx n w0 d suite h group shared) [])] 3). rewrite Eth. exact Et.
    + exists x2. split; [reflexivity|]. split; [|eapply derive_fresh; exact H1].
      exists x1', x2. split; [exact H1'|]. split; [|repeat split]. unfold H. rewrite Eth. exact H1.
  - right; left. unfold zombie. change (c_state (cset_cipher (Some x2) (cset_cipher (Some x1') c1))) with (c_state c).
    change (c_tr (cset_cipher (Some x2) (cset_cipher (Some x1') c1))) with (c_tr c).
    change (c_hs (cset_cipher (Some x2) (cset_cipher (Some x1') c1))) with (c_hs c).
    rewrite Es, Et, Ehs. split; [exact I|]. split; [apply cfg_side, St|]. cbn [t_i]. split; [lia|].
    exists n. exact Tk.
Qed.
Lemma hand_wait_sh first shares chash ct d c : able c -> c_state c = ClientWaitServerHello first shares chash -> live c ->
  wp (handle_content C ct d) c Q.
Proof.
  intros A S L. pose proof L as L0. unfold live in L. rewrite S in L. destruct L as [Z|Wt].
  - pose proof Z as Z0. destruct Z as (_ & Gs & Hi & At). destruct (c_tr c) as [hs i] eqn:Et. cbn [t_i] in Hi, At.
    apply wp_handle.
    + intro. right; left. exact Z0.
    + intros k Pk Nk. unfold process. wstep. rewrite S. unfold process_wait_sh. destruct k; try (apply base_live; exact L0). destruct (Nk _ eq_refl).
    + intros h ty t Pk Mt Tu. rewrite Gs in *. cbn [other_side] in *. rewrite Et in Tu.
      destruct (at_slot_update _ _ _ _ _ _ _ Hi At Tu) as [Hi' [Nty At']].
      set (c1 := cset_hs _ _).
      assert (SF : soft c1).
      { right; left. unfold zombie. change (c_state c1) with (c_state c). rewrite S. split; [exact I|]. split; [exact Gs|].
        change (c_tr c1) with t. change (c_hs c1) with (c_hs c ++ [(Server, ty, d)]). split; [exact Hi'|]. rewrite map_app. exact At'. }
      unfold process. wstep. change (c_state c1) with (c_state c). rewrite S. unfold process_wait_sh.
      destruct h; try (destruct first; [apply wp_base_hs; intro; exact SF | wstep; exact SF]).
      injection Mt; intros <-. destruct (Nty eq_refl).
    + intros h ty e t Pk Mt Tu. rewrite Gs in *. cbn [other_side] in *. rewrite Et in Tu.
      destruct (at_slot_update _ _ _ _ _ _ _ Hi At Tu) as [Hi' At'].
      right; left. unfold zombie. cbn [c_state cset_tr c_tr c_hs c_config]. rewrite S. repeat (split; [assumption || exact I|]). exact At'.
  - pose proof (waiting_plain _ _ _ _ Wt) as Ex.
    assert (Cs : can_send (c_state c) = true) by (rewrite S; reflexivity).
    assert (Gs : g_side (c_config c) = Client) by (apply cfg_side, Wt).
    assert (Ti : exists l, c_tr c = mkTr l 2).
    { destruct Wt as (_ & gr & j & n & _ & _ & _ & _ & B). destruct first.
      - destruct B as (dd & _ & _ & _ & _ & B & _). eauto.
      - destruct B as (su & h & _ & _ & _ & _ & _ & B & _). eauto. }
    destruct Ti as [l Et].
    apply wp_handle.
    + intro. apply plain_soft; assumption.
    + intros k Pk Nk. unfold process. wstep. rewrite S. unfold process_wait_sh. destruct k; try (apply base_live; exact L0). destruct (Nk _ eq_refl).
    + intros h ty t Pk Mt Tu. rewrite Gs in *. cbn [other_side] in *. rewrite Et in Tu.
      apply server_slots in Tu; [|lia]. destruct Tu as (i & Sl & ->). cbn [server_slot] in Sl.
      destruct (ty =? SERVER_HELLO) eqn:Ety; [|discriminate]. apply N.eqb_eq in Ety. injection Sl; intros <-. subst ty.
      set (c1 := cset_hs _ _). assert (A1 : able c1) by exact A.
      assert (SF : soft c1) by (apply plain_soft; assumption).
      unfold process. wstep. change (c_state c1) with (c_state c). rewrite S. unfold process_wait_sh.
      destruct h as [|hrr random sid suite exts| | | | | |]; try (destruct first; [apply wp_base_hs; intro; exact SF | wstep; exact SF]).
      pose proof (parse_sh_random _ _ _ _ _ _ _ _ Pk) as Rt.
      assert (Sy : says C None d (HServerHello hrr random sid suite exts)) by (eapply parse_content_pct; [exact Pk | reflexivity]).
      wstep. destruct (memN suite (g_suites (c_config c1))) eqn:Em; cbn [negb]; [|wstep; exact SF]. apply memN_in in Em.
      change (c_config c1) with (c_config c) in Em.
      destruct Wt as (St & gr & j & n & -> & Ig & Wd & Of & B). destruct first.
      * destruct B as (dd & En & Ec & Eg & Eh & Etr & ->). rewrite Etr in Et. injection Et; intros <-. clear Et.
        wstep. wstep. wstep. destruct (suite_hash suite) as [h|] eqn:Esh; [|wstep; apply plain_soft; [exact Ex | exact Cs]].
        wstep. wstep. rewrite Eg in Em.
        wstep.
        2:{ apply plain_soft; [reflexivity | exact Cs]. }
        match goal with E : tr_post_init _ _ = Ok ?t |- _ => unfold tr_post_init in E; cbn [c_tr cset_cipher cset_nc] in E;
          change (c_tr c1) with (mkTr (feed d (map (fun h => (h, dd)) hl)) 3) in E; cbn [t_hashes t_i] in E; rewrite feed_map in E;
          destruct (find _ _) as [p|] eqn:Ef; [|discriminate]; apply find_map_hash in Ef; subst p; injection E; intros <- end.
        set (c2 := cset_tr _ _). assert (Ec2 : c_cipher c2 = Some (cs_new 0 0 suite Client)).
        { unfold c2. cbn [c_cipher cset_tr cset_cipher]. unfold epoch_w, epoch_r, klog. change (c_cipher (cset_nc _ c1)) with (c_cipher c). rewrite Ec. reflexivity. }
        apply wpb_send. intros r oc t hs lg o O Sd Sn. rewrite Ec2 in O. destruct oc as [y|]; [|destruct O]. apply new_write in O. subst y.
        cbn [said] in Sd. destruct Sd as [-> ->].
        destruct r as [[]|e]; [|apply plain_soft; [reflexivity | exact Cs]].
        set (c3 := after_send _ _ _ _ _ _).
        assert (He : hear C h hc false [(Client, CLIENT_HELLO, dd)] = (hc, dd)).
        { change [(Client, CLIENT_HELLO, dd)] with ([] ++ [(Client, CLIENT_HELLO, dd)]). rewrite hear_plain by (apply is_retry_type; discriminate). reflexivity. }
        assert (G : greeted suite h n [(Client, CLIENT_HELLO, dd)] gr j d c3).
        { split; [exact St|]. split; [rewrite <- Eh; exact Of|]. split; [exists true, [(gr, rng j)], (cr_hash C hc dd); exact S|]. split; [exact Em|]. split; [exact Esh|].
          split; [exact Ig|]. split; [left; exact Eg|]. split; [rewrite <- Wd, Eh; reflexivity|].
          split; [change (c_hs c3) with (c_hs c ++ [(Server, SERVER_HELLO, d)]); rewrite Eh; reflexivity|].
          split; [reflexivity|]. split; [reflexivity|]. rewrite He. reflexivity. }
        assert (A3 : able c3).
        { pose proof (st_nc_new C _ (able_stable C) c1 (Some suite) A1) as A2.
          pose proof (st_cs_new C _ (able_stable C) suite Client _ A2) as A3.
          pose proof (st_send C _ (able_stable C) KCcs c2 A3) as A4. rewrite Sn in A4. exact A4. }
        destruct hrr.
        -- pose proof (wp_hrr _ _ _ _ _ _ _ _ exts A3 G Rt) as K. rewrite He in K. exact K.
        -- eapply wp_sh; [exact A3 | exact G | exact Sy | exact Rt].
      * destruct B as (su & h & Is & Esh & En & Ec & Eg & Etr & Ef & ->). rewrite Etr in Et. injection Et; intros <-. clear Et.
        rewrite Eg in Em. cbn in Em. destruct Em as [->|[]]. wstep.
        assert (G : greeted suite h n (c_hs c) gr j d c1).
        { split; [exact St|]. split; [exact Of|]. split; [eauto|]. repeat (split; [assumption || (right; exact Eg) || reflexivity|]). reflexivity. }
        destruct hrr.
        -- pose proof (wp_hrr _ _ _ _ _ _ _ _ exts A1 G Rt) as K. rewrite Ef in K. exact K.
        -- eapply wp_sh; [exact A1 | exact G | exact Sy | exact Rt].
    + intros. apply plain_soft; [exact Ex | exact Cs].
Qed.

(* --- the encrypted part of the handshake ---------------------------------- *)
Lemma mid_hear k tail i c d ty t : (3 <= i <= 7)%nat -> mid k tail i c -> tr_update d Server ty (c_tr c) = (Ok tt, t) ->
  exists j, server_slot i ty = Some j /\ mid k (tail ++ [(Server, ty, d)]) j (cset_hs (c_hs c ++ [(Server, ty, d)]) (cset_tr t c)).
Proof.
  intros Hi (K & St & Eh & Et & Ky) Tu. rewrite Et in Tu.
  assert (Nt : ty <> SERVER_HELLO) by (eapply (server_slots_over d ty _ i (Ok tt) t); [lia | exact Tu | reflexivity]).
  apply server_slots in Tu; [|lia]. destruct Tu as (j & Sl & ->). exists j. split; [exact Sl|].
  split; [exact K|]. split; [exact St|]. split; [cbn; rewrite Eh, <- app_assoc; reflexivity|]. split; [|exact Ky].
  cbn [c_tr cset_hs cset_tr feed map fst snd]. do 3 f_equal. unfold T. rewrite app_assoc.
  rewrite (heard_plain C (x_h k) hc false (W k ++ tail)) by (apply is_retry_type; exact Nt). reflexivity.
Qed.
Lemma mid_state k tail i c s : mid k tail i c -> mid k tail i (cset_state s c).
Proof. exact (fun M => M). Qed.
Lemma mid_nc k tail i c n : mid k tail i c -> mid k tail i (cset_nc n c).
Proof. exact (fun M => M). Qed.
Lemma mid_soft k tail i c : mid k tail i c -> can_send (c_state c) = true -> soft c.
Proof. intros M. apply keyed_soft with (k := k). apply M. Qed.
Lemma mid_digest k tail i c x : mid k tail i c -> tr_digest C (c_tr c) = x -> x = Ok (H k tail).
Proof. intros (_ & _ & _ & E & _) <-. rewrite E. reflexivity. Qed.
Lemma hand_mid k tail i ct d c : (3 <= i <= 7)%nat -> mid k tail i c -> live c -> can_send (c_state c) = true ->
  (forall kk, (forall h, kk <> KHandshake h) -> process C kk c = base_process kk c) ->
  (forall h ty j, parse_content C (peer_cert_type c) CT_HANDSHAKE d = Ok (KHandshake h) -> msg_type h = Some ty ->
     server_slot i ty = Some j -> forall c1, c_state c1 = c_state c -> c_nc c1 = c_nc c -> c_config c1 = c_config c ->
       mid k (tail ++ [(Server, ty, d)]) j c1 -> wp (process C (KHandshake h)) c1 Q) ->
  wp (handle_content C ct d) c Q.
Proof.
  intros Hi M L Cs P1 P2. pose proof M as (_ & St & _ & Et & _).
  assert (Gs : g_side (c_config c) = Client) by (apply cfg_side, St).
  apply wp_handle.
  - intro. eapply mid_soft; eassumption.
  - intros kk _ Nk. eapply wp_ext; [apply P1; exact Nk | apply base_live; exact L].
  - intros h ty t Pk Mt Tu. rewrite Gs in *. cbn [other_side] in *.
    destruct (mid_hear _ _ _ _ _ _ _ Hi M Tu) as (j & Sl & M').
    eapply P2; [exact Pk | exact Mt | exact Sl | | | | exact M']; reflexivity.
  - intros h ty e t Pk Mt Tu. apply keyed_soft with (k := k); [exact (proj2 (proj2 (proj2 (proj2 M)))) | exact Cs].
Qed.

(* EncryptedExtensions *)
Definition mfl_clause exts (v : option N) : Prop :=
  match ext_get MAX_FRAGMENT_LENGTH exts with
  | None => v = Some 16384
  | Some x => exists code, x = EMaxFragLen code /\ mfl_octets code = Some (g_mfl g) /\ v = Some (g_mfl g)
  end.
Definition alpn_clause exts (v : option (option str)) : Prop :=
  match ext_get ALPN exts with
  | None => v = Some None
  | Some x => exists p, x = EAlpn [p] /\ In p (g_alpn g) /\ v = Some (Some p)
  end.
Definition cct_clause exts (v : option N) : Prop :=
  match ext_get CLIENT_CERTIFICATE_TYPE exts with
  | None => v = Some CT_X509
  | Some x => exists t, x = EClientCertTypeResp t /\ In t (certificate_types g) /\ v = Some t
  end.
Definition sct_clause exts (v : option N) : Prop :=
  match ext_get SERVER_CERTIFICATE_TYPE exts with
  | None => v = Some CT_X509
  | Some x => exists t, x = EServerCertTypeResp t /\ In t (peer_certificate_types g) /\ v = Some t
  end.
Definition hb_clause exts (v w : option bool) : Prop :=
  match ext_get HEARTBEAT exts with
  | None => v = Some false /\ w = Some false
  | Some x => exists m, x = EHeartbeat m /\ v = Some (m =? 1) /\ w = Some (g_echo g)
  end.
Lemma cfg_same k : cfgeq k -> g_mfl k = g_mfl g /\ g_alpn k = g_alpn g /\ certificate_types k = certificate_types g /\
  peer_certificate_types k = peer_certificate_types g /\ require_peer_auth k = require_peer_auth g /\
  g_trust k = g_trust g /\ g_depth k = g_depth g /\ g_sigalgs k = g_sigalgs g.
Proof. intros [-> | (s & gr & _ & _ & ->)]; repeat split. Qed.
Definition upd (f : nconfig -> Prop) c (r : res unit) c' : Prop :=
  match r with Ok _ => exists n', c' = cset_nc (Some n') c /\ f n' | Err _ => c' = c end.
Ltac upd_err := reflexivity.
Lemma neg_mfl exts c n : c_nc c = Some n -> cfgeq (c_config c) ->
  wp (client_neg_mfl exts) c (upd (fun n' => exists v, n' = nset_mfl n v /\ mfl_clause exts v) c).
Proof.
  intros En Cf. destruct (cfg_same _ Cf) as (Em & _). unfold client_neg_mfl. wstep. unfold mfl_clause.
  destruct (ext_get MAX_FRAGMENT_LENGTH exts) as [x|]; [destruct x|]; wrun; try upd_err; rewrite ?En in *; try congruence.
  all: match goal with E : Some _ = Some ?m |- _ => injection E; intros <- end.
  all: eexists; split; [reflexivity|]; eexists; split; [reflexivity|]; try reflexivity.
  match goal with E : negb (?a =? ?b) = false |- _ => apply negb_false_iff, N.eqb_eq in E; rewrite E, Em in * end. eauto.
Qed.
Lemma neg_alpn exts c n : c_nc c = Some n -> cfgeq (c_config c) ->
  wp (client_neg_alpn exts) c (upd (fun n' => exists v, n' = nset_alpn n v /\ alpn_clause exts v) c).
Proof.
  intros En Cf. destruct (cfg_same _ Cf) as (_ & Em & _). unfold client_neg_alpn. wstep. unfold alpn_clause.
  destruct (ext_get ALPN exts) as [x|]; [destruct x|]; wrun; try upd_err; rewrite ?En in *; try congruence.
  all: match goal with E : Some _ = Some ?m |- _ => injection E; intros <- end.
  all: eexists; split; [reflexivity|]; eexists; split; [reflexivity|]; try reflexivity.
  match goal with E : memB _ _ = true |- _ => apply memB_in in E; rewrite Em in E end. eauto.
Qed.
Lemma neg_hb exts c n : c_nc c = Some n -> cfgeq (c_config c) ->
  wp (client_neg_heartbeat exts) c (upd (fun n' => exists v w, n' = nset_echo_hb (nset_send_hb n v) w /\ hb_clause exts v w) c).
Proof.
  intros En Cf. assert (Em : g_echo (c_config c) = g_echo g) by (destruct Cf as [->|(s & gr & _ & _ & ->)]; reflexivity).
  unfold client_neg_heartbeat, hb_clause. wstep.
  destruct (ext_get HEARTBEAT exts) as [x|]; [destruct x|]; wrun; try upd_err; rewrite ?En in *; try congruence.
  all: match goal with E : Some _ = Some ?m |- _ => injection E; intros <- end.
  all: eexists; split; [reflexivity|]; do 2 eexists; split; [reflexivity|]; rewrite ?Em; eauto.
Qed.
Lemma neg_cct exts c n : c_nc c = Some n -> cfgeq (c_config c) ->
  wp (client_neg_cct exts) c (upd (fun n' => exists v, n' = nset_cct n v /\ cct_clause exts v) c).
Proof.
  intros En Cf. destruct (cfg_same _ Cf) as (_ & _ & Em & _). unfold client_neg_cct. wstep. unfold cct_clause.
  destruct (ext_get CLIENT_CERTIFICATE_TYPE exts) as [x|]; [destruct x|]; wrun; try upd_err; rewrite ?En in *; try congruence.
  all: match goal with E : Some _ = Some ?m |- _ => injection E; intros <- end.
  all: eexists; split; [reflexivity|]; eexists; split; [reflexivity|]; try reflexivity.
  match goal with E : memN _ _ = true |- _ => apply memN_in in E; rewrite Em in E end. eauto.
Qed.
Lemma neg_sct exts c n : c_nc c = Some n -> cfgeq (c_config c) ->
  wp (client_neg_sct exts) c (upd (fun n' => exists v, n' = nset_sct n v /\ sct_clause exts v) c).
Proof.
  intros En Cf. destruct (cfg_same _ Cf) as (_ & _ & _ & Em & _). unfold client_neg_sct. wstep. unfold sct_clause.
  destruct (ext_get SERVER_CERTIFICATE_TYPE exts) as [x|]; [destruct x|]; wrun; try upd_err; rewrite ?En in *; try congruence.
  all: match goal with E : Some _ = Some ?m |- _ => injection E; intros <- end.
  all: eexists; split; [reflexivity|]; eexists; split; [reflexivity|]; try reflexivity.
  match goal with E : memN _ _ = true |- _ => apply memN_in in E; rewrite Em in E end. eauto.
Qed.
Lemma hand_wait_ee ct d c : c_state c = ClientWaitEncryptedExtensions -> live c -> wp (handle_content C ct d) c Q.
Proof.
  intros S L. pose proof L as L0. unfold live in L. rewrite S in L. destruct L as (k & M & En).
  eapply hand_mid; [|exact M | exact L0 | rewrite S; reflexivity | |]; [lia| |].
  - intros kk Nk. unfold process. rewrite bind_get, S. destruct kk; try reflexivity. destruct (Nk _ eq_refl).
  - intros h ty j Pk Mt Sl c1 S1 N1 G1 M1. cbn [server_slot] in Sl. destruct (ty =? ENCRYPTED_EXTENSIONS) eqn:Ety; [|discriminate].
    injection Sl; intros <-. apply N.eqb_eq in Ety. subst ty. cbn [app] in M1.
    assert (Cs1 : can_send (c_state c1) = true) by (rewrite S1, S; reflexivity).
    assert (SF : forall n, soft (cset_nc n c1)) by (intro; eapply mid_soft; [apply mid_nc; exact M1 | exact Cs1]).
    unfold process. wstep. rewrite S1, S.
    destruct h; try discriminate Mt; try (apply wp_base_hs; intro; eapply mid_soft; eassumption).
    unfold process_wait_ee.
    assert (Cf : cfgeq (c_config c1)) by apply M1.
    eapply wpb_mono; [apply neg_mfl; [rewrite N1; exact En | exact Cf]|]. intros r c2 U. destruct r as [[]|e]; [|cbn in U; subst c2; eapply mid_soft; eassumption].
    destruct U as (n1 & -> & v1 & -> & U1).
    eapply wpb_mono; [apply neg_alpn; [reflexivity | exact Cf]|]. intros r c2 U. destruct r as [[]|e]; [|cbn in U; subst c2; apply SF].
    destruct U as (n2 & -> & v2 & -> & U2).
    eapply wpb_mono; [apply neg_hb; [reflexivity | exact Cf]|]. intros r c2 U. destruct r as [[]|e]; [|cbn in U; subst c2; apply SF].
    destruct U as (n3 & -> & w1 & w2 & -> & U3).
    eapply wpb_mono; [apply neg_cct; [reflexivity | exact Cf]|]. intros r c2 U. destruct r as [[]|e]; [|cbn in U; subst c2; apply SF].
    destruct U as (n4 & -> & v4 & -> & U4).
    eapply wpb_mono; [apply neg_sct; [reflexivity | exact Cf]|]. intros r c2 U. destruct r as [[]|e]; [|cbn in U; subst c2; apply SF].
    destruct U as (n5 & -> & v5 & -> & U5).
    wrun. cbn [Q]. unfold live. cbn [c_state cset_state]. do 3 eexists. split; [exact M1|]. split; [reflexivity|].
    split; [|reflexivity]. split; [|reflexivity].
    exists exts. split; [eapply parse_content_pct; [exact Pk | reflexivity]|]. 
    split; [exact U1|]. split; [exact U2|]. split; [exact U4|]. split; [exact U5 | exact U3].
Qed.

(* Certificate *)
Lemma wp_certificate must k ee crs cd c n h : c_state c = ClientWaitCertificate must -> crs_of must crs ->
  mid k (EE ee :: crs ++ [Cert cd]) 6 c -> c_nc c = Some n -> ee_ok k ee n -> n_peer_key n = None ->
  parse_content C (Some (n_sct n)) CT_HANDSHAKE cd = Ok (KHandshake h) -> msg_type h = Some CERTIFICATE ->
  wp (process_wait_certificate C must (KHandshake h)) c Q.
Proof.
  intros S Cr M En Ee Np Pk Mt. destruct h as [| | | |ctx l| | |]; try discriminate Mt.
  assert (Cs : can_send (c_state c) = true) by (rewrite S; reflexivity).
  assert (SF : soft c) by (eapply mid_soft; eassumption).
  assert (SF' : forall n, soft (cset_nc n c)) by (intro; eapply mid_soft; [apply mid_nc; exact M | exact Cs]).
  pose proof M as (_ & (St1 & St2 & _ & Cf) & _). destruct (cfg_same _ Cf) as (_ & _ & _ & _ & Rp & Et & Ed & _).
  unfold process_wait_certificate. wstep. cbv zeta. rewrite Rp. rewrite En.
  destruct (require_peer_auth g && is_nil l) eqn:Ea; [wstep; exact SF|].
  destruct (existsb _ l) eqn:Ex; [wstep; exact SF|].
  assert (Fin : forall n' key, c_nc c = Some n -> ee_ok k ee n' -> peered n' key cd -> cert_says C g host ocsp cd key ->
     wp (do h <- digest C; set_state (ClientWaitCertificateVerify must h)) (cset_nc (Some n') c) Q).
  { intros n' key _ Ee' Pk' Cy. wstep.
    - match goal with E : tr_digest _ _ = Ok ?x |- _ => apply (mid_digest k _ 6 c _ M) in E; injection E; intros -> end.
      wrun. cbn [Q]. unfold live. cbn [c_state cset_state]. exists k, ee, crs, cd, n', key.
      split; [exact Cr|]. split; [exact M|]. split; [reflexivity|]. split; [exact Ee'|]. split; [exact Pk'|]. split; [exact Cy|reflexivity].
    - apply SF'. }
  destruct (n_sct n) as [t|] eqn:Es; [|wrun; exact SF].
  destruct (t =? CT_X509) eqn:E1; [apply N.eqb_eq in E1; subst t|destruct (t =? CT_RAW_PUBLIC_KEY) eqn:E2; [apply N.eqb_eq in E2; subst t|]].
  - destruct l as [|e rest]; [wrun; exact SF|]. wstep. wstep; [exact SF|].
    match goal with E : c_nc c = Some ?m |- _ => rewrite En in E; injection E; intros <- end.
    destruct (require_peer_auth g) eqn:Ra.
    + wstep; [|apply SF']. apply Fin with (key := cr_cert_pubkey C (en_data e)); [exact En | exact Ee | split; [unfold peer_key; cbn; rewrite Np; reflexivity | exists CT_X509, ctx, e, rest; cbn; rewrite Es; auto 6]|].
      left. exists ctx, e, rest. split; [exact Pk|]. split; [reflexivity|]. intros _.
      match goal with E : client_check_x509 _ _ _ _ _ = Ok _ |- _ => unfold client_check_x509 in E; cbn [map] in E; rewrite Et, Ed, St1, St2 in E; rename E into Ck end.
      match type of Ck with context [cr_verify_chain ?a ?b ?c ?d ?e ?f] => destruct (cr_verify_chain a b c d e f) as [[]|[]] eqn:Ev end;
        try discriminate Ck. split; [etransitivity; [|exact Ev]; destruct host as [[|? ?]|]; reflexivity|].
      destruct (g_crl _); [discriminate Ck|]. destruct a. exact (statuses_checked C ocsp (e :: rest) Ck).
    + wstep. apply Fin with (key := cr_cert_pubkey C (en_data e)); [exact En | exact Ee | split; [unfold peer_key; cbn; rewrite Np; reflexivity | exists CT_X509, ctx, e, rest; cbn; rewrite Es; auto 6]|].
      left. exists ctx, e, rest. split; [exact Pk|]. split; [reflexivity|]. congruence.
  - destruct l as [|e rest]; [wrun; exact SF|]. wstep. wstep; [exact SF|].
    match goal with E : c_nc c = Some ?m |- _ => rewrite En in E; injection E; intros <- end.
    destruct (require_peer_auth g) eqn:Ra; [wstep; apply SF'|].
    wstep. apply Fin with (key := en_data e); [exact En | exact Ee | split; [reflexivity | exists CT_RAW_PUBLIC_KEY, ctx, e, rest; cbn; rewrite Es; auto 6]|].
    right. exists ctx, e, rest. split; [exact Pk|]. split; [reflexivity|]. exact Ra.
  - wrun. exact SF.
Qed.
Lemma pct_client c n : c_nc c = Some n -> stat c -> peer_cert_type c = Some (n_sct n).
Proof. intros En (_ & _ & _ & Cf). unfold peer_cert_type. rewrite En, (cfg_side _ Cf). reflexivity. Qed.
Lemma hand_wait_cert_cr ct d c : c_state c = ClientWaitCertCr -> live c -> wp (handle_content C ct d) c Q.
Proof.
  intros S L. pose proof L as L0. unfold live in L. rewrite S in L. destruct L as (k & ee & n & M & En & Ee & Np).
  eapply hand_mid; [|exact M | exact L0 | rewrite S; reflexivity | |]; [lia| |].
  - intros kk Nk. unfold process. rewrite bind_get, S. destruct kk; try reflexivity. destruct (Nk _ eq_refl).
  - intros h ty j Pk Mt Sl c1 S1 N1 G1 M1. cbn [app] in M1.
    assert (Cs1 : can_send (c_state c1) = true) by (rewrite S1, S; reflexivity).
    assert (SF : soft c1) by (eapply mid_soft; eassumption).
    unfold process. wstep. rewrite S1, S. cbn [server_slot] in Sl. unfold process_wait_cert_cr.
    rewrite (pct_client _ _ En) in Pk by apply M.
    destruct h; try (apply wp_base_hs; intro; exact SF).
    + injection Mt; intros <-. injection Sl; intros <-. wrun. cbn [Q]. unfold live. cbn [c_state cset_state].
      split; [reflexivity|]. exists k, ee, d, n. split; [exact M1|]. split; [exact (eq_trans N1 En)|]. split; [exact Ee | exact Np].
    + injection Mt; intros <-. injection Sl; intros <-. wstep.
      eapply (wp_certificate false k ee [] d _ n _); [reflexivity | reflexivity | exact M1 | exact (eq_trans N1 En) | exact Ee | exact Np | exact Pk | reflexivity].
Qed.
Lemma hand_wait_cert must ct d c : c_state c = ClientWaitCertificate must -> live c -> wp (handle_content C ct d) c Q.
Proof.
  intros S L. pose proof L as L0. unfold live in L. rewrite S in L. destruct L as (-> & k & ee & cr & n & M & En & Ee & Np).
  eapply hand_mid; [|exact M | exact L0 | rewrite S; reflexivity | |]; [lia| |].
  - intros kk Nk. unfold process. rewrite bind_get, S. destruct kk; try reflexivity. destruct (Nk _ eq_refl).
  - intros h ty j Pk Mt Sl c1 S1 N1 G1 M1. cbn [app] in M1.
    unfold process. wstep. rewrite S1, S. cbn [server_slot] in Sl. destruct (ty =? CERTIFICATE) eqn:Ety; [|discriminate].
    injection Sl; intros <-. apply N.eqb_eq in Ety. subst ty.
    rewrite (pct_client _ _ En) in Pk by apply M.
    eapply (wp_certificate true k ee [CR cr] d _ n _); [congruence | eexists; reflexivity | exact M1 | congruence | exact Ee | exact Np | exact Pk | exact Mt].
Qed.
(* CertificateVerify *)
Lemma hand_wait_cv must ch ct d c : c_state c = ClientWaitCertificateVerify must ch -> live c -> wp (handle_content C ct d) c Q.
Proof.
  intros S L. pose proof L as L0. unfold live in L. rewrite S in L.
  destruct L as (k & ee & crs & cd & n & key & Cr & M & En & Ee & Pn & Cy & ->).
  eapply hand_mid; [|exact M | exact L0 | rewrite S; reflexivity | |]; [lia| |].
  - intros kk Nk. unfold process. rewrite bind_get, S. destruct kk; try reflexivity. destruct (Nk _ eq_refl).
  - intros h ty j Pk Mt Sl c1 S1 N1 G1 M1.
    assert (Cs1 : can_send (c_state c1) = true) by (rewrite S1, S; reflexivity).
    assert (SF : soft c1) by (eapply mid_soft; eassumption).
    assert (SF' : forall n, soft (cset_nc n c1)) by (intro; eapply mid_soft; [apply mid_nc; exact M1 | exact Cs1]).
    unfold process. wstep. rewrite S1, S. cbn [server_slot] in Sl. destruct (ty =? CERTIFICATE_VERIFY) eqn:Ety; [|discriminate].
    injection Sl; intros <-. apply N.eqb_eq in Ety. subst ty. unfold process_wait_cv.
    rewrite (pct_client _ _ En) in Pk by apply M.
    destruct h; try (apply wp_base_hs; intro; exact SF). clear Mt.
    match goal with |- context [memN ?a _] => rename a into alg end.
    wstep. assert (Cf : cfgeq (c_config c1)) by apply M1. destruct (cfg_same _ Cf) as (_ & _ & _ & _ & _ & _ & _ & Sg). rewrite Sg.
    destruct (memN alg (g_sigalgs g)) eqn:Em; cbn [negb]; [|wstep; exact SF]. apply memN_in in Em.
    wstep; [exact SF|].
    match goal with E : c_nc c1 = Some ?m |- _ => rewrite N1, En in E; injection E; intros <- end.
    rewrite N1, En. change (match n_peer_key n with Some pk => Some pk | None => option_map (cr_cert_pubkey C) (n_peer_cert n) end) with (peer_key n).
    rewrite (proj1 Pn). wstep; [|apply SF'].
    match goal with E : suite_verify _ _ _ _ _ = Ok ?u |- _ => unfold suite_verify in E; destruct (memN alg signature_suites); [|discriminate E]; destruct u; rename E into Sv end.
    assert (El : (EE ee :: crs ++ [Cert cd]) ++ [(Server, CERTIFICATE_VERIFY, d)] = EE ee :: crs ++ [Cert cd; CV d])
      by (cbn [app]; rewrite <- app_assoc; reflexivity).
    rewrite El in M1.
    wstep; [|apply SF'].
    match goal with E : tr_digest _ _ = Ok ?x |- _ => apply (mid_digest k _ 7 c1 _ M1) in E; injection E; intros -> end.
    wrun. cbn [Q]. unfold live. cbn [c_state cset_state]. exists k, ee, crs, cd, d, (nset_sigalg n (Some alg)), key, alg.
    split; [exact Cr|]. split; [exact M1|]. split; [reflexivity|]. split; [exact Ee|]. split; [exact Pn|].
    split; [exact Cy|]. split; [|split; reflexivity].
    do 2 eexists. split; [exact Pk|]. split; [exact Em|]. unfold signed_content. unfold certificate_verify_server in Sv.
    rewrite <- !app_assoc in Sv. exact Sv.
Qed.

(* Finished *)
Lemma hand_wait_finished must vh ct d c : able c -> c_state c = ClientWaitFinished must vh -> live c -> wp (handle_content C ct d) c Q.
Proof.
  intros A S L. pose proof L as L0. unfold live in L. rewrite S in L.
  destruct L as (k & ee & crs & cd & vd & n & key & alg & Cr & M & En & Ee & Pn & Cy & Vy & Sg & ->).
  pose proof M as (_ & _ & _ & Etr & _).
  assert (A' : forall t hs, able (cset_hs hs (cset_tr t c))) by (intros; exact A).
  assert (Gs : g_side (c_config c) = Client) by (apply cfg_side, M).
  assert (Cs : can_send (c_state c) = true) by (rewrite S; reflexivity).
  apply wp_handle.
  - intro. eapply mid_soft; eassumption.
  - intros kk _ Nk. eapply wp_ext with (m' := base_process kk); [|apply base_live; exact L0].
    unfold process. rewrite bind_get, S. destruct kk; try reflexivity. destruct (Nk _ eq_refl).
  - intros h ty t Pk Mt Tu. rewrite Gs in *. cbn [other_side] in *.
    destruct (mid_hear _ _ 7%nat _ _ _ _ ltac:(lia) M Tu) as (j & Sl & M1). cbn [server_slot] in Sl.
    destruct (ty =? FINISHED) eqn:Ety; [|discriminate]. injection Sl; intros <-. apply N.eqb_eq in Ety. subst ty.
    set (c1 := cset_hs _ _) in *. assert (A1 : able c1) by apply A'.
    assert (Cs1 : can_send (c_state c1) = true) by exact Cs.
    assert (SF : soft c1) by (eapply mid_soft; eassumption).
    unfold process. wstep. change (c_state c1) with (c_state c). rewrite S. unfold process_client_finished.
    rewrite (pct_client _ _ En) in Pk by apply M.
    destruct h; try (apply wp_base_hs; intro; exact SF). clear Mt.
    match type of Pk with context [HFinished ?x] => rename x into v end.
    assert (El : (EE ee :: crs ++ [Cert cd; CV vd]) ++ [(Server, FINISHED, d)] = EE ee :: crs ++ [Cert cd; CV vd; SFin d])
      by (cbn [app]; rewrite <- app_assoc; reflexivity).
    rewrite El in M1.
    pose proof M1 as (Kok & St1 & Eh1 & Et1 & (x & Ex & Hk & Fr)).
    pose proof Kok as (_ & Sh & _). destruct (suite_hash_of _ _ Sh) as [Hof [klen Is]].
    destruct (handshake_keys_full C _ _ _ _ _ _ _ Hs Is (hk_keys _ _ _ _ _ _ Hk)) as ((_ & _ & Cfin & Sfin) & Csu & Csd & Cst & _).
    wstep; [exact SF | | exact SF].
    match goal with E : c_cipher c1 = Some ?y |- _ => rewrite Ex in E; injection E; intros <- end.
    match goal with E : on_value_error _ _ = Ok ?u |- _ => apply on_value_ok in E; unfold verify_finish in E; rewrite Csd, Sfin, Csu, Hof in E; cbn [fin_key rbind] in E;
      match type of E with context [beqb ?a ?b] => destruct (beqb a b) eqn:Ev; [|discriminate E] end end.
    apply beqb_eq in Ev.
    wstep; [|exact SF]. match goal with E : tr_digest _ _ = Ok ?z |- _ => apply (mid_digest k _ 8 c1 _ M1) in E; injection E; intros -> end.
    destruct must; [wstep; exact SF|]. cbn [crs_of] in Cr. subst crs. cbn [app] in *.
    wstep; [|exact SF]. match goal with E : tr_digest _ _ = Ok ?z |- _ => apply (mid_digest k _ 8 c1 _ M1) in E; injection E; intros -> end.
    wstep; [exact SF | | exact SF].
    match goal with E : c_cipher c1 = Some ?y |- _ => rewrite Ex in E; injection E; intros <- end.
    match goal with E : sign_finish _ _ _ = Ok ?u |- _ => unfold sign_finish in E; rewrite Csd, Cfin, Csu, Hof in E; cbn [fin_key rbind] in E; injection E; intros <- end.
    set (f := cr_hmac C (x_h k) _ _).
    destruct (ser_finished_total C f) as (fd & Es & Lf); [unfold f; rewrite Hs; apply digest_size_small|].
    assert (Gs1 : g_side (c_config c1) = Client) by exact Gs.
    destruct (small_goes C (HFinished f) FINISHED fd (mkTr (feed fd [(x_h k, T k [EE ee; Cert cd; CV vd; SFin d])]) 12) c1 As A1 (fresh_room _ _ Ex Fr) Cs1 eq_refl Es Lf)
      as (c2 & Sn2). { rewrite Gs1, Et1. apply tr_client_finished. }
    apply wpb_send. intros r oc t' hs lg o O Sd Sn. rewrite Sn in Sn2. injection Sn2; intros _ ->. clear Sn2.
    destruct Sd as [(Bad & _)|(ty & fd' & Mt & Es' & Sd)]; [destruct (Bad eq_refl)|]. rewrite Es in Es'. injection Es'; intros <-. clear Es'.
    injection Mt; intros <-. clear Mt. rewrite Gs1, Et1, tr_client_finished in Sd. destruct Sd as [[E1 E2]|(e & E1 & _)]; [|discriminate E1].
    injection E1; intros <-. clear E1. subst hs.
    rewrite Ex in O. destruct oc as [y|]; [|destruct O]. pose proof (write_same _ _ O) as Sy. clear O.
    set (c3 := after_send c1 _ _ _ _ _).
    assert (Et3 : T k [EE ee; Cert cd; CV vd; SFin d; CFin fd] = T k [EE ee; Cert cd; CV vd; SFin d] ++ fd).
    { unfold T. change [EE ee; Cert cd; CV vd; SFin d; CFin fd] with ([EE ee; Cert cd; CV vd; SFin d] ++ [CFin fd]). rewrite app_assoc.
      rewrite heard_plain by (apply is_retry_type; discriminate). reflexivity. }
    wstep.
    2:{ match goal with E : tr_digest _ ?tt = Err _ |- _ => discriminate E end. }
    match goal with E : tr_digest _ _ = Ok ?z |- _ => rename z into cf; assert (Lcf : blen cf <= 255) by (injection E; intros <-; rewrite Hh; apply digest_size_small) end.
    apply wpb_on_cipher; [discriminate|]. intros y' r y2 E1 E2. injection E1; intros <-. clear E1.
    destruct (derive_ap_step C (H k [EE ee; Cert cd; CV vd; SFin d]) cf y Hs) as (vv & y2' & E3).
    { unfold H. rewrite Hh. apply digest_size_small. } { exact Lcf. }
    { destruct Sy as (_ & _ & -> & _). exact Cst. }
    { destruct Sy as (-> & _). apply fresh_limit. exact Fr. }
    rewrite E2 in E3. injection E3; intros -> ->. clear E3.
    wrun. cbn [Q]. unfold live. cbn [c_state cset_state].
    exists k, ee, cd, vd, d, fd, n, key, alg, y2', [].
    split; [exact Kok|]. split; [exact St1|].
    split; [change (c_hs c1 ++ [(Client, FINISHED, fd)] = W k ++ [EE ee; Cert cd; CV vd; SFin d; CFin fd]); rewrite Eh1, <- app_assoc; reflexivity|].
    split; [rewrite Et3; reflexivity|]. split; [exact En|]. split; [exact Ee|]. split; [exact Pn|]. split; [exact Cy|]. split; [exact Vy|].
    split; [exact Sg|]. split; [exists (n_sct n); unfold says; rewrite Ev; exact Pk|]. split; [exact Es|]. split; [reflexivity|].
    split; [|reflexivity].
    exists y, cf, vv, y2'. split; [|split; [exact E2 | repeat split]].
    destruct (hk_keys _ _ _ _ _ _ Hk) as (we & re & z1 & z2 & Z1 & Z2 & Z3). exists we, re, z1, z2. split; [exact Z1|]. split; [exact Z2|].
    eapply same_keys_trans; eassumption.
  - intros h ty e t Pk Mt Tu. apply keyed_soft with (k := k); [exact (proj2 (proj2 (proj2 (proj2 M)))) | exact Cs].
Qed.
Lemma conn_soft c : c_state c = Connected -> conn_ok False c -> soft c.
Proof. intros S K. right; right; left. split; assumption. Qed.
Lemma hand_connected ct d c : c_state c = Connected -> live c -> wp (handle_content C ct d) c Q.
Proof.
  intros S L. pose proof L as L0. unfold live in L. rewrite S in L. pose proof (conn_weaken _ False _ (fun f => match f with end) L) as W0.
  pose proof L as (k & ee & cd & vd & sd & fd & n & key & alg & x & junk & K1 & K2 & K3 & K4 & K5).
  assert (Gs : g_side (c_config c) = Client) by (apply cfg_side, K2).
  apply wp_handle.
  - intro. apply conn_soft; assumption.
  - intros kk _ Nk. unfold process. wstep. rewrite S. destruct kk; try (apply base_live; exact L0). wrun. cbn [Q]. unfold live. cbn [c_state cset_app]. rewrite S. exact L.
  - intros h ty t Pk Mt Tu. rewrite K4, tr_end in Tu. injection Tu; intros <-. unfold process. wstep.
    cbn [c_state cset_hs cset_tr]. rewrite S. apply wp_base_hs. intro. apply conn_soft; [exact S|].
    exists k, ee, cd, vd, sd, fd, n, key, alg, x, (junk ++ [(other_side (g_side (c_config c)), ty, d)]).
    split; [exact K1|]. split; [exact K2|]. split; [cbn [c_hs cset_hs]; rewrite K3, <- !app_assoc; reflexivity|].
    split; [reflexivity|]. repeat (split; [apply K5|]). intros [].
  - intros h ty e t Pk Mt Tu. rewrite K4, tr_end in Tu. discriminate Tu.
Qed.
Lemma hand_start ck ct d c : c_state c = ClientStart ck -> live c -> wp (handle_content C ct d) c Q.
Proof.
  intros S L. pose proof L as L0. unfold live in L. rewrite S in L. destruct L as (_ & _ & _ & _ & _ & Ec & _).
  assert (Ex : enc_on c = false) by (unfold enc_on; rewrite Ec; reflexivity).
  assert (Cs : can_send (c_state c) = true) by (rewrite S; reflexivity).
  apply wp_handle.
  - intro. apply plain_soft; assumption.
  - intros kk _ Nk. unfold process. wstep. rewrite S. apply base_live. exact L0.
  - intros h ty t Pk Mt Tu. unfold process. wstep. cbn [c_state cset_hs cset_tr]. rewrite S. apply wp_base_hs. intro. apply plain_soft; assumption.
  - intros. apply plain_soft; assumption.
Qed.
Lemma live_hand ct d c : able c -> live c -> wp (handle_content C ct d) c (fun r c' => match r with Ok _ => live c' | Err _ => soft c' end).
Proof.
  intros A L. change (wp (handle_content C ct d) c Q).
  destruct (done (c_state c)) eqn:D.
  { unfold wp, Q. pose proof (done_handle C ct d c D) as D'. destruct (fst (handle_content C ct d c)); [apply live_done; exact D' | left; exact D']. }
  destruct (c_state c) eqn:S; try discriminate D; try (unfold live in L; rewrite S in L; destruct L; fail).
  - eapply hand_start; eassumption.
  - eapply hand_wait_sh; eassumption.
  - eapply hand_wait_ee; eassumption.
  - eapply hand_wait_cert_cr; eassumption.
  - eapply hand_wait_cert; eassumption.
  - eapply hand_wait_cv; eassumption.
  - eapply hand_wait_finished; eassumption.
  - eapply hand_connected; eassumption.
Qed.
Lemma live_send d c : live c -> live (snd (send_data C d c)).
Proof.
  intro L. destruct (can_send_app (c_state c)) eqn:Ca.
  2:{ unfold send_data, send_content. rewrite bind_get. cbn [content_type]. change (CT_APPDATA =? CT_APPDATA) with true. rewrite Ca. exact L. }
  pose proof (state_send C (KAppData d) c) as S'. fold (send_data C d) in S'.
  destruct (done (c_state c)) eqn:D; [apply live_done; congruence|].
  destruct (c_state c) eqn:S; try discriminate; try (unfold live in L; rewrite S in L; destruct L; fail).
  unfold live in *. rewrite S'. rewrite S in L.
  pose proof (send_said C (KAppData d) c) as Sd. pose proof (sending_content C (KAppData d) c) as Sc. unfold send_data in *.
  destruct (send_content C (KAppData d) c) as [r c']. cbn [snd] in *. pose proof (cut_after_send _ _ Sc) as E. destruct Sc as (_ & O & _).
  destruct (Sd r c' eq_refl) as [Et Eh]. rewrite E, Et, Eh.
  apply (conn_moves (room c) _ (cset_out (c_out c') (cset_log (c_log c') (cset_hs (c_hs c) (cset_tr (c_tr c) c)))) (c_cipher c'));
    [apply write_moves; exact O | apply room_write; exact O|].
  destruct c; exact L.
Qed.
Lemma client_run ops c : able c -> live c -> able (run C ops c) /\ live (run C ops c).
Proof.
  intros A L. apply (goodE_run C able (able_stable C)) with (J := soft); try (intros; assumption).
  - exact live_read.
  - exact live_soft.
  - intros code c0 Lc A0. exact (soft_fail code c0 Lc A0).
  - intros ct d c0 A0 L0. apply live_hand; assumption.
  - intros d c0 _ L0. apply live_send. exact L0.
  - intros c0 A0 L0. apply live_init; assumption.
  - intros c0 _ _. apply live_done, done_close_r.
  - intros c0 _ _. apply live_done, done_close_s.
  - split; assumption.
Qed.
End client.

Lemma client_live' C g c : aead_sized C -> hmac_sized C -> hash_sized C -> g_side g = Client -> reachable C g c ->
  exists host ocsp rng hl hc, (exists r, hl = hc :: r) /\ able c /\ live C g host ocsp rng hl hc c.
Proof.
  intros As Hs Hh Hg (c0 & ops & K & ->). pose proof (created_able _ _ K) as A. apply created_cases in K.
  destruct K as [(_ & host & ocsp & unique & rng & t & -> & flip & Et) | (Sd & _)]; [|congruence].
  apply tr_new_shape in Et as (hl & Nl & ->). destruct hl as [|hc r]; [destruct (Nl eq_refl)|].
  exists host, ocsp, rng, (hc :: r), hc. split; [eexists; reflexivity|]. apply client_run; try assumption; [eexists; reflexivity|].
  unfold live. cbn. repeat split. left. reflexivity.
Qed.
Lemma client_live C g c : aead_sized C -> hmac_sized C -> hash_sized C -> g_side g = Client -> reachable C g c ->
  exists host ocsp rng hl hc, live C g host ocsp rng hl hc c.
Proof.
  intros As Hs Hh Hg R. destruct (client_live' C g c As Hs Hh Hg R) as (a & b & d & e & f & _ & _ & L).
  exists a, b, d, e, f. exact L.
Qed.
(* the first hash is that of a suite of the configuration *)
Lemma client_live_hash C g c : aead_sized C -> hmac_sized C -> hash_sized C -> g_side g = Client -> reachable C g c ->
  exists host ocsp rng hl hc, live C g host ocsp rng hl hc c /\ exists s, In s (g_suites g) /\ suite_hash s = Some hc.
Proof.
  intros As Hs Hh Hg (c0 & ops & K & ->). pose proof (created_able _ _ K) as A. apply created_cases in K.
  destruct K as [(_ & host & ocsp & unique & rng & t & -> & flip & Et) | (Sd & _)]; [|congruence].
  pose proof (tr_new_hashes _ _ _ Et) as Hl.
  apply tr_new_shape in Et as (hl & Nl & ->). destruct hl as [|hc r]; [destruct (Nl eq_refl)|].
  exists host, ocsp, rng, (hc :: r), hc. split; [|apply Hl; left; reflexivity].
  apply client_run; try assumption; [eexists; reflexivity|].
  unfold live. cbn. repeat split. left. reflexivity.
Qed.
