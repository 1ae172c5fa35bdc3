(* What the invariant of the client says. *)
From Verif Require Import Base P_Base Iana Crypto Config Serial Ext Msg Hkdf Cipher Kex Sig Ocsp Transcript Conn
  S_Hist S_Conn S_State S_Send S_Nonce S_Alert S_Utils S_Keys S_Ocsp S_Auth
  P_Monad P_Frame P_Hist P_Send P_Wp P_State P_Speak P_Alert P_Keys P_Tr P_Auth P_Client.

Section facts.
Variables (C : crypto) (g : config) (c : conn).
Hypothesis As : aead_sized C.
Hypothesis Hs : hmac_sized C.
Hypothesis Hh : hash_sized C.
Hypothesis Hg : g_side g = Client.
Hypothesis R : reachable C g c.


Lemma client_connected : c_state c = Connected -> 
  exists hello sh ee cd vd sd fd junk n suite h hc group shared key alg,
    map token_of hello = hello_word n /\ is_retry (Server, SERVER_HELLO, sh) = false /\
    c_hs c = hello ++ [(Server, SERVER_HELLO, sh); EE ee; Cert cd; CV vd; SFin sd; CFin fd] ++ junk /\
    (room c -> junk = []) /\
    hello_says C g (c_rng c) sh suite group shared /\ suite_hash suite = Some h /\
    (exists nc, c_nc c = Some nc /\ n_suite nc = Some suite /\ n_sigalg nc = Some alg /\ ee_says C g ee nc) /\
    cert_says C g (c_host c) (c_ocsp c) cd key /\
    cv_says C g vd key (heard_hash C h hc false (hello ++ [(Server, SERVER_HELLO, sh); EE ee; Cert cd])) alg /\
    finished_says C h Server shared (heard_hash C h hc false (hello ++ [(Server, SERVER_HELLO, sh)]))
      (heard_hash C h hc false (hello ++ [(Server, SERVER_HELLO, sh); EE ee; Cert cd; CV vd])) sd /\
    c_tr c = mkTr [(h, heard C h hc false (hello ++ [(Server, SERVER_HELLO, sh); EE ee; Cert cd; CV vd; SFin sd; CFin fd]))] 12 /\
    (exists x, c_cipher c = Some x /\
       application_keys C suite Client shared (heard_hash C h hc false (hello ++ [(Server, SERVER_HELLO, sh)]))
         (heard_hash C h hc false (hello ++ [(Server, SERVER_HELLO, sh); EE ee; Cert cd; CV vd; SFin sd])) x).
Proof.
  intro S. destruct (client_live C g c As Hs Hh Hg R) as (host & ocsp & rng & hl & hc & L). unfold live in L. rewrite S in L.
  destruct L as (k & ee & cd & vd & sd & fd & nc & key & alg & x & junk & (K1 & K2 & K3 & K4 & _) & (S1 & S2 & S3 & S4) & Eh & Et & En & (Ee1 & Ee2) & _ & Cy & Vy & Sg & Fy & _ & Ex & Ak & J).
  exists (x_w0 k), (x_d1 k), ee, cd, vd, sd, fd, junk, (x_n k), (x_suite k), (x_h k), hc, (x_group k), (x_shared k), key, alg.
  rewrite S1, S2, S3.
  assert (E : forall l, x_w0 k ++ (Server, SERVER_HELLO, x_d1 k) :: l = W k ++ l) by (intro; unfold W; rewrite <- app_assoc; reflexivity).
  assert (Ew : W k = W k ++ []) by (rewrite app_nil_r; reflexivity).
  rewrite (E []). cbn [app]. rewrite !E.
  unfold H, T in *.
  split; [exact K1|]. split; [exact K3|]. split; [exact Eh|]. split; [exact J|]. split; [exact K4|]. split; [exact K2|].
  split; [exists nc; repeat (split; [assumption|]); exact Ee1|]. split; [exact Cy|].
  split; [exact Vy|]. split; [exact Fy|]. split; [exact Et|]. exists x. split; assumption.
Qed.

(* C16 *)
Lemma cert_chain host service cd key : require_peer_auth g = true -> cert_says C g host service cd key ->
  exists ctx leaf rest, says C (Some CT_X509) cd (HCert ctx (leaf :: rest)) /\ key = cr_cert_pubkey C (en_data leaf) /\
    cr_verify_chain C (g_trust g) (g_depth g) (match host with Some [] => None | _ => host end) (en_data leaf) (map en_data rest) = Ok tt /\
    statuses_ok C service (leaf :: rest).
Proof.
  intros Ra [(ctx & e & rest & Sy & Ek & V)|(ctx & e & rest & _ & _ & Bad)]; [|congruence].
  exists ctx, e, rest. auto.
Qed.
Lemma client_authenticated : require_peer_auth g = true -> c_state c = Connected ->
  exists hello cd vd sd suite h hc group shared alg sig ctx leaf rest sh ee fd junk cct,
    c_hs c = hello ++ [(Server, SERVER_HELLO, sh); EE ee; Cert cd; CV vd; SFin sd; CFin fd] ++ junk /\
    hello_says C g (c_rng c) sh suite group shared /\ suite_hash suite = Some h /\
    says C (Some CT_X509) cd (HCert ctx (leaf :: rest)) /\
    cr_verify_chain C (g_trust g) (g_depth g) (match c_host c with Some [] => None | _ => c_host c end)
      (en_data leaf) (map en_data rest) = Ok tt /\
    says C cct vd (HCertVerify alg sig) /\ In alg (g_sigalgs g) /\
    cr_sig_verify C alg (cr_cert_pubkey C (en_data leaf)) sig
      (signed_content Server (heard_hash C h hc false (hello ++ [(Server, SERVER_HELLO, sh); EE ee; Cert cd]))) = Ok tt /\
    finished_says C h Server shared (heard_hash C h hc false (hello ++ [(Server, SERVER_HELLO, sh)]))
      (heard_hash C h hc false (hello ++ [(Server, SERVER_HELLO, sh); EE ee; Cert cd; CV vd])) sd.
Proof.
  intros Ra S. destruct (client_connected S) as (hello & sh & ee & cd & vd & sd & fd & junk & n & suite & h & hc & group & shared & key & alg & _ & _ & Eh & _ & Hy & Sh & _ & Cy & Vy & Fy & _).
  destruct (cert_chain _ _ _ _ Ra Cy) as (ctx & leaf & rest & Sy & -> & V & _). destruct Vy as (cct & sig & Vs & Va & Vk).
  exists hello, cd, vd, sd, suite, h, hc, group, shared, alg, sig, ctx, leaf, rest, sh, ee, fd, junk, cct.
  repeat (split; [assumption|]). assumption.
Qed.

Lemma client_statuses : require_peer_auth g = true -> c_state c = Connected ->
  exists pre cd post ctx l, c_hs c = pre ++ Cert cd :: post /\ says C (Some CT_X509) cd (HCert ctx l) /\ l <> [] /\
    statuses_ok C (c_ocsp c) l.
Proof.
  intros Ra S. destruct (client_connected S) as (hello & sh & ee & cd & vd & sd & fd & junk & n & suite & h & hc & group & shared & key & alg & _ & _ & Eh & _ & _ & _ & _ & Cy & _).
  destruct (cert_chain _ _ _ _ Ra Cy) as (ctx & leaf & rest & Sy & _ & _ & V).
  exists (hello ++ [(Server, SERVER_HELLO, sh); EE ee]), cd, ([CV vd; SFin sd; CFin fd] ++ junk), ctx, (leaf :: rest).
  split; [rewrite Eh, <- app_assoc; reflexivity|]. split; [exact Sy|]. split; [discriminate | exact V].
Qed.

Lemma stapled_good : require_peer_auth g = true -> c_state c = Connected ->
  exists hs1 cd hs2 ctx l, c_hs c = hs1 ++ Cert cd :: hs2 /\ says C (Some CT_X509) cd (HCert ctx l) /\
    forall pre e i post der, l = pre ++ e :: i :: post -> ext_get STATUS_REQUEST (en_exts e) = Some (EOcspStatus der) ->
    exists rs, cr_load_ocsp_res C der = Ok rs /\ rs_good rs = true.
Proof.
  intros Ra S. destruct (client_statuses Ra S) as (hs1 & cd & hs2 & ctx & l & A & B & _ & D).
  exists hs1, cd, hs2, ctx, l. split; [exact A|]. split; [exact B|]. intros pre e i post der El Es.
  specialize (D pre e i post El). unfold status_ok in D. rewrite Es in D.
  destruct D as (req & until & _ & rq & rs & sc & _ & E1 & _ & E2 & _). eauto.
Qed.

(* C19 *)
Lemma client_settled : settled (c_state c) = true ->
  exists hello sh ee rest nc suite group shared,
    c_hs c = hello ++ [(Server, SERVER_HELLO, sh); EE ee] ++ rest /\ c_nc c = Some nc /\
    hello_says C g (c_rng c) sh suite group shared /\ n_suite nc = Some suite /\ ee_says C g ee nc /\
    (signed (c_state c) = true -> exists alg vd cct sig, n_sigalg nc = Some alg /\ In alg (g_sigalgs g) /\
       In (CV vd) rest /\ says C cct vd (HCertVerify alg sig)).
Proof.
  intro S. destruct (client_live C g c As Hs Hh Hg R) as (host & ocsp & rng & hl & hc & L). unfold live in L.
  assert (E : forall k l, x_w0 k ++ (Server, SERVER_HELLO, x_d1 k) :: l = W k ++ l) by (intros; unfold W; rewrite <- app_assoc; reflexivity).
  destruct (c_state c) eqn:Sc; try discriminate S.
  - destruct L as (k & ee & n & ((K1 & K2 & K3 & K4 & _) & (_ & _ & S3 & _) & Eh & _) & En & (Ee1 & Ee2) & _).
    exists (x_w0 k), (x_d1 k), ee, [], n, (x_suite k), (x_group k), (x_shared k). rewrite S3. cbn [app]. rewrite E.
    repeat (split; [assumption|]). discriminate.
  - destruct L as (_ & k & ee & cr & n & ((K1 & K2 & K3 & K4 & _) & (_ & _ & S3 & _) & Eh & _) & En & (Ee1 & Ee2) & _).
    exists (x_w0 k), (x_d1 k), ee, [CR cr], n, (x_suite k), (x_group k), (x_shared k). rewrite S3. cbn [app]. rewrite E.
    repeat (split; [assumption|]). discriminate.
  - destruct L as (k & ee & crs & cd & n & key & _ & ((K1 & K2 & K3 & K4 & _) & (_ & _ & S3 & _) & Eh & _) & En & (Ee1 & Ee2) & _).
    exists (x_w0 k), (x_d1 k), ee, (crs ++ [Cert cd]), n, (x_suite k), (x_group k), (x_shared k). rewrite S3. cbn [app]. rewrite E.
    repeat (split; [assumption|]). discriminate.
  - destruct L as (k & ee & crs & cd & vd & n & key & alg & _ & ((K1 & K2 & K3 & K4 & _) & (_ & _ & S3 & _) & Eh & _) & En & (Ee1 & Ee2) & _ & _ & (cct & sig & Vs & Va & _) & Sg & _).
    exists (x_w0 k), (x_d1 k), ee, (crs ++ [Cert cd; CV vd]), n, (x_suite k), (x_group k), (x_shared k). rewrite S3. cbn [app]. rewrite E.
    repeat (split; [assumption|]). intros _. exists alg, vd, cct, sig. repeat (split; [assumption|]). split; [|exact Vs].
    apply in_or_app. right. right. left. reflexivity.
  - destruct L as (k & ee & cd & vd & sd & fd & nc & key & alg & x & junk & (K1 & K2 & K3 & K4 & _) & (S1 & S2 & S3 & S4) & Eh & Et & En & (Ee1 & Ee2) & _ & _ & (cct & sig & Vs & Va & _) & Sg & _).
    exists (x_w0 k), (x_d1 k), ee, ([Cert cd; CV vd; SFin sd; CFin fd] ++ junk), nc, (x_suite k), (x_group k), (x_shared k). rewrite S3. cbn [app]. rewrite E.
    repeat (split; [assumption|]). intros _. exists alg, vd, cct, sig. repeat (split; [assumption|]). split; [|exact Vs].
    right. left. reflexivity.
Qed.

(* C23 *)
Lemma tok_w host rng k : ctx_ok C g host rng k -> map token_of (W k) = hello_word (x_n k) ++ [TSH].
Proof.
  intros (K1 & _ & K3 & _). unfold W. rewrite map_app, K1. cbn [map token_of m_side m_type fst snd].
  change (SERVER_HELLO =? 2) with true. cbv iota. rewrite K3. reflexivity.
Qed.
Lemma at_slotn_prefix n i l : (3 <= i)%nat -> at_slotn n i l -> exists cr, prefix l (word n cr).
Proof.
  intros Hi A. unfold word, at_slotn in *.
  assert (X : forall (a : list token) (b c0 d : list token), a = d -> prefix (a ++ b) (d ++ (b ++ c0))).
  { intros a b c0 d ->. exists c0. rewrite app_assoc. reflexivity. }
  do 3 (destruct i as [|i]; [lia|]). clear Hi.
  destruct i as [|[|[|[|[|i]]]]].
  - exists false. rewrite A. apply (X _ [TSH]). reflexivity.
  - exists false. rewrite A. apply (X _ [TSH; TEE]). reflexivity.
  - destruct A as [A|A]; [exists false | exists true]; rewrite A; [apply (X _ [TSH; TEE]) | apply (X _ [TSH; TEE; TCR])]; reflexivity.
  - destruct A as [cr A]. exists cr. rewrite A. destruct cr; [apply (X _ [TSH; TEE; TCR; TCert]) | apply (X _ [TSH; TEE; TCert])]; reflexivity.
  - destruct A as [cr A]. exists cr. rewrite A. destruct cr; [apply (X _ [TSH; TEE; TCR; TCert; TCV]) | apply (X _ [TSH; TEE; TCert; TCV])]; reflexivity.
  - destruct A as [cr A]. exists cr. rewrite A. destruct cr; [apply (X _ [TSH; TEE; TCR; TCert; TCV; TSFin]) | apply (X _ [TSH; TEE; TCert; TCV; TSFin])]; reflexivity.
Qed.
Lemma at_slot_prefix i l : (3 <= i)%nat -> at_slot i l -> exists n cr, prefix l (word n cr).
Proof. intros Hi [n A]. exists n. eapply at_slotn_prefix; eassumption. Qed.
Lemma client_order : running (c_state c) = true -> (c_state c = Connected -> room c) -> exists n, handshake_prefix n (c_hs c).
Proof.
  intros D Rm. destruct (client_live C g c As Hs Hh Hg R) as (host & ocsp & rng & hl & hc & L). unfold live in L.
  assert (M : forall k tail i, mid C g host ocsp rng hc k tail i c -> map token_of (c_hs c) = hello_word (x_n k) ++ [TSH] ++ map token_of tail).
  { intros k tail i (K & (_ & _ & S3 & _) & Eh & _). rewrite <- S3 in K. rewrite Eh, map_app, (tok_w _ _ k K), <- app_assoc. reflexivity. }
  destruct (c_state c) eqn:Sc; try discriminate D; try destruct L; unfold handshake_prefix.
  - exists 0%nat, false. destruct H0 as (_ & -> & _). exists (word 0 false). reflexivity.
  - destruct H as (_ & _ & Hi & At). apply at_slot_prefix in At; [|lia]. exact At.
  - destruct H as (_ & gr & j & n & _ & _ & Wd & _). exists n, false. rewrite Wd. eexists. reflexivity.
  - destruct H as [Mi _]. exists (x_n x), false. rewrite (M _ _ _ Mi). exists [TEE; TCert; TCV; TSFin; TCFin]. cbn [map app]. unfold word. rewrite <- app_assoc. reflexivity.
  - destruct H as (ee & n & Mi & _). exists (x_n x), false. rewrite (M _ _ _ Mi). exists [TCert; TCV; TSFin; TCFin]. unfold word. rewrite <- app_assoc. reflexivity.
  - destruct H0 as (k & ee & cr & n & Mi & _). exists (x_n k), true. rewrite (M _ _ _ Mi). exists [TCert; TCV; TSFin; TCFin]. unfold word. rewrite <- app_assoc. reflexivity.
  - destruct H as (ee & crs & cd & n & key & Cr & Mi & _). exists (x_n x), must. rewrite (M _ _ _ Mi). exists [TCV; TSFin; TCFin]. unfold word. rewrite <- app_assoc.
    destruct must; [destruct Cr as [dd ->] | cbn in Cr; subst crs]; reflexivity.
  - destruct H as (ee & crs & cd & vd & n & key & alg & Cr & Mi & _). exists (x_n x), must. rewrite (M _ _ _ Mi). exists [TSFin; TCFin]. unfold word. rewrite <- app_assoc.
    destruct must; [destruct Cr as [dd ->] | cbn in Cr; subst crs]; reflexivity.
  - destruct H as (ee & cd & vd & sd & fd & nc & key & alg & y & junk & K & (_ & _ & S3 & _) & Eh & Q). rewrite <- S3 in K.
    assert (junk = []) by (apply Q, Rm; reflexivity). subst junk.
    exists (x_n x), false. rewrite Eh, map_app, (tok_w _ _ _ K), <- app_assoc. exists []. rewrite app_nil_r. unfold word. reflexivity.
Qed.
(* C24 *)
Lemma client_transcript : hashing (c_state c) = true -> (c_state c = Connected -> room c) ->
  exists nc suite h hc, c_nc c = Some nc /\ n_suite nc = Some suite /\ suite_hash suite = Some h /\
    tr_digest C (c_tr c) = Ok (heard_hash C h hc false (c_hs c)).
Proof.
  intros Ha Rm. destruct (client_live C g c As Hs Hh Hg R) as (host & ocsp & rng & hl & hc & L). unfold live in L.
  assert (M : forall k tail i nc, mid C g host ocsp rng hc k tail i c -> c_nc c = Some nc -> n_suite nc = Some (x_suite k) ->
     exists nc suite h hc, c_nc c = Some nc /\ n_suite nc = Some suite /\ suite_hash suite = Some h /\
    tr_digest C (c_tr c) = Ok (heard_hash C h hc false (c_hs c))).
  { intros k tail i nc ((_ & Sh & _) & _ & Eh & Et & _) En Es. exists nc, (x_suite k), (x_h k), hc. repeat (split; [assumption|]).
    rewrite Et, Eh. reflexivity. }
  destruct (c_state c) eqn:Sc; try discriminate Ha.
  - destruct L as (k & Mi & En). eapply M; [exact Mi | exact En | reflexivity].
  - destruct L as (k & ee & n & Mi & En & (_ & Es) & _). eapply M; eassumption.
  - destruct L as (_ & k & ee & cr & n & Mi & En & (_ & Es) & _). eapply M; eassumption.
  - destruct L as (k & ee & crs & cd & n & key & Cr & Mi & En & (_ & Es) & _). eapply M; eassumption.
  - destruct L as (k & ee & crs & cd & vd & n & key & alg & Cr & Mi & En & (_ & Es) & _). eapply M; eassumption.
  - destruct L as (k & ee & cd & vd & sd & fd & nc & key & alg & y & junk & (_ & Sh & _) & _ & Eh & Et & En & (_ & Es) & Q).
    assert (junk = []) by (apply Q, Rm; reflexivity). subst junk. exists nc, (x_suite k), (x_h k), hc. repeat (split; [assumption|]).
    rewrite Et, Eh, app_nil_r. reflexivity.
Qed.
Lemma thash_plain h hc ms : forallb (fun m => negb (is_retry m)) ms = true -> heard_hash C h hc false ms = rfc_transcript C h ms.
Proof. intro F. unfold heard_hash, rfc_transcript. rewrite heard_rfc_plain by exact F. reflexivity. Qed.
(* C19: what is refused *)
Lemma last_one (a b : list hmsg) m n : a ++ [m] = b ++ [n] -> m = n.
Proof. intro E. apply app_inj_tail in E as [_ E]. exact E. Qed.
Lemma ee_ends exts d : c_state c = ClientWaitEncryptedExtensions -> says C None d (HEncExt exts) ->
  wp (handle_content C CT_HANDSHAKE d) c (fun r c' =>
    match r with
    | Ok _ => c_state c' = ClientWaitCertCr /\ exists sd, c_hs c' = c_hs c ++ [(sd, ENCRYPTED_EXTENSIONS, d)]
    | Err _ => c_state c' = c_state c
    end).
Proof.
  intros S Sy. apply wp_handle.
  - reflexivity.
  - intros k Pk Nk. rewrite (parse_content_pct C (Some None) (peer_cert_type c) d _ Sy eq_refl) in Pk. injection Pk; intros <-. destruct (Nk _ eq_refl).
  - intros h ty t Pk Mt Tu. rewrite (parse_content_pct C (Some None) (peer_cert_type c) d _ Sy eq_refl) in Pk. injection Pk; intros <-.
    injection Mt; intros <-. unfold process. wstep. cbn [c_state cset_hs cset_tr]. rewrite S. apply wp_ee. unfold ee_body.
    apply (wpb_rel _ _ _ negR); [apply negR_client|]. intros r c' [E _] _. destruct r.
    + wrun. split; [reflexivity|]. eexists. cbn. rewrite E. reflexivity.
    + rewrite E. cbn. congruence.
  - reflexivity.
Qed.
Lemma ee_refused exts d : c_state c = ClientWaitEncryptedExtensions -> says C None d (HEncExt exts) -> ~ ee_acceptable g exts ->
  exists e c', handle_content C CT_HANDSHAKE d c = (Err e, c') /\ can_send (c_state c') = true /\ room c'.
Proof.
  intros S Sy N. pose proof R as (c0 & ops & Cr & Ec). pose proof (created_able _ _ Cr) as A.
  destruct (client_live' C g c As Hs Hh Hg R) as (host & ocsp & rng & hl & hc & Hhl & Ab & L).
  pose proof (ee_ends exts d S Sy) as W1.
  pose proof (live_hand C g host ocsp rng hl hc As Hs Hh Hg CT_HANDSHAKE d c Ab L) as W2. unfold wp in W1, W2.
  unfold live in L. rewrite S in L. destruct L as (k0 & (_ & _ & Eh0 & _) & _).
  destruct (handle_content C CT_HANDSHAKE d c) as [[[]|e] c'] eqn:Eh; cbn [fst snd] in W1, W2.
  - exfalso. destruct W1 as [S' [sd Eh']]. unfold live in W2. rewrite S' in W2. destruct W2 as (k & ee & n & (_ & _ & Eh2 & _) & _ & (Ee & _) & _).
    rewrite Eh' in Eh2. apply last_one in Eh2. injection Eh2; intros <- _.
    apply N. destruct Ee as (exts' & Sy' & E1 & E2 & E3 & E4 & _). unfold says in *. rewrite Sy in Sy'. injection Sy'; intros <-.
    split; [|split; [|split]]; intros x Ex; rewrite Ex in *.
    + destruct E1 as (code & -> & ? & _). eauto.
    + destruct E2 as (p & -> & ? & _). eauto.
    + destruct E3 as (p & -> & ? & _). eauto.
    + destruct E4 as (p & -> & ? & _). eauto.
  - exists e, c'. split; [reflexivity|]. rewrite S in W1. destruct W2 as [D|[Z|[[Z _]|Z]]]; [rewrite W1 in D; discriminate| | |exact Z].
    + destruct Z as [Z _]. rewrite W1 in Z. destruct Z.
    + congruence.
Qed.
Lemma sh_ends f s ch random sid suite exts d : c_state c = ClientWaitServerHello f s ch -> says C None d (HServerHello false random sid suite exts) ->
  wp (handle_content C CT_HANDSHAKE d) c (fun r c' =>
    match r with
    | Ok _ => c_state c' = ClientWaitEncryptedExtensions /\ exists sd, c_hs c' = c_hs c ++ [(sd, SERVER_HELLO, d)]
    | Err _ => c_state c' = c_state c
    end).
Proof.
  intros S Sy. apply wp_handle.
  - reflexivity.
  - intros k Pk Nk. rewrite (parse_content_pct C (Some None) (peer_cert_type c) d _ Sy eq_refl) in Pk. injection Pk; intros <-. destruct (Nk _ eq_refl).
  - intros h ty t Pk Mt Tu. rewrite (parse_content_pct C (Some None) (peer_cert_type c) d _ Sy eq_refl) in Pk. injection Pk; intros <-.
    injection Mt; intros <-. unfold process. wstep. cbn [c_state cset_hs cset_tr]. rewrite S. unfold process_wait_sh.
    set (m := (_, SERVER_HELLO, d)). set (c1 := cset_hs _ _).
    assert (Fin : forall c2, c_state c2 = c_state c -> c_hs c2 = c_hs c ++ [m] -> wp (client_process_sh C s random exts) c2
       (fun r c' => match r with
        | Ok _ => c_state c' = ClientWaitEncryptedExtensions /\ exists sd, c_hs c' = c_hs c ++ [(sd, SERVER_HELLO, d)]
        | Err _ => c_state c' = c_state c
        end)).
    { clear c1. intros c2 S2 H2. unfold client_process_sh, client_negociate_hello. wrun; try exact S2.
      apply wpb_on_cipher; [intro; exact S2|]. intros x r x' _ _. destruct r; [|exact S2]. wrun; [|exact S2].
      apply wpb_on_cipher; [intro; exact S2|]. intros y r' y' _ _. destruct r'; [|exact S2]. wrun.
      split; [reflexivity|]. eexists. exact H2. }
    assert (S1 : c_state c1 = c_state c) by reflexivity. assert (H1 : c_hs c1 = c_hs c ++ [m]) by reflexivity. rewrite S in Fin.
    clearbody c1. wrun; try (rewrite S1; exact S); try (apply Fin; [exact (eq_trans S1 S) | exact H1]).
    all: try (cbn; congruence).
    apply wpb_send. intros r oc t' hs lg o O Sd _. destruct Sd as [-> ->]. destruct r; [|cbn; congruence].
    apply Fin; [cbn; congruence | exact H1].
  - reflexivity.
Qed.
Lemma sh_refused f s ch random sid suite exts d : c_state c = ClientWaitServerHello f s ch ->
  says C None d (HServerHello false random sid suite exts) -> ~ sh_acceptable g suite exts ->
  exists e c', handle_content C CT_HANDSHAKE d c = (Err e, c') /\ can_send (c_state c') = true.
Proof.
  intros S Sy N.
  destruct (client_live' C g c As Hs Hh Hg R) as (host & ocsp & rng & hl & hc & Hhl & Ab & L).
  pose proof (sh_ends _ _ _ _ _ _ _ d S Sy) as W1.
  pose proof (live_hand C g host ocsp rng hl hc As Hs Hh Hg CT_HANDSHAKE d c Ab L) as W2. unfold wp in W1, W2.
  destruct (handle_content C CT_HANDSHAKE d c) as [[[]|e] c'] eqn:Eh; cbn [fst snd] in W1, W2.
  - exfalso. destruct W1 as [S' [sd Eh']]. unfold live in W2. rewrite S' in W2. destruct W2 as (k & ((_ & _ & _ & K4 & _) & _ & Eh2 & _) & _).
    rewrite Eh', app_nil_r in Eh2. apply last_one in Eh2. injection Eh2; intros -> _.
    apply N. destruct K4 as (random' & sid' & exts' & pub & j & Sy' & Ev & Ek & _ & I1 & I2). unfold says in *. rewrite Sy in Sy'.
    injection Sy'; intros -> -> _ _. split; [exact I1|]. split; [exact Ev|]. eauto.
  - exists e, c'. split; [reflexivity|]. rewrite W1, S. reflexivity.
Qed.
Lemma client_authenticated_rfc : require_peer_auth g = true -> c_state c = Connected ->
  forallb (fun m => negb (is_retry m)) (c_hs c) = true ->
  exists hello cd vd sd suite h group shared alg sig ctx leaf rest sh ee fd junk cct,
    c_hs c = hello ++ [(Server, SERVER_HELLO, sh); EE ee; Cert cd; CV vd; SFin sd; CFin fd] ++ junk /\
    hello_says C g (c_rng c) sh suite group shared /\ suite_hash suite = Some h /\
    says C (Some CT_X509) cd (HCert ctx (leaf :: rest)) /\
    cr_verify_chain C (g_trust g) (g_depth g) (match c_host c with Some [] => None | _ => c_host c end)
      (en_data leaf) (map en_data rest) = Ok tt /\
    says C cct vd (HCertVerify alg sig) /\ In alg (g_sigalgs g) /\
    cr_sig_verify C alg (cr_cert_pubkey C (en_data leaf)) sig
      (signed_content Server (rfc_transcript C h (hello ++ [(Server, SERVER_HELLO, sh); EE ee; Cert cd]))) = Ok tt /\
    finished_says C h Server shared (rfc_transcript C h (hello ++ [(Server, SERVER_HELLO, sh)]))
      (rfc_transcript C h (hello ++ [(Server, SERVER_HELLO, sh); EE ee; Cert cd; CV vd])) sd.
Proof.
  intros Ra S F. destruct (client_authenticated Ra S) as (hello & cd & vd & sd & suite & h & hc & group & shared & alg & sig & ctx & leaf & rest & sh & ee & fd & junk & cct & Eh & H1 & H2 & H3 & H4 & H5 & H6 & H7 & H8).
  assert (F' : forall l r, [(Server, SERVER_HELLO, sh); EE ee; Cert cd; CV vd; SFin sd; CFin fd] = l ++ r ->
    forallb (fun m => negb (is_retry m)) (hello ++ l) = true).
  { intros l r E. rewrite Eh, E in F. rewrite !forallb_app in F. rewrite forallb_app.
    apply andb_true_iff in F as [-> F]. apply andb_true_iff in F as [F _]. apply andb_true_iff in F as [-> _]. reflexivity. }
  rewrite !thash_plain in H7 by (eapply F'; reflexivity). rewrite !thash_plain in H8 by (eapply F'; reflexivity).
  exists hello, cd, vd, sd, suite, h, group, shared, alg, sig, ctx, leaf, rest, sh, ee, fd, junk, cct.
  repeat (split; [assumption|]). assumption.
Qed.
(* C22: a further HelloRetryRequest must repeat the first *)
Lemma second_retry s ch d random sid suite exts c' : c_state c = ClientWaitServerHello false s ch ->
  says C None d (HServerHello true random sid suite exts) -> handle_content C CT_HANDSHAKE d c = (Ok tt, c') ->
  exists group key n, s = [(group, key)] /\ ext_get KEY_SHARE exts = Some (EKeyShareRetry group) /\
    c_nc c = Some n /\ n_suite n = Some suite.
Proof.
  intros S Sy. destruct (client_live' C g c As Hs Hh Hg R) as (host & ocsp & rng & hl & hc & Hhl & Ab & L).
  unfold live in L. rewrite S in L.
  assert (X : wp (handle_content C CT_HANDSHAKE d) c (fun r c' => r = Ok tt ->
    exists group key n, s = [(group, key)] /\ ext_get KEY_SHARE exts = Some (EKeyShareRetry group) /\
    c_nc c = Some n /\ n_suite n = Some suite)).
  { apply wp_handle.
    - intros e E. discriminate E.
    - intros k Pk Nk. rewrite (parse_content_pct C (Some None) (peer_cert_type c) d _ Sy eq_refl) in Pk. injection Pk; intros <-. destruct (Nk _ eq_refl).
    - intros h ty t Pk Mt Tu. rewrite (parse_content_pct C (Some None) (peer_cert_type c) d _ Sy eq_refl) in Pk. injection Pk; intros <-.
      injection Mt; intros <-. unfold process. wstep. cbn [c_state cset_hs cset_tr]. rewrite S.
      destruct L as [(_ & Sd & I & _)|(St & group & j & n & Es & Ig & _ & _ & suite0 & h0 & Is & _ & En & _ & Ec & Et & _)].
      { exfalso. rewrite Sd in Tu. cbn [other_side] in Tu. unfold tr_update in Tu.
        destruct (t_i (c_tr c)) as [|[|[|i]]]; try lia.
        do 9 (destruct i; [discriminate Tu|]). lia. }
      unfold process_wait_sh. wstep. cbn [c_config cset_hs cset_tr]. rewrite Ec. cbn [g_suites restrict].
      destruct (memN suite [suite0]) eqn:M1; cbn [negb]; [|wrun; discriminate].
      wstep. unfold client_process_hrr. destruct (ext_get KEY_SHARE exts) as [[]|] eqn:Ek; try (wrun; discriminate).
      wstep. cbn [c_config cset_hs cset_tr]. rewrite Ec. cbn [g_groups restrict].
      destruct (memN _ [group]) eqn:M2; cbn [negb]; [|wrun; discriminate].
      apply memN_in in M1, M2. destruct M1 as [<-|[]], M2 as [<-|[]].
      unfold wp. intros. exists group, (rng j), (nconfig_new (Some suite0)). repeat split; assumption.
    - intros ? ? ? ? _ _ _ E. discriminate E. }
  intro Eh. unfold wp in X. rewrite Eh in X. apply X. reflexivity.
Qed.
End facts.
