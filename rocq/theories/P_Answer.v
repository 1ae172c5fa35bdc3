(* The extensions of a server answer those of the client. *)
From Verif Require Import Base P_Base Iana Crypto Config Serial Ext Msg Hkdf Cipher Kex Sig Ocsp Transcript Conn
  S_Hist S_Conn S_Auth S_Answer P_Monad P_Frame P_Hist P_Send P_Wp P_Codec P_Layout P_Tr P_Neg S_Pack P_Pack P_Pack2 P_Auth.

Section answer.
Variables (C : crypto) (exts : list ext).
Definition offers (t : N) : Prop := In t (map ext_type exts).
Lemma offers_get ty e : ext_get ty exts = Some e -> offers ty.
Proof. intro H. apply ext_get_some in H as [H <-]. apply in_map. exact H. Qed.
Lemma offers_bool ty : opt_bool (ext_get ty exts) = true -> offers ty.
Proof. destruct (ext_get ty exts) eqn:E; [|discriminate]. intros _. eapply offers_get; exact E. Qed.
Definition within (l : list ext) : Prop := forall e, In e l -> offers (ext_type e).
Lemma within_nil : within []. Proof. intros e []. Qed.
Lemma within_one e : offers (ext_type e) -> within [e]. Proof. intros H e' [<-|[]]. exact H. Qed.
Lemma within_app a b : within a -> within b -> within (a ++ b).
Proof. intros A B e H. apply in_app_or in H as [H|H]; auto. Qed.
Lemma within_dict l : within l -> within (ext_dict l).
Proof. intros A e H. apply ext_dict_last in H as (l1 & l2 & -> & _). apply A. apply in_or_app. right. left. reflexivity. Qed.

Definition okw {A} (P : A -> Prop) (m : M A) : Prop := forall c, wp m c (fun r _ => match r with Ok a => P a | Err _ => True end).
Lemma okw_bind A B (m : M A) (f : A -> M B) (P : A -> Prop) (Q : B -> Prop) : okw P m -> (forall a, P a -> okw Q (f a)) -> okw Q (bind m f).
Proof.
  intros H K c. eapply wpb_mono; [apply H|]. intros [a|e] c1; cbn; [intro Pa; apply K; exact Pa | auto].
Qed.
Lemma okw_any A (m : M A) : okw (fun _ => True) m.
Proof. intro c. apply wp_intro. intros [a|e] c' _; exact I. Qed.
Lemma w_cct : okw within (server_neg_cct exts).
Proof.
  intro c. unfold server_neg_cct. wrun; try exact I; try apply within_nil; apply within_one; eapply offers_get; eassumption.
Qed.
Lemma w_sct : okw within (server_neg_sct exts).
Proof.
  intro c. unfold server_neg_sct. wrun; try exact I; try apply within_nil; apply within_one; eapply offers_get; eassumption.
Qed.
Lemma w_mfl : okw within (server_neg_mfl exts).
Proof. intro c. unfold server_neg_mfl. wrun; try exact I; try apply within_nil; apply within_one; eapply offers_get; eassumption. Qed.
Lemma w_alpn : okw within (server_neg_alpn exts).
Proof. intro c. unfold server_neg_alpn. wrun; try exact I; try apply within_nil; apply within_one; eapply offers_get; eassumption. Qed.
Lemma w_hb : okw within (server_neg_heartbeat exts).
Proof. intro c. unfold server_neg_heartbeat. wrun; try exact I; try apply within_nil; apply within_one; eapply offers_get; eassumption. Qed.
Definition share_ok (p : ext * option bytes) : Prop :=
  match p with (k, Some _) => ext_type k = KEY_SHARE /\ offers KEY_SHARE | (k, None) => ext_type k = KEY_SHARE end.
Lemma w_share group : okw share_ok (server_neg_key_share C group exts).
Proof.
  intro c. unfold server_neg_key_share. wrun; try exact I; try reflexivity; split; try reflexivity; eapply offers_get; eassumption.
Qed.
Definition neg_post (p : list ext * list ext * option bytes) (c' : conn) : Prop :=
  match p with (clear, enc, shared) =>
    within enc /\ (forall e, In e clear -> offers (ext_type e) \/ (ext_type e = KEY_SHARE /\ shared = None)) /\
    (shared <> None -> exists n, c_nc c' = Some n /\ (n_want_ocsp n = Some true -> offers STATUS_REQUEST))
  end.
Lemma neg_answers c : wp (server_negociate C exts) c (fun r c' => match r with Ok p => neg_post p c' | Err _ => True end).
Proof.
  unfold server_negociate. unfold server_neg_versions.
  destruct (ext_get SUPPORTED_VERSIONS exts) as [x|] eqn:Ev; [destruct x|]; try (wrun; exact I). destruct (memN TLS_1_3 l); [|wrun; exact I]. wstep.
  eapply wpb_mono; [apply (okw_any _ (server_neg_groups exts))|]. intros [group|e] c1; [|auto]. intros _.
  eapply wpb_mono; [apply (okw_any _ (server_neg_sigalgs C exts))|]. intros [u|e] c2; [|auto]. intros _.
  eapply wpb_mono; [apply (w_share group)|]. intros [[ks shared]|e] c3; [|auto]. intro Ks. cbn [share_ok] in Ks.
  assert (Kk : ext_type ks = KEY_SHARE) by (destruct shared; [apply Ks | exact Ks]).
  assert (Kv : offers SUPPORTED_VERSIONS) by (eapply offers_get; exact Ev).
  assert (Cl : forall s : option bytes, (s = None \/ offers KEY_SHARE) -> forall e, In e [ESupVersionsResp TLS_1_3; ks] ->
    offers (ext_type e) \/ (ext_type e = KEY_SHARE /\ s = None)).
  { intros s Hs e [<-|[<-|[]]]; [left; exact Kv|]. rewrite Kk. destruct Hs; auto. }
  destruct shared as [[|x sh]|].
  - wstep. split; [apply within_nil|]. split; [apply Cl; auto | intro X; destruct X; reflexivity].
  - eapply wpb_mono; [apply w_cct|]. intros [e1|?] c4; [|auto]. intro W1.
    eapply wpb_mono; [apply w_sct|]. intros [e2|?] c5; [|auto]. intro W2.
    eapply wpb_mono; [apply w_mfl|]. intros [e3|?] c6; [|auto]. intro W3.
    eapply wpb_mono; [apply w_alpn|]. intros [e4|?] c7; [|auto]. intro W4.
    eapply wpb_mono; [apply w_hb|]. intros [e5|?] c8; [|auto]. intro W5.
    unfold server_neg_status. wstep; [exact I|]. wstep. split; [repeat apply within_app; assumption|]. split; [apply Cl; right; apply Ks|].
    intros _. eexists. split; [reflexivity|]. cbn. intro Hw. apply offers_bool. congruence.
  - wstep. split; [apply within_nil|]. split; [apply Cl; auto | intro X; destruct X; reflexivity].
Qed.
End answer.

(* --- a server ------------------------------------------------------------- *)
Definition serverish (s : state) : bool :=
  match s with ServerStart | ServerWaitClientHello _ | ServerWaitFinished _ | Connected | Closed _ _ | Failed => true | _ => false end.
Definition srv (C : crypto) (c : conn) : Prop :=
  g_side (c_config c) = Server /\ serverish (c_state c) = true /\ exists o, answered C shares (c_hs c) o.
Definition srvR (C : crypto) (c c' : conn) : Prop := srv C c -> srv C c'.
Lemma srvR_pre C : preorder (srvR C).
Proof. split; unfold srvR; auto. Qed.
Lemma srv_plain A C (m : M A) : rel plainR m -> rel (srvR C) m.
Proof. intros H c (S & T & o & A1). destruct (H c) as (E1 & E2 & E3). split; [rewrite E2; exact S|]. split; [rewrite E1; exact T|]. exists o. rewrite E3. exact A1. Qed.
Lemma srv_state C s : serverish s = true -> rel (srvR C) (set_state s).
Proof. intros E. apply rel_set_state. intros c (S & _ & o & A). split; [exact S|]. split; [exact E|]. exists o. exact A. Qed.
(* while it answers the offer [o] *)
Definition ans (C : crypto) (o : list N) (w : bool) (c : conn) : Prop :=
  g_side (c_config c) = Server /\ serverish (c_state c) = true /\ answered C shares (c_hs c) (Some o) /\
  (w = true -> forall n, c_nc c = Some n -> n_want_ocsp n = Some true -> In STATUS_REQUEST o).
Definition ansR (C : crypto) o w (c c' : conn) : Prop := ans C o w c -> ans C o w c'.
Lemma ansR_pre C o w : preorder (ansR C o w).
Proof. split; unfold ansR; auto. Qed.
Lemma ans_srv C o w c : ans C o w c -> srv C c.
Proof. intros (A & B & D & _). split; [exact A|]. split; [exact B|]. exists (Some o). exact D. Qed.
Lemma ans_same C o w c c' : c_config c' = c_config c -> c_state c' = c_state c -> c_hs c' = c_hs c -> c_nc c' = c_nc c -> ansR C o w c c'.
Proof. intros E1 E2 E3 E4 (A & B & D & E). split; [congruence|]. split; [congruence|]. split; [congruence|]. rewrite E4. exact E. Qed.
Ltac asame := intros; apply ans_same; reflexivity.
Lemma send_keeps C k c : let c' := snd (send_content C k c) in c_config c' = c_config c /\ c_state c' = c_state c /\ c_nc c' = c_nc c.
Proof. pose proof (sending_content C k c) as [S _]. cbv zeta. rewrite S. repeat split. Qed.
Lemma ans_send C o w h : (forall t, In t (responses h) -> In t o \/ shares h t) -> rel (ansR C o w) (send_content C (KHandshake h)).
Proof.
  intros Hr c (A & B & D & E). destruct (send_keeps C (KHandshake h) c) as (E1 & E2 & E3). destruct (send_content C (KHandshake h) c) as [r c'] eqn:Es. cbn [snd] in *.
  apply send_said in Es. split; [congruence|]. split; [congruence|]. split; [|rewrite E3; exact E].
  destruct Es as [(_ & _ & ->)|(ty & d & Et & Ed & [(_ & ->)|(e & _ & -> & _)])]; try exact D.
  rewrite A. eapply answered_reply; eassumption.
Qed.
Lemma ans_ccs C o w : rel (ansR C o w) (send_content C KCcs).
Proof.
  intros c H. destruct (send_keeps C KCcs c) as (E1 & E2 & E3). pose proof (plain_send C KCcs ltac:(discriminate) c) as (_ & _ & E4).
  revert H. apply ans_same; assumption.
Qed.
Lemma ans_digest C o w : rel (ansR C o w) (digest C).
Proof. pose proof (ansR_pre C o w) as P. unfold digest. reli P. Qed.
Lemma ans_cipher C o w A (f : cs -> res A * cs) : rel (ansR C o w) (on_cipher f).
Proof. pose proof (ansR_pre C o w) as P. apply (rel_on_cipher _ P). asame. Qed.
Lemma resp_within exts l : within exts l -> forall t, In t (map ext_type (ext_dict l)) -> In t (map ext_type exts).
Proof. intros H t Ht. apply in_map_iff in Ht as (e & <- & He). apply (within_dict exts l H). exact He. Qed.

(* what the server reads before it answers *)
Lemma plain_upd f : rel plainR (upd_nc f).
Proof. apply (rel_upd_nc _ plainR_pre). plain. Qed.
Lemma plain_tr A (f : transcript -> res A * transcript) : rel plainR (on_tr f).
Proof. apply rel_on_tr. plain. Qed.
Ltac pl := repeat first [apply plain_upd | apply plain_tr | solve [apply rel_modify; plain] ].
Lemma plain_setup random suites : rel plainR (server_setup random suites).
Proof. pose proof plainR_pre as P. unfold server_setup, set_cipher, tr_method. reli P; pl. Qed.
Lemma plain_draw : rel plainR draw.
Proof. intro c. unfold draw. repeat split. Qed.
Lemma plain_negociate C exts : rel plainR (server_negociate C exts).
Proof.
  pose proof plainR_pre as P. unfold server_negociate, server_neg_versions, server_neg_groups, server_neg_sigalgs, server_neg_key_share,
    server_neg_cct, server_neg_sct, server_neg_mfl, server_neg_alpn, server_neg_heartbeat, server_neg_status. cbv zeta.
  reli P; pl; try apply plain_draw.
Qed.

Lemma ans_hrr C exts first sid clear : (forall e, In e clear -> offers exts (ext_type e) \/ ext_type e = KEY_SHARE) ->
  rel (ansR C (map ext_type exts) false) (server_send_hrr C first sid clear).
Proof.
  intro Hc. pose proof (ansR_pre C (map ext_type exts) false) as P. unfold server_send_hrr, tr_method. destruct (negb first); [apply (rel_raise _ P)|].
  apply (rel_bind _ P); [|intros []].
  { apply rel_set_state. intros c1 (A & B & D & E). split; [exact A|]. split; [reflexivity|]. split; assumption. }
  apply rel_get. intro c.
  unfold lift at 1. unfold bind at 1. destruct (suite_of c) as [suite|]; [|apply P].
  unfold lift at 1. unfold bind at 1. destruct (sig_of c) as [sg|]; [|apply P].
  destruct (c_nc c) as [n|]; [|apply P]. rewrite bind_ret. destruct (n_group n) as [group|]; [|apply P]. rewrite bind_ret.
  unfold bind at 1. unfold modify at 1. cbv beta iota.
  match goal with |- ansR _ _ _ c (snd (?m ?c1)) => assert (K : rel (ansR C (map ext_type exts) false) m); [|
    specialize (K c1); intros (A & B & D & E); apply K; split; [exact A|]; split; [exact B|]; split; [exact D | discriminate]] end.
  reli P; try apply ans_ccs; [apply rel_on_tr; asame|].
  apply ans_send. intros t Ht. cbn [responses] in Ht. apply filter_In in Ht as [Ht _]. apply in_map_iff in Ht as (e & <- & He).
  apply ext_dict_last in He as (l1 & l2 & -> & _). destruct (Hc e) as [Ho|Ek]; [apply in_or_app; right; left; reflexivity | left; exact Ho|].
  right. split; [do 4 eexists; reflexivity | exact Ek].
Qed.
Lemma ans_hello C exts first sid clear enc key : (forall e, In e clear -> offers exts (ext_type e)) -> within exts enc ->
  rel (ansR C (map ext_type exts) true) (server_send_hello C first sid clear enc key).
Proof.
  intros Hc He. pose proof (ansR_pre C (map ext_type exts) true) as P. unfold server_send_hello. reli P; try apply ans_ccs; try apply ans_cipher.
  - apply ans_send. intros t Ht. cbn [responses] in Ht. apply filter_In in Ht as [Ht _]. left. apply (resp_within exts clear Hc). exact Ht.
  - apply ans_send. intros t Ht. left. apply (resp_within exts enc He). exact Ht.
Qed.
Lemma staple_ext C c n chain x e : staple C c n chain = Ok x -> In e x -> ext_type e = STATUS_REQUEST /\ n_want_ocsp n = Some true.
Proof.
  unfold staple. destruct (n_want_ocsp n) as [[|]|]; try (intro H; injection H; intros <-; intros []).
  destruct (c_ocsp c); [|intro H; injection H; intros <-; intros []]. destruct chain as [|s [|i rest]]; try (intro H; injection H; intros <-; intros []).
  intro H. apply rbind_ok in H as [url [_ H]]. apply rbind_ok in H as [req [_ H]]. apply rbind_ok in H as [der [_ H]].
  destruct (validate_ocsp C i req der); [|destruct (is_value_error _); [|discriminate]]; injection H; intros <-; [|intros []].
  intros [<-|[]]. split; reflexivity.
Qed.
Lemma bare_exts chain : concat (map (fun e => map ext_type (en_exts e)) (map (fun cert => mkEntry CT_X509 cert []) chain)) = [].
Proof. induction chain; [reflexivity | exact IHchain]. Qed.
Lemma certs_ext C c l t : server_certificate_list C c = Ok l -> In t (responses (HCert [] l)) ->
  t = STATUS_REQUEST /\ exists n, c_nc c = Some n /\ n_want_ocsp n = Some true.
Proof.
  unfold server_certificate_list. destruct (c_nc c) as [n|]; [|discriminate]. destruct (match n_sct n with Some _ => _ | None => _ end).
  - destruct (g_public (c_config c)); [|discriminate]. intro H; injection H; intros <-. intros [].
  - destruct (g_chain (c_config c)) as [chain|]; [|discriminate]. intro H. apply rbind_ok in H as [x [Ex H]]. injection H; intros <-.
    cbn [responses]. destruct chain as [|s chain]; [intros []|]. cbn [map add_to_leaf concat en_exts app]. rewrite bare_exts, app_nil_r. intro Ht.
    apply in_map_iff in Ht as (e & <- & He). destruct (staple_ext _ _ _ _ _ _ Ex He). eauto.
Qed.
Lemma ans_cert C o : rel (ansR C o true) (server_send_certificate C).
Proof.
  pose proof (ansR_pre C o true) as P. unfold server_send_certificate. apply rel_get. intro c. unfold lift at 1. unfold bind at 1.
  destruct (server_certificate_list C c) as [l|] eqn:El; [|apply P]. intro H. revert H.
  intro H. assert (Hc : forall t, In t (responses (HCert [] l)) -> In t o \/ shares (HCert [] l) t).
  { intros t Ht. left. destruct (certs_ext _ _ _ _ El Ht) as (-> & n & En & Ew). apply H with (n := n); [reflexivity | exact En | exact Ew]. }
  revert H.
  match goal with |- ans _ _ _ c -> ans _ _ _ (snd (?m ?c1)) => assert (K : rel (ansR C o true) m); [|exact (K c)] end.
  reli P; try (apply ans_send; assumption). apply ans_send. intros t [].
Qed.

Lemma srv_wait_ch C first random sid suites exts c : ans C (map ext_type exts) false c ->
  srv C (snd (process_wait_ch C first (KHandshake (HClientHello random sid suites exts)) c)).
Proof.
  intro A. unfold process_wait_ch. rewrite bind_get. unfold bind at 1.
  match goal with |- context [match ?m c with _ => _ end] => assert (K : plainR c (snd (m c))) end.
  { destruct (negb first); [|apply plain_setup]. pose proof plainR_pre as P. match goal with |- plainR c (snd (?m c)) => assert (rel plainR m) as Q by (reli P); exact (Q c) end. }
  match goal with |- context [match ?m c with _ => _ end] => destruct (m c) as [[[]|e] c1] end; cbn [snd] in K;
  assert (A1 : ans C (map ext_type exts) false c1) by
    (destruct K as (K1 & K2 & K3); destruct A as (A & B & D & E); split; [congruence|]; split; [congruence|]; split; [congruence | discriminate]);
  [|eapply ans_srv; exact A1].
  unfold bind at 1. pose proof (neg_answers C exts c1) as N. unfold wp in N. pose proof (plain_negociate C exts c1) as K'.
  destruct (server_negociate C exts c1) as [[[[clear enc] shared]|e] c2]; cbn [snd] in K';
  assert (A2 : ans C (map ext_type exts) false c2) by
    (destruct K' as (K1 & K2 & K3); destruct A1 as (A1 & B & D & E); split; [congruence|]; split; [congruence|]; split; [congruence | discriminate]);
  [|eapply ans_srv; exact A2].
  destruct N as (We & Wc & Wn). destruct shared as [key|].
  2:{ eapply ans_srv. apply (ans_hrr C exts first sid clear); [|exact A2]. intros e He. destruct (Wc e He) as [H|[H _]]; auto. }
  destruct (Wn ltac:(discriminate)) as (n & En & Wo). cbn [snd] in En. assert (A3 : ans C (map ext_type exts) true c2).
  { destruct A2 as (A2 & B & D & E). split; [exact A2|]. split; [exact B|]. split; [exact D|]. intros _ n' En'. replace n' with n by congruence. exact Wo. }
  clear A2. eapply ans_srv. revert A3. pose proof (ansR_pre C (map ext_type exts) true) as P.
  match goal with |- ans _ _ _ c2 -> ans _ _ _ (snd (?m c2)) => assert (KK : rel (ansR C (map ext_type exts) true) m); [|exact (KK c2)] end.
  reli P.
  - apply ans_hello; [|exact We]. intros e He. destruct (Wc e He) as [H|[_ H]]; [exact H | discriminate].
  - apply ans_send. intros t [].
  - apply ans_cert.
  - unfold ask_cipher. reli P.
  - apply ans_send. intros t [].
  - apply rel_set_state. intros z (Z1 & Z2 & Z3 & Z4). split; [exact Z1|]. split; [reflexivity|]. split; assumption.
Qed.

(* --- whole histories ------------------------------------------------------ *)
Lemma srv_base C k : rel (srvR C) (base_process k).
Proof. pose proof (srvR_pre C) as P. unfold base_process. reli P. apply srv_state. reflexivity. Qed.
Lemma srv_process C k c : srv C c -> (forall random sid suites exts, k = KHandshake (HClientHello random sid suites exts) -> answered C shares (c_hs c) (Some (map ext_type exts))) ->
  srv C (snd (process C k c)).
Proof.
  intros S K. pose proof (srvR_pre C) as P. unfold process. rewrite bind_get. pose proof S as (S1 & S2 & S3).
  destruct (c_state c) as [ | | | | | | | |first| | |r w|] eqn:Es; try discriminate S2; try (apply srv_base; exact S).
  - destruct k as [| |[random sid suites exts|hrr r0 sid suite exts|exts|cx exts|cx l|a0 b0|v|]| |]; try (apply srv_base; exact S). apply srv_wait_ch.
    split; [exact S1|]. split; [rewrite Es; reflexivity|]. split; [|discriminate]. eapply K. reflexivity.
  - revert S. match goal with |- srv C c -> srv C (snd (?m c)) => enough (KK : rel (srvR C) m) by exact (KK c) end.
    unfold process_server_finished. destruct k as [| |[]| |]; try apply srv_base. unfold ask_cipher. reli P; try (apply srv_state; reflexivity).
    apply srv_plain. apply (rel_on_cipher _ plainR_pre). plain.
  - destruct k; try (apply srv_base; exact S). revert S. refine (srv_plain _ C _ _ c). apply rel_modify. plain.
  - destruct r; [|exact S]. destruct k; try (apply srv_base; exact S). revert S. refine (srv_plain _ C _ _ c). apply rel_modify. plain.
  - exact S.
Qed.
Lemma srv_handle C ct d : rel (srvR C) (handle_content C ct d).
Proof.
  intros c S. pose proof S as (S1 & S2 & o & S3).
  assert (W : wp (handle_content C ct d) c (fun _ c' => srv C c')); [|unfold wp in W; destruct (handle_content C ct d c) as [[[]|] ?]; exact W].
  apply wp_handle.
  - intros _. exact S.
  - intros k _ Nk. apply wp_intro. intros r c' E. replace c' with (snd (process C k c)) by (rewrite E; reflexivity). apply srv_process; [exact S|].
    intros random sid suites exts ->. destruct (Nk _ eq_refl).
  - intros h ty t Ep Et _. rewrite S1. change (other_side Server) with Client.
    set (c1 := cset_hs _ _). assert (exists o', answered C shares (c_hs c1) o' /\ forall random sid suites exts, h = HClientHello random sid suites exts -> o' = Some (map ext_type exts)) as (o' & A & B).
    { destruct h as [random sid suites exts|hrr random sid suite exts|exts|cx exts|cx l|a b|v|]; try discriminate Et; injection Et; intros <-.
      { eexists. split; [|intros ? ? ? ? H; injection H; intros; subst; reflexivity]. unfold c1; cbn. econstructor; [exact S3|].
        unfold says. eapply parse_content_pct; [exact Ep | reflexivity]. }
      all: exists o; split; [apply answered_other; [exact S3 | discriminate] | discriminate]. }
    apply wp_intro. intros r c' E. replace c' with (snd (process C (KHandshake h) c1)) by (rewrite E; reflexivity). apply srv_process.
    + split; [exact S1|]. split; [exact S2|]. exists o'. exact A.
    + intros random sid suites exts Eh. injection Eh; intros Eh'. rewrite <- (B _ _ _ _ Eh'). exact A.
  - intros h ty e t _ _ _. split; [exact S1|]. split; [exact S2|]. exists o. exact S3.
Qed.
Lemma srv_fail C a : rel (srvR C) (fail C a).
Proof. pose proof (srvR_pre C) as P. unfold fail. reli P; [apply srv_plain, plain_send; discriminate | apply srv_state; reflexivity]. Qed.
Lemma srv_one C : rel (srvR C) (receive_one C).
Proof. pose proof (srvR_pre C) as P. unfold receive_one. reli P; [apply srv_plain, plain_content | apply srv_handle]. Qed.
Lemma srv_guarded C m : rel (srvR C) m -> rel (srvR C) (guarded C m).
Proof.
  intros H c. specialize (H c). unfold guarded. destruct (m c) as [[b|e] c1]; cbn [snd] in H; [exact H|].
  match goal with |- context [fail C ?a c1] => pose proof (srv_fail C a c1) as K; destruct (fail C a c1) as [[|] c2] end;
  cbn [snd] in *; eapply (srvR_pre C); eassumption.
Qed.
Lemma srv_loop C n : rel (srvR C) (receive_loop n C).
Proof. pose proof (srvR_pre C) as P. induction n as [|n IH]; cbn [receive_loop]; reli P; try (apply srv_guarded, srv_one); apply IH. Qed.
Lemma srv_step C o : rel (srvR C) (step C o).
Proof.
  pose proof (srvR_pre C) as P. destruct o; cbn [step]; reli P.
  - intros c S. unfold initiate_connection. rewrite bind_get. pose proof S as (S1 & S2 & S3). destruct (c_state c) eqn:E; try discriminate S2; try exact S.
    split; [exact S1|]. split; [reflexivity | exact S3].
  - unfold receive_data. reli P; try apply srv_loop; try solve [apply srv_plain, rel_modify; plain]. unfold rekey. reli P.
  - apply srv_plain, plain_send. discriminate.
  - unfold data_to_read. reli P. apply srv_plain, rel_modify. plain.
  - unfold data_to_send. reli P. apply srv_plain, rel_modify. plain.
  - unfold rekey. reli P.
  - unfold close_receiving_end. reli P; try apply srv_fail; apply srv_state; reflexivity.
  - unfold close_sending_end. reli P; try (apply srv_plain, plain_send; discriminate); try (apply srv_state; reflexivity).
    apply rel_modify. intros z0 Z. destruct (c_state z0) eqn:E; try exact Z. destruct Z as (Z1 & Z2 & Z3). split; [exact Z1|]. split; [reflexivity | exact Z3].
Qed.
Lemma server_answers C g c : reachable C g c -> g_side g = Server -> exists o, answered C shares (c_hs c) o.
Proof.
  intros (c0 & ops & Cr & ->) Sd.
  assert (srv C c0) as S0.
  { apply created_cases in Cr as [(E & _)|(_ & ocsp & unique & rng & t & -> & _)]; [congruence|].
    split; [exact Sd|]. split; [reflexivity|]. exists None. constructor. }
  assert (srv C (run C ops c0)) as (_ & _ & S); [|exact S].
  revert S0. revert ops c0 Cr. assert (K : forall ops c, srv C c -> srv C (run C ops c)); [|intros ops c0 _; apply K].
  apply keeps_run. intro o. apply of_rel. apply srv_step.
Qed.
