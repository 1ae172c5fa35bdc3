(* The ClientHellos of a client. *)
From Verif Require Import Base P_Base Iana Crypto Config Serial Ext Msg Hkdf Cipher Kex Sig Ocsp Transcript Conn
  S_Hist S_Conn S_Auth S_Hello P_Monad P_Frame P_Hist P_Send P_Wp P_Codec P_Layout P_Tr S_Pack P_Pack P_Pack2 P_Auth P_Neg.

Definition clientish (s : state) : bool :=
  match s with ServerStart | ServerWaitClientHello _ | ServerWaitFinished _ => false | _ => true end.
Definition calmed (s : state) : bool := clientish s && match s with ClientWaitServerHello _ _ _ => false | _ => true end.
Definition keepR (c c' : conn) : Prop := g_side (c_config c) = Client ->
  c_config c' = c_config c /\ c_cunique c' = c_cunique c /\
  (forall n', c_nc c' = Some n' -> exists n, c_nc c = Some n /\ n_suite n' = n_suite n) /\
  (exists l, c_hs c' = c_hs c ++ l /\ Forall (fun e => ~ own_hello e) l) /\
  (c_state c' = c_state c \/ calmed (c_state c') = true).
Lemma keepR_pre : preorder keepR.
Proof.
  split.
  - intros c _. repeat split; eauto. exists []. split; [symmetry; apply app_nil_r | constructor].
  - intros a b c H K S. destruct (H S) as (A1 & A2 & A3 & (l & A4 & A5) & A6). destruct K as (B1 & B2 & B3 & (l' & B4 & B5) & B6); [congruence|].
    split; [congruence|]. split; [congruence|]. split.
    { intros n' E. destruct (B3 _ E) as (n1 & E1 & F1). destruct (A3 _ E1) as (n & E0 & F0). exists n. split; [exact E0 | congruence]. }
    split; [exists (l ++ l'); split; [rewrite B4, A4, app_assoc; reflexivity | apply Forall_app; split; assumption]|].
    destruct B6 as [B6|B6]; [|right; exact B6]. rewrite B6. exact A6.
Qed.
Lemma keep_same c c' : c_config c' = c_config c -> c_cunique c' = c_cunique c -> c_nc c' = c_nc c -> c_hs c' = c_hs c -> c_state c' = c_state c -> keepR c c'.
Proof.
  intros A B D E F _. split; [exact A|]. split; [exact B|]. split; [rewrite D; eauto|]. split; [|left; exact F].
  exists []. split; [rewrite E; symmetry; apply app_nil_r | constructor].
Qed.
Ltac ksame := intros; apply keep_same; reflexivity.
Lemma keep_state s : calmed s = true -> rel keepR (set_state s).
Proof.
  intro E. apply rel_set_state. intros c _. split; [reflexivity|]. split; [reflexivity|]. split; [cbn; eauto|]. split; [|right; exact E].
  exists []. split; [symmetry; apply app_nil_r | constructor].
Qed.
Lemma keep_nc f : (forall n, n_suite (f n) = n_suite n) -> rel keepR (upd_nc f).
Proof.
  intros Hf c. unfold upd_nc. rewrite bind_get. destruct (c_nc c) as [n|] eqn:E; [|apply keepR_pre].
  intros _. split; [reflexivity|]. split; [reflexivity|]. split; [|split; [|left; reflexivity]].
  - intros n' E'. injection E'; intros <-. exists n. split; [exact E | apply Hf].
  - exists []. split; [symmetry; apply app_nil_r | constructor].
Qed.
Lemma keep_tr A (f : transcript -> res A * transcript) : rel keepR (on_tr f).
Proof. apply rel_on_tr. ksame. Qed.
Lemma keep_cipher A (f : cs -> res A * cs) : rel keepR (on_cipher f).
Proof. apply (rel_on_cipher _ keepR_pre). ksame. Qed.
Lemma keep_draw : rel keepR draw.
Proof. intro c. unfold draw. rewrite bind_get. unfold bind, modify, ret. cbn [snd]. ksame. Qed.
Lemma keep_send C k : (forall random sid suites exts, k <> KHandshake (HClientHello random sid suites exts)) -> rel keepR (send_content C k).
Proof.
  intros Nk c Sd. pose proof (sending_content C k c) as [S _]. destruct (send_content C k c) as [r c'] eqn:Es. cbn [snd] in *.
  apply send_said in Es. assert (c_config c' = c_config c /\ c_state c' = c_state c /\ c_nc c' = c_nc c /\ c_cunique c' = c_cunique c) as (E1 & E2 & E3 & E4) by (rewrite S; repeat split).
  split; [exact E1|]. split; [exact E4|]. split; [rewrite E3; eauto|]. split; [|left; exact E2].
  assert (Z : c_hs c' = c_hs c -> exists l, c_hs c' = c_hs c ++ l /\ Forall (fun e => ~ own_hello e) l).
  { intros ->. exists []. split; [symmetry; apply app_nil_r | constructor]. }
  destruct k as [| |h| |]; cbn [said] in Es; try (apply Z; apply Es).
  destruct Es as [(_ & _ & E)|(ty & d & Et & _ & [(_ & E)|(e & _ & E & _)])]; try (apply Z; exact E).
  eexists. split; [exact E|]. constructor; [|constructor]. intros [_ H]. cbn in H. subst ty.
  destruct h; try discriminate Et. eapply Nk; reflexivity.
Qed.
Lemma keep_send1 C h : match h with HClientHello _ _ _ _ => False | _ => True end -> rel keepR (send_content C (KHandshake h)).
Proof. intro H. apply keep_send. intros ? ? ? ? E. injection E; intros ->. exact H. Qed.
Lemma keep_send2 C k : match k with KHandshake _ => False | _ => True end -> rel keepR (send_content C k).
Proof. intro H. apply keep_send. intros ? ? ? ? ->. exact H. Qed.

(* --- the processing of the client after the ServerHello ------------------- *)
Ltac kstep := repeat first
  [ apply keep_tr | apply keep_cipher | apply keep_draw | solve [apply keep_send1; exact I] | solve [apply keep_send2; exact I]
  | solve [apply keep_nc; intro; reflexivity] | solve [apply keep_state; reflexivity] | solve [apply rel_modify; ksame] ].
Lemma keep_base k : rel keepR (base_process k).
Proof. pose proof keepR_pre as P. unfold base_process. reli P; kstep. Qed.
Lemma keep_ee k : rel keepR (process_wait_ee k).
Proof.
  pose proof keepR_pre as P. unfold process_wait_ee. destruct k as [| |[]| |]; try apply keep_base.
  unfold client_neg_mfl, client_neg_alpn, client_neg_heartbeat, client_neg_cct, client_neg_sct. reli P; kstep.
Qed.
Lemma keep_certificate C must k : rel keepR (process_wait_certificate C must k).
Proof.
  pose proof keepR_pre as P. unfold process_wait_certificate. destruct k as [| |[]| |]; try apply keep_base. cbv zeta. reli P; kstep.
Qed.
Lemma keep_cert_cr C k : rel keepR (process_wait_cert_cr C k).
Proof.
  pose proof keepR_pre as P. unfold process_wait_cert_cr. destruct k as [| |[]| |]; try apply keep_base; reli P; kstep; apply keep_certificate.
Qed.
Lemma keep_cv C must h k : rel keepR (process_wait_cv C must h k).
Proof.
  pose proof keepR_pre as P. unfold process_wait_cv, ask_cipher. destruct k as [| |[]| |]; try apply keep_base. reli P; kstep.
Qed.
Lemma keep_fin C must h k : rel keepR (process_client_finished C must h k).
Proof.
  pose proof keepR_pre as P. unfold process_client_finished, ask_cipher. destruct k as [| |[]| |]; try apply keep_base. reli P; kstep.
Qed.

(* --- the ClientHello ------------------------------------------------------ *)
Lemma extensions_shape C g host cookie gr share : let exts := client_extensions C g host cookie (gr, share) in
  NoDup (map ext_type exts) /\ ext_get 43 exts = Some (ESupVersionsReq [0x0304]) /\ ext_get 13 exts = Some (ESigAlgs (g_sigalgs g)) /\
  ext_get 10 exts = Some (ESupportedGroups (g_groups g)) /\ ext_get 51 exts = Some (EKeyShareReq [(gr, share)]) /\
  ext_get 41 exts = None /\ ext_get 42 exts = None.
Proof.
  cbv zeta. unfold client_extensions.
  destruct host as [[|h0 h]|]; [|destruct (cr_is_ip C (h0 :: h))|];
  (destruct (is_nil (g_alpn g)); destruct (opt_bool (g_public g)); destruct (is_nil (g_trusted_keys g)); destruct (opt_bool (g_trust g));
   destruct cookie as [[|b0 b]|];
   (split; [cbn [app map ext_type]; repeat (constructor; [cbn; intuition discriminate|]); constructor | repeat split; reflexivity])).
Qed.
Section hello.
Variables (C : crypto) (g : config) (u : bytes).
Definition sub (k : config) : Prop := g_side k = Client /\ g_sigalgs k = g_sigalgs g /\ incl (g_suites k) (g_suites g) /\ incl (g_groups k) (g_groups g).
Definition good (e : hmsg) : Prop := own_hello e -> exists h, ser_content C (KHandshake h) = Ok (m_data e) /\ wellformed g u h.
Definition tied (c : conn) (shares : list (N * bytes)) : Prop :=
  exists d suites groups exts gr priv share, last_hello (c_hs c) d /\ ser_content C (KHandshake (HClientHello u [] suites exts)) = Ok d /\
    shares = [(gr, priv)] /\ ext_get 51 exts = Some (EKeyShareReq [(gr, share)]) /\ ext_get 10 exts = Some (ESupportedGroups groups) /\
    incl (g_suites (c_config c)) suites /\ incl (g_groups (c_config c)) groups.
Definition cli (c : conn) : Prop :=
  sub (c_config c) /\ c_cunique c = Some u /\ clientish (c_state c) = true /\ Forall good (c_hs c) /\
  (forall n s, c_nc c = Some n -> n_suite n = Some s -> In s (g_suites (c_config c))) /\
  match c_state c with ClientWaitServerHello _ shares _ => tied c shares | _ => True end.
Definition cliR (c c' : conn) : Prop := cli c -> cli c'.
Lemma cliR_pre : preorder cliR.
Proof. split; unfold cliR; auto. Qed.
Lemma cli_keep c c' : keepR c c' -> cliR c c'.
Proof.
  intros K (A & B & D & E & F & G). destruct K as (K1 & K2 & K3 & (l & K4 & K5) & K6); [apply A|].
  split; [rewrite K1; exact A|]. split; [congruence|].
  split. { destruct K6 as [-> | K6]; [exact D|]. unfold calmed in K6. apply andb_prop in K6 as [K6 _]. exact K6. }
  split. { rewrite K4. apply Forall_app. split; [exact E|]. eapply Forall_impl; [|exact K5]. intros e N O. contradiction. }
  split. { intros n' s0 E' Es. rewrite K1. destruct (K3 _ E') as (n & En & Q). apply (F n); [exact En | congruence]. }
  destruct K6 as [K6|K6].
  - rewrite K6. destruct (c_state c); try exact I. destruct G as (d & suites & groups & exts & gr & priv & share & (l1 & l2 & L1 & L2) & G).
    exists d, suites, groups, exts, gr, priv, share. split; [|rewrite K1; exact G]. exists l1, (l2 ++ l). split; [rewrite K4, L1, <- app_assoc; reflexivity|].
    apply Forall_app. split; assumption.
  - unfold calmed in K6. destruct (c_state c'); try exact I. discriminate K6.
Qed.
Lemma cli_rel A (m : M A) : rel keepR m -> rel cliR m.
Proof. intros H c. apply cli_keep, H. Qed.
Lemma hello_made k host cookie gr share ch : sub k -> g_groups k = gr :: tl (g_groups k) ->
  mk_client_hello u (g_suites k) (client_extensions C k host cookie (gr, share)) = Ok ch ->
  exists exts, ch = HClientHello u [] (g_suites k) exts /\ ext_get 51 exts = Some (EKeyShareReq [(gr, share)]) /\
    ext_get 10 exts = Some (ESupportedGroups (g_groups k)) /\ wellformed g u ch.
Proof.
  intros (_ & S2 & S3 & S4) Eg H. destruct (extensions_shape C k host cookie gr share) as (N & X1 & X2 & X3 & X4 & X5 & X6).
  unfold mk_client_hello in H. rewrite (ext_dict_nodup _ N) in H.
  destruct (negb (blen u =? 32)); [discriminate|]. destruct (is_nil (g_suites k)) eqn:En; [discriminate|].
  repeat match type of H with (if ?x then _ else _) = _ => destruct x; [discriminate|] end. injection H; intros <-.
  eexists. split; [reflexivity|]. split; [exact X4|]. split; [exact X3|].
  exists (g_suites k). eexists. exists (g_groups k), gr, share. split; [reflexivity|]. split; [apply is_nil_false; exact En|]. split; [exact S3|].
  split; [exact N|]. split; [exact X1|]. split; [rewrite X2, S2; reflexivity|]. split; [exact X3|]. split; [exact S4|]. split; [exact X4|].
  split; [rewrite Eg; left; reflexivity|]. split; assumption.
Qed.
Lemma initiate_cli cookie c : cli c -> c_state c = ClientStart cookie -> cli (snd (client_initiate C cookie c)).
Proof.
  intros Cl Es. pose proof Cl as (A & B & D & E & F & _). unfold client_initiate. rewrite bind_get. cbv zeta.
  destruct (g_groups (c_config c)) as [|gr grs] eqn:Eg; [exact Cl|].
  unfold bind at 1. unfold draw at 1. rewrite bind_get. unfold bind at 1, modify at 1, ret at 1. cbv beta iota.
  set (c1 := cset_rngi _ c). assert (Cl1 : cli c1) by exact Cl.
  unfold bind at 1, lift at 1. destruct (kx_init C gr _) as [share|]; [|exact Cl1]. rewrite B.
  unfold bind at 1, lift at 1. destruct (mk_client_hello _ _ _) as [ch|] eqn:Em; [|exact Cl1].
  apply hello_made in Em as (exts & -> & X1 & X2 & W); [|exact A | rewrite Eg; reflexivity].
  unfold bind at 1. pose proof (sending_content C (KHandshake (HClientHello u [] (g_suites (c_config c)) exts)) c1) as [S _].
  destruct (send_content C _ c1) as [r c2] eqn:Es2. cbn [snd] in S. apply send_said in Es2. cbn [said] in Es2.
  assert (E2 : c_config c2 = c_config c /\ c_state c2 = c_state c /\ c_nc c2 = c_nc c /\ c_cunique c2 = Some u) by (rewrite S; repeat split; exact B).
  destruct E2 as (E1 & E2 & E3 & E4).
  assert (Cl2 : cli c2 /\ (r = Ok tt -> exists d, last_hello (c_hs c2) d /\ ser_content C (KHandshake (HClientHello u [] (g_suites (c_config c)) exts)) = Ok d)).
  { assert (Z : Forall good (c_hs c2) -> cli c2).
    { intro Fo. split; [rewrite E1; exact A|]. split; [exact E4|]. split; [rewrite E2; exact D|]. split; [exact Fo|].
      split; [rewrite E3, E1; exact F|]. rewrite E2, Es. exact I. }
    destruct Es2 as [(Nr & _ & Eh)|(ty & d & Et & Ed & [(_ & Eh)|(e & _ & Eh & ->)])].
    - split; [apply Z; rewrite Eh; exact E | contradiction].
    - injection Et; intros <-. split.
      + apply Z. rewrite Eh. apply Forall_app. split; [exact E|]. constructor; [|constructor]. intros _. eexists. split; [exact Ed | exact W].
      + intros _. exists d. split; [|exact Ed]. rewrite Eh. exists (c_hs c1), []. split; [|constructor].
        change (c_config c1) with (c_config c). destruct A as [-> _]. reflexivity.
    - split; [apply Z; rewrite Eh; exact E | discriminate]. }
  destruct Cl2 as [Cl2 L]. destruct r as [[]|]; [|exact Cl2]. destruct (L eq_refl) as (d & Ld & Sd).
  unfold bind at 1, digest, bind at 1, get at 1, lift. destruct (tr_digest C (c_tr c2)) as [h|]; [|exact Cl2].
  rewrite bind_get. unfold set_state. destruct Cl2 as (H1 & H2 & H3 & H4 & H5 & H6).
  cbn [snd modify]. split; [exact H1|]. split; [exact H2|]. split; [reflexivity|]. split; [exact H4|]. split; [exact H5|].
  unfold tied. cbn [c_hs c_config cset_state c_state]. exists d, (g_suites (c_config c)), (g_groups (c_config c)), exts, gr. do 2 eexists. split; [exact Ld|]. rewrite E1.
  split; [exact Sd|]. split; [reflexivity|]. split; [exact X1|]. split; [exact X2|]. split; apply incl_refl.
Qed.
Lemma initiate_connection_cli c : cli c -> cli (snd (initiate_connection C c)).
Proof.
  intro Cl. unfold initiate_connection. rewrite bind_get. pose proof Cl as (A & B & D & _). destruct (c_state c) eqn:E; try exact Cl; try discriminate D.
  apply initiate_cli; assumption.
Qed.
Lemma process_hrr_cli chash exts c : cli c -> cli (snd (client_process_hrr C chash exts c)).
Proof.
  intro Cl. unfold client_process_hrr. destruct (ext_get KEY_SHARE exts) as [e|]; [|exact Cl]. destruct e; try exact Cl.
  rewrite bind_get. destruct (negb (memN g0 (g_groups (c_config c)))) eqn:Eg; [exact Cl|].
  destruct (c_nc c) as [n|] eqn:En; [|exact Cl]. destruct (n_suite n) as [s|] eqn:Es; [|exact Cl].
  apply negb_false_iff, memN_in in Eg. unfold bind at 1, modify at 1. cbv beta iota.
  set (c1 := cset_config _ c).
  assert (Cl1 : cli c1).
  { destruct Cl as (A & B & D & E & F & G). pose proof A as (A1 & A2 & A3 & A4). pose proof (F n s En Es) as Is. split.
    { split; [exact A1|]. split; [exact A2|]. split; [intros x [<-|[]]; apply A3; exact Is | intros x [<-|[]]; apply A4; exact Eg]. }
    split; [exact B|]. split; [exact D|]. split; [exact E|]. split.
    { intros n' s' En' Es'. change (c_nc c1) with (c_nc c) in En'. left. congruence. }
    unfold c1. cbn [c_state cset_config]. destruct (c_state c); try exact I. destruct G as (d & suites & groups & ex & gr & priv & share & G1 & G2 & G3 & G4 & G5 & G6 & G7).
    exists d, suites, groups, ex, gr, priv, share. split; [exact G1|]. split; [exact G2|]. split; [exact G3|]. split; [exact G4|]. split; [exact G5|].
    split; [intros x [<-|[]]; apply G6; exact Is | intros x [<-|[]]; apply G7; exact Eg]. }
  unfold bind at 1. unfold tr_method. match goal with |- context [on_tr ?f c1] => pose proof (cli_rel _ _ (keep_tr _ f) c1 Cl1) as Cl2; destruct (on_tr f c1) as [[[]|] c2]; cbn [snd] in Cl2 end; [|exact Cl2].
  cbv zeta. unfold bind. match goal with |- context [set_state ?s c2] => pose proof (cli_rel _ _ (keep_state s eq_refl) c2 Cl2) as Cl3; destruct (set_state s c2) as [[[]|] c3]; cbn [snd] in Cl3 end; [|exact Cl3].
  apply initiate_connection_cli. exact Cl3.
Qed.
Lemma process_sh_cli first shares chash k c : cli c -> cli (snd (process_wait_sh C first shares chash k c)).
Proof.
  intro Cl. pose proof keepR_pre as P. unfold process_wait_sh. destruct k as [| |h| |]; try (apply (cli_rel _ _ (keep_base _)); exact Cl).
  destruct h as [|hrr random sid suite exts| | | | | |]; try (destruct first; [apply (cli_rel _ _ (keep_base _)); exact Cl | exact Cl]).
  rewrite bind_get. destruct (negb (memN suite (g_suites (c_config c)))) eqn:Eg; [exact Cl|]. apply negb_false_iff, memN_in in Eg.
  unfold bind at 1.
  match goal with |- context [match ?m c with _ => _ end] => assert (Cl1 : cli (snd (m c))) end.
  { destruct first; [|exact Cl]. unfold bind at 1, modify at 1. cbv beta iota.
    match goal with |- cli (snd (?m ?x)) => assert (K : rel keepR m); [|apply (cli_rel _ _ K)] end.
    - unfold set_cipher, tr_method. reli P; kstep.
    - destruct Cl as (A & B & D & E & F & G). split; [exact A|]. split; [exact B|]. split; [exact D|]. split; [exact E|]. split; [|exact G].
      intros n' s' En' Es'. change (c_config (cset_nc ?v c)) with (c_config c). cbn in En'. injection En'; intros <-. cbn in Es'. injection Es'; intros <-. exact Eg. }
  match goal with |- context [match ?m c with _ => _ end] => destruct (m c) as [[[]|] c1]; cbn [snd] in Cl1 end; [|exact Cl1].
  destruct hrr; [apply process_hrr_cli; exact Cl1|]. revert Cl1.
  match goal with |- cli c1 -> cli (snd (?m c1)) => assert (K : rel keepR m); [|apply (cli_rel _ _ K)] end.
  unfold client_process_sh, client_negociate_hello. reli P; kstep.
Qed.
Lemma process_cli k c : cli c -> cli (snd (process C k c)).
Proof.
  intro Cl. unfold process. rewrite bind_get. pose proof Cl as (_ & _ & D & _). destruct (c_state c) as [ | | | | | | | | | | |r w|] eqn:Es; try discriminate D.
  - apply (cli_rel _ _ (keep_base _)); exact Cl.
  - apply process_sh_cli. exact Cl.
  - apply (cli_rel _ _ (keep_ee _)); exact Cl.
  - apply (cli_rel _ _ (keep_cert_cr _ _)); exact Cl.
  - apply (cli_rel _ _ (keep_certificate _ _ _)); exact Cl.
  - apply (cli_rel _ _ (keep_cv _ _ _ _)); exact Cl.
  - apply (cli_rel _ _ (keep_fin _ _ _ _)); exact Cl.
  - destruct k; try (apply (cli_rel _ _ (keep_base _)); exact Cl). revert Cl. refine (cli_rel _ _ _ c). apply rel_modify. ksame.
  - destruct r; [|exact Cl]. destruct k; try (apply (cli_rel _ _ (keep_base _)); exact Cl). revert Cl. refine (cli_rel _ _ _ c). apply rel_modify. ksame.
  - exact Cl.
Qed.
Lemma told_cli c ty t d : cli c -> cli (cset_hs (c_hs c ++ [(other_side (g_side (c_config c)), ty, d)]) (cset_tr t c)).
Proof.
  intro Cl. revert Cl. apply cli_keep. intro Sd. split; [reflexivity|]. split; [reflexivity|]. split; [cbn; eauto|]. split; [|left; reflexivity].
  eexists. split; [reflexivity|]. constructor; [|constructor]. rewrite Sd. intros [H _]. discriminate H.
Qed.
Lemma handle_cli ct d : rel cliR (handle_content C ct d).
Proof.
  intros c Cl. assert (W : wp (handle_content C ct d) c (fun _ c' => cli c')); [|unfold wp in W; destruct (handle_content C ct d c) as [[[]|] ?]; exact W].
  assert (Pr : forall k x, cli x -> wp (process C k) x (fun _ c' => cli c')).
  { intros k x Cx. apply wp_intro. intros r c' E. replace c' with (snd (process C k x)) by (rewrite E; reflexivity). apply process_cli. exact Cx. }
  apply wp_handle.
  - intros _. exact Cl.
  - intros k _ _. apply Pr. exact Cl.
  - intros h ty t _ _ _. apply Pr, told_cli. exact Cl.
  - intros h ty e t _ _ _. revert Cl. apply cli_keep. ksame.
Qed.
Lemma cli_fail a : rel cliR (fail C a).
Proof. pose proof keepR_pre as P. apply cli_rel. unfold fail. reli P; kstep. Qed.
Lemma keep_record : rel keepR (read_next_record C).
Proof. pose proof keepR_pre as P. unfold read_next_record. cbv zeta. reli P; try solve [kstep]. Qed.
Lemma keep_fill n : rel keepR (fill_handshake n C).
Proof. pose proof keepR_pre as P. induction n as [|n IH]; cbn [fill_handshake]; reli P; try apply keep_record; try apply IH; kstep. Qed.
Lemma keep_content : rel keepR (read_next_content C).
Proof. pose proof keepR_pre as P. unfold read_next_content. reli P; try apply keep_record; try apply keep_fill; kstep. Qed.
Lemma cli_guarded m : rel cliR m -> rel cliR (guarded C m).
Proof.
  intros H c. specialize (H c). unfold guarded. destruct (m c) as [[b|e] c1]; cbn [snd] in H; [exact H|].
  match goal with |- context [fail C ?a c1] => pose proof (cli_fail a c1) as K; destruct (fail C a c1) as [[|] c2] end;
  cbn [snd] in *; eapply cliR_pre; eassumption.
Qed.
Lemma cli_one : rel cliR (receive_one C).
Proof. pose proof cliR_pre as P. unfold receive_one. reli P; [apply cli_rel, keep_content | apply handle_cli]. Qed.
Lemma cli_loop n : rel cliR (receive_loop n C).
Proof. pose proof cliR_pre as P. induction n as [|n IH]; cbn [receive_loop]; reli P; try (apply cli_guarded, cli_one); apply IH. Qed.
Lemma cli_step o : rel cliR (step C o).
Proof.
  pose proof cliR_pre as P. pose proof keepR_pre as PK. destruct o; cbn [step]; reli P.
  - exact initiate_connection_cli.
  - unfold receive_data. reli P; try apply cli_loop; try solve [apply cli_rel; kstep]. unfold rekey. reli P.
  - apply cli_rel. kstep.
  - unfold data_to_read. reli P. apply cli_rel. kstep.
  - unfold data_to_send. reli P. apply cli_rel. kstep.
  - unfold rekey. reli P.
  - unfold close_receiving_end. reli P; try apply cli_fail; apply cli_rel; kstep.
  - unfold close_sending_end. reli P; try solve [apply cli_rel; kstep].
    apply rel_modify. intro z0. apply cli_keep. destruct (c_state z0) eqn:E; try apply PK. eapply (keep_state (Closed _ _)). reflexivity.
Qed.
End hello.
Lemma created_cli C g c : created g c -> g_side g = Client -> exists u, cli C g u c.
Proof.
  intros Cr Sd. apply created_cases in Cr as [(_ & host & ocsp & unique & rng & t & -> & _)|(E & _)]; [|congruence].
  exists unique. split; [split; [exact Sd|]; split; [reflexivity|]; split; apply incl_refl|]. split; [reflexivity|]. split; [reflexivity|].
  split; [constructor|]. split; [discriminate | exact I].
Qed.
Lemma reachable_cli C g c : reachable C g c -> g_side g = Client -> exists u, cli C g u c.
Proof.
  intros (c0 & ops & Cr & ->) Sd. destruct (created_cli C g c0 Cr Sd) as (u & H). exists u. revert H. revert ops c0 Cr.
  assert (K : forall ops c, cli C g u c -> cli C g u (run C ops c)); [|intros ops c0 _; apply K].
  apply keeps_run. intro o. apply of_rel. apply cli_step.
Qed.

(* --- statements ----------------------------------------------------------- *)
Lemma hellos_good C g c : reachable C g c -> g_side g = Client ->
  exists u, c_cunique c = Some u /\ forall d, In (Client, 1, d) (c_hs c) -> exists h, ser_content C (KHandshake h) = Ok d /\ wellformed g u h.
Proof.
  intros R Sd. destruct (reachable_cli C g c R Sd) as (u & _ & B & _ & E & _). exists u. split; [exact B|].
  intros d Hd. rewrite Forall_forall in E. apply (E _ Hd). split; reflexivity.
Qed.
Lemma accepted C g c first shares chash sd hrr random sid suite exts c' : reachable C g c -> g_side g = Client ->
  c_state c = ClientWaitServerHello first shares chash -> says C None sd (HServerHello hrr random sid suite exts) ->
  handle_content C CT_HANDSHAKE sd c = (Ok tt, c') ->
  exists d u suites hexts groups group share, last_hello (c_hs c) d /\ ser_content C (KHandshake (HClientHello u [] suites hexts)) = Ok d /\
    ext_get 10 hexts = Some (ESupportedGroups groups) /\ ext_get 51 hexts = Some (EKeyShareReq [(group, share)]) /\
    In suite suites /\
    if hrr then exists gr, ext_get 51 exts = Some (EKeyShareRetry gr) /\ In gr groups
    else ext_get 43 exts = Some (ESupVersionsResp 0x0304) /\ exists pub, ext_get 51 exts = Some (EKeyShareResp group pub).
Proof.
  intros R Sd Es Sy H. destruct (reachable_cli C g c R Sd) as (u & _ & _ & _ & _ & _ & Ti). rewrite Es in Ti.
  destruct Ti as (d & suites & groups & hexts & gr & priv & share & T1 & T2 & T3 & T4 & T5 & T6 & T7).
  exists d, u, suites, hexts, groups, gr, share. split; [exact T1|]. split; [exact T2|]. split; [exact T5|]. split; [exact T4|].
  unfold handle_content in H. rewrite bind_get in H. unfold says in Sy. rewrite (parse_content_pct C _ (peer_cert_type c) _ _ Sy eq_refl) in H.
  change (bind (lift (Ok ?v)) ?k c) with (k v c) in H. cbv beta iota in H. cbn [msg_type] in H.
  unfold bind in H. destruct (transcribe sd _ SERVER_HELLO c) as [[[]|] c1] eqn:Et; [|discriminate H].
  assert (c_state c1 = c_state c /\ c_config c1 = c_config c) as [S1 G1].
  { revert Et. unfold transcribe, on_tr, bind. destruct (tr_update sd _ SERVER_HELLO (c_tr c)) as [[[]|] t]; intro X; injection X; intros <-; split; reflexivity. }
  unfold process in H. rewrite bind_get in H. rewrite S1, Es in H. unfold process_wait_sh in H. rewrite bind_get in H. rewrite G1 in H.
  destruct (negb (memN suite (g_suites (c_config c)))) eqn:Em; [discriminate H|]. apply negb_false_iff, memN_in in Em.
  split; [apply T6; exact Em|]. unfold bind at 1 in H.
  match type of H with context [match ?m c1 with _ => _ end] => assert (K : c_config (snd (m c1)) = c_config c); [|destruct (m c1) as [[[]|] c2]; [|discriminate H]; cbn [snd] in K] end.
  { rewrite <- G1. clear. pose proof plainR_pre as P. match goal with |- c_config (snd (?m c1)) = _ => assert (rel plainR m) as Q; [|apply (Q c1)] end.
    unfold set_cipher, tr_method. reli P; try solve [apply rel_modify; plain]; try solve [apply rel_on_tr; plain]. apply plain_send. discriminate. }
  destruct hrr.
  - unfold client_process_hrr in H. change KEY_SHARE with 51 in H. destruct (ext_get 51 exts) as [e|]; [|discriminate H]. destruct e; try discriminate H.
    rewrite bind_get in H. destruct (negb (memN g0 (g_groups (c_config c2)))) eqn:Eg; [discriminate H|]. apply negb_false_iff, memN_in in Eg.
    eexists. split; [reflexivity|]. apply T7. rewrite <- K. exact Eg.
  - unfold client_process_sh in H. unfold bind at 1, modify at 1 in H. cbv beta iota in H. unfold client_negociate_hello in H.
    change SUPPORTED_VERSIONS with 43 in H. destruct (ext_get 43 exts) as [e|]; [|discriminate H]. destruct e; try discriminate H.
    destruct (v =? TLS_1_3) eqn:Ev; [|discriminate H]. apply N.eqb_eq in Ev. subst v. split; [reflexivity|].
    rewrite bind_assoc in H. change (bind (ret tt) ?k ?x) with (k tt x) in H. cbv beta in H. change KEY_SHARE with 51 in H.
    destruct (ext_get 51 exts) as [e|]; [|discriminate H]. destruct e; try discriminate H. destruct (assocN g0 shares) eqn:Ea; [|discriminate H].
    apply assocN_in in Ea. rewrite T3 in Ea. destruct Ea as [Ea|[]]. injection Ea; intros _ <-. eauto.
Qed.
