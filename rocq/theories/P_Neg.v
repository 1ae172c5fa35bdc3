(* What a server settles on. *)
From Verif Require Import Base P_Base Iana Crypto Config Serial Ext Msg Hkdf Cipher Kex Sig Ocsp Transcript Conn
  S_Hist S_Conn S_State S_Utils S_Auth S_Server
  P_Monad P_Frame P_Hist P_Send P_Wp P_State P_Auth.

Lemma find_prefers A (f : A -> bool) (ok : A -> Prop) l x :
  (forall y, f y = true <-> ok y) -> find f l = Some x -> prefers ok l x.
Proof.
  intro E. induction l as [|a l IH]; [discriminate|]. cbn. destruct (f a) eqn:F; intro K.
  - injection K; intros ->. exists [], l. split; [reflexivity|]. split; [apply E; exact F | intros y []].
  - destruct (IH K) as (p & q & -> & O & N). exists (a :: p), q. split; [reflexivity|]. split; [exact O|].
    intros y [<-|I]; [|apply N; exact I]. intro O'. apply E in O'. congruence.
Qed.
Lemma find_none_prefers A (f : A -> bool) (ok : A -> Prop) l : (forall y, f y = true <-> ok y) -> find f l = None ->
  forall y, In y l -> ~ ok y.
Proof. intros E K y I O. apply E in O. rewrite (find_none _ _ K y I) in O. discriminate. Qed.
Lemma memN_iff x l : memN x l = true <-> In x l.
Proof.
  split; [apply memN_in|]. intro I. unfold memN. apply existsb_exists. exists x. split; [exact I | apply N.eqb_refl].
Qed.
Lemma memB_iff x l : memB x l = true <-> In x l.
Proof.
  split; [apply memB_in|]. intro I. unfold memB. apply existsb_exists. exists x. split; [exact I|]. apply beqb_eq. reflexivity.
Qed.
Lemma first_common_prefers ours theirs x : first_common ours theirs = Some x -> prefers (fun y => In y theirs) ours x.
Proof. apply find_prefers. intro y. apply memN_iff. Qed.
Lemma key_schemes oid l : for_public_key_oid oid = Ok l -> l = schemes_of_key oid.
Proof.
  unfold for_public_key_oid, schemes_of_key. intro H.
  repeat match type of H with context [if ?b then _ else _] => destruct b end; try discriminate; injection H; intros <-; reflexivity.
Qed.
Lemma prefers_in A (ok : A -> Prop) l x : prefers ok l x -> In x l.
Proof. intros (a & b & -> & _). apply in_or_app. right. left. reflexivity. Qed.
Lemma prefers_ok A (ok : A -> Prop) l x : prefers ok l x -> ok x.
Proof. intros (a & b & _ & O & _). exact O. Qed.
Lemma prefers_unique A (ok : A -> Prop) l x y : prefers ok l x -> prefers ok l y -> x = y.
Proof.
  intros (a & b & -> & O & N) (a' & b' & E & O' & N').
  revert a' E N'. induction a as [|u a IH]; intros a' E N'; destruct a' as [|v a'].
  - injection E; auto.
  - injection E; intros _ <-. destruct (N' x (or_introl eq_refl) O).
  - injection E; intros _ ->. destruct (N y (or_introl eq_refl) O').
  - injection E; intros E' ->. apply (IH (fun z I => N z (or_intror I)) a' E' (fun z I => N' z (or_intror I))).
Qed.
Lemma assocN_in (A : Type) k (l : list (N * A)) v : assocN k l = Some v -> In (k, v) l.
Proof.
  induction l as [|[a b] l IH]; [discriminate|]. cbn. destruct (k =? a) eqn:E.
  - apply N.eqb_eq in E. subst. intro H; injection H; intros ->. left. reflexivity.
  - intro H. right. apply IH. exact H.
Qed.

(* the fields the walk changes *)
Definition supd {A} (f : A -> nconfig -> Prop) (c : conn) (r : res A) (c' : conn) : Prop :=
  match r with Ok a => exists n', c' = cset_nc (Some n') c /\ f a n' | Err _ => c' = c end.
Section neg.
Variables (C : crypto) (exts : list ext).
Ltac nc_same := match goal with E : c_nc _ = Some ?a, F : c_nc _ = Some ?b |- _ => rewrite E in F; injection F; intros <- end.

Lemma neg_cct c n : c_nc c = Some n ->
  wp (server_neg_cct exts) c (supd (fun e n' => exists v, n' = nset_cct n v /\ cct_pick (c_config c) exts v e) c).
Proof.
  intro En. unfold server_neg_cct, cct_pick. wstep. destruct (require_peer_auth (c_config c)); cbn [negb].
  2:{ wstep. exists n. split; [destruct c; cbn in *; subst; reflexivity|]. exists (n_cct n). split; [destruct n; reflexivity | reflexivity]. }
  destruct (ext_get CLIENT_CERTIFICATE_TYPE exts) as [x|]; [destruct x|]; try (wrun; reflexivity); wstep;
  (destruct (first_common _ _) eqn:F; [|wstep; reflexivity]; apply first_common_prefers in F;
   wrun; [congruence|]; nc_same; eexists; split; [reflexivity|]; eexists; split; [reflexivity|]; eauto 8).
Qed.
Lemma neg_sct c n : c_nc c = Some n ->
  wp (server_neg_sct exts) c (supd (fun e n' => exists v, n' = nset_sct n v /\ sct_pick (c_config c) exts v e) c).
Proof.
  intro En. unfold server_neg_sct, sct_pick. wstep.
  destruct (ext_get SERVER_CERTIFICATE_TYPE exts) as [x|]; [destruct x|]; try (wrun; reflexivity); wstep;
  (destruct (first_common _ _) eqn:F; [|wstep; reflexivity]; apply first_common_prefers in F;
   wrun; [congruence|]; nc_same; eexists; split; [reflexivity|]; eexists; split; [reflexivity|]; eauto 8).
Qed.
Lemma neg_mfl c n : c_nc c = Some n ->
  wp (server_neg_mfl exts) c (supd (fun e n' => exists v, n' = nset_mfl n v /\ mfl_pick (c_config c) exts v e) c).
Proof.
  intro En. unfold server_neg_mfl, mfl_pick. wstep.
  destruct (ext_get MAX_FRAGMENT_LENGTH exts) as [x|]; [destruct x|]; wrun; try reflexivity; try congruence; nc_same;
   eexists; (split; [reflexivity|]); eexists; (split; [reflexivity|]); eauto 8.
Qed.
Lemma neg_alpn c n : c_nc c = Some n ->
  wp (server_neg_alpn exts) c (supd (fun e n' => exists v, n' = nset_alpn n v /\ alpn_pick (c_config c) exts v e) c).
Proof.
  intro En. unfold server_neg_alpn, alpn_pick. wstep.
  destruct (ext_get ALPN exts) as [x|]; [destruct x|]; try (wrun; try reflexivity; try congruence; nc_same;
    eexists; (split; [reflexivity|]); eexists; (split; [reflexivity|]); auto; fail).
  destruct (is_nil (g_alpn (c_config c))) eqn:Ei.
  - wrun; [congruence|]. nc_same. eexists; split; [reflexivity|]. eexists; split; [reflexivity|]. eexists; split; [reflexivity|].
    left. destruct (g_alpn (c_config c)); [auto | discriminate].
  - destruct (find _ _) eqn:F; [|wstep; reflexivity]. apply (find_prefers _ _ (fun y => In y l)) in F; [|intro; apply memB_iff].
    wrun; [congruence|]. nc_same. eexists; split; [reflexivity|]. eexists; split; [reflexivity|]. eexists; split; [reflexivity|].
    right. eauto.
Qed.
Lemma neg_hb c n : c_nc c = Some n ->
  wp (server_neg_heartbeat exts) c (supd (fun e n' => exists v w, n' = nset_echo_hb (nset_send_hb n v) w /\ hb_pick (c_config c) exts v w e) c).
Proof.
  intro En. unfold server_neg_heartbeat, hb_pick. wstep.
  destruct (ext_get HEARTBEAT exts) as [x|]; [destruct x|]; wrun; try reflexivity; try congruence; nc_same;
   eexists; (split; [reflexivity|]); do 2 eexists; (split; [reflexivity|]); eauto 8.
Qed.

(* the whole negotiation *)
Definition neg_ok (c c' : conn) (n n' : nconfig) (out : list ext * list ext * option bytes) : Prop :=
  exists versions groups algs cert rest group sg,
    c_nc c' = Some n' /\ c_sig c' = Some sg /\ n_group n' = Some group /\ n_suite n' = n_suite n /\
    ext_get SUPPORTED_VERSIONS exts = Some (ESupVersionsReq versions) /\ In 0x0304 versions /\
    ext_get SUPPORTED_GROUPS exts = Some (ESupportedGroups groups) /\
    prefers (fun x => In x groups) (g_groups (c_config c)) group /\
    ext_get SIGNATURE_ALGORITHMS exts = Some (ESigAlgs algs) /\ g_chain (c_config c) = Some (cert :: rest) /\
    prefers (fun x => In x (schemes_of_key (cr_cert_pubkey_oid C cert)) /\ In x algs) (g_sigalgs (c_config c)) sg /\
    match out with
    | (clear, enc, None) => True
    | (clear, enc, Some shared) =>
      exists l peer j pub e1 e2 e3 e4 e5, clear = [ESupVersionsResp TLS_1_3; EKeyShareResp group pub] /\
        ext_get KEY_SHARE exts = Some (EKeyShareReq l) /\ In (group, peer) l /\
        kx_init C group (c_rng c j) = Ok pub /\ kx_resume C group (c_rng c j) peer = Ok shared /\
        enc = e1 ++ e2 ++ e3 ++ e4 ++ e5 /\
        cct_pick (c_config c) exts (n_cct n') e1 /\ sct_pick (c_config c) exts (n_sct n') e2 /\
        mfl_pick (c_config c) exts (n_mfl n') e3 /\ alpn_pick (c_config c) exts (n_alpn n') e4 /\
        hb_pick (c_config c) exts (n_send_hb n') (n_echo_hb n') e5 /\
        n_want_ocsp n' = Some (opt_bool (ext_get STATUS_REQUEST exts))
    end.
Lemma neg_server c n : c_nc c = Some n ->
  wp (server_negociate C exts) c (fun r c' => negR c c' /\
    match r with Ok out => exists n', neg_ok c c' n n' out | Err _ => True end).
Proof.
  intro En. apply wp_intro. intros r c' E. split.
  { pose proof (negR_negociate C exts c) as R. rewrite E in R. exact R. }
  revert r c' E. apply wp_eq. unfold server_negociate.
  unfold server_neg_versions. destruct (ext_get SUPPORTED_VERSIONS exts) as [x|] eqn:Ev; [destruct x|]; try (wrun; exact I).
  destruct (memN TLS_1_3 l) eqn:Em; [|wrun; exact I]. apply memN_in in Em. wstep. rename l into versions.
  unfold server_neg_groups. wstep. wstep.
  destruct (ext_get SUPPORTED_GROUPS exts) as [x|] eqn:Eg; [destruct x|]; try (wrun; exact I).
  destruct (first_common _ _) as [group|] eqn:F; [|wrun; exact I]. apply first_common_prefers in F. rename l into groups.
  wstep. wstep; [exact I|]. nc_same. wstep.
  unfold server_neg_sigalgs. wstep. wstep.
  destruct (ext_get SIGNATURE_ALGORITHMS exts) as [x|] eqn:Ea; [destruct x|]; try (wrun; exact I). rename l into algs.
  cbn [c_config cset_nc]. destruct (g_chain (c_config c)) as [[|cert rest]|] eqn:Ec; try (wrun; exact I).
  wstep. wstep; [|exact I]. match goal with E : for_public_key_oid _ = _ |- _ => apply key_schemes in E; subst end.
  destruct (find _ _) as [sg|] eqn:Fs; [|wrun; exact I].
  apply (find_prefers _ _ (fun x => In x (schemes_of_key (cr_cert_pubkey_oid C cert)) /\ In x algs)) in Fs;
    [|intro; rewrite andb_true_iff, !memN_iff; reflexivity].
  wstep.
  assert (Fin : forall c2 clear, c_nc c2 = Some (nset_group n (Some group)) -> c_sig c2 = Some sg ->
     neg_ok c c2 n (nset_group n (Some group)) (clear, [], None)).
  { intros c2 clear E1 E2. exists versions, groups, algs, cert, rest, group, sg. repeat (split; [assumption || reflexivity|]). exact I. }
  unfold server_neg_key_share.
  destruct (ext_get KEY_SHARE exts) as [x|] eqn:Ek; [destruct x|]; try (wrun; exact I).
  2:{ wrun. eexists. apply Fin; reflexivity. }
  destruct (assocN group l) as [peer|] eqn:Ep.
  2:{ wrun. eexists. apply Fin; reflexivity. }
  apply assocN_in in Ep. destruct (memN group named_groups); cbn [negb]; [|wrun; exact I].
  wstep. wstep. wstep. wstep; [|exact I]. wstep. wstep; [|exact I]. wstep.
  match goal with E : on_value_error (kx_init _ _ _) _ = Ok ?a, E' : on_value_error (kx_resume _ _ _ _) _ = Ok ?b |- _ =>
    apply on_value_ok in E, E'; rename E into Ki; rename E' into Kr; rename a into pub; rename b into key end.
  cbn [c_rng c_rngi cset_sig cset_nc] in Ki, Kr.
  destruct key as [|k0 key].
  { wstep. eexists. apply Fin; reflexivity. }
  set (c1 := cset_rngi _ _).
  eapply wpb_mono; [apply neg_cct; reflexivity|]. intros r c2 U. destruct r as [e1|e]; [|exact I]. destruct U as (n1 & -> & v1 & -> & U1).
  eapply wpb_mono; [apply neg_sct; reflexivity|]. intros r c2 U. destruct r as [e2|e]; [|exact I]. destruct U as (n2 & -> & v2 & -> & U2).
  eapply wpb_mono; [apply neg_mfl; reflexivity|]. intros r c2 U. destruct r as [e3|e]; [|exact I]. destruct U as (n3 & -> & v3 & -> & U3).
  eapply wpb_mono; [apply neg_alpn; reflexivity|]. intros r c2 U. destruct r as [e4|e]; [|exact I]. destruct U as (n4 & -> & v4 & -> & U4).
  eapply wpb_mono; [apply neg_hb; reflexivity|]. intros r c2 U. destruct r as [e5|e]; [|exact I]. destruct U as (n5 & -> & w1 & w2 & -> & U5).
  unfold server_neg_status. wstep; [exact I|]. match goal with E : c_nc (cset_nc _ _) = Some ?a |- _ => injection E; intros <- end. wstep.
  eexists. exists versions, groups, algs, cert, rest, group, sg. repeat (split; [assumption || reflexivity|]).
  exists l, peer, (c_rngi c), pub, e1, e2, e3, e4, e5. repeat (split; [assumption || reflexivity|]). reflexivity.
Qed.
End neg.
