(* What a server reads of a ClientHello. *)
From Verif Require Import Base P_Base Iana Crypto Config Serial Ext Msg Hkdf Cipher Kex Sig Ocsp Transcript Conn
  P_Monad P_Frame S_Codec P_Codec S_Grease.

Lemma agree_memN ours a b x : agree ours a b -> In x ours -> memN x a = memN x b.
Proof.
  intros A I. apply Bool.eq_true_iff_eq. unfold memN. rewrite !existsb_exists.
  split; intros (y & Iy & E); apply N.eqb_eq in E; subst y; exists x; (split; [apply (A x I); exact Iy | apply N.eqb_refl]).
Qed.
Lemma agree_memB ours a b x : agree ours a b -> In x ours -> memB x a = memB x b.
Proof.
  intros A I. apply Bool.eq_true_iff_eq. unfold memB. rewrite !existsb_exists.
  split; intros (y & Iy & E); apply beqb_eq in E; subst y; exists x; (split; [apply (A x I); exact Iy | apply beqb_eq; reflexivity]).
Qed.
Lemma find_same {A} (f g : A -> bool) l : (forall x, In x l -> f x = g x) -> find f l = find g l.
Proof.
  induction l as [|x l IH]; intros H; [reflexivity|]. cbn [find]. rewrite (H x) by (left; reflexivity).
  destruct (g x); [reflexivity | apply IH; intros; apply H; right; assumption].
Qed.
Lemma agree_common ours a b : agree ours a b -> first_common ours a = first_common ours b.
Proof. intro A. apply find_same. intros x I. exact (agree_memN _ _ _ x A I). Qed.

Lemma assoc_in {A} x (l : list (N * A)) v : NoDup (map fst l) -> (assocN x l = Some v <-> In (x, v) l).
Proof.
  induction l as [|[k w] l IH]; intros D; cbn [assocN In]; [split; [discriminate | tauto]|].
  inversion D as [|? ? Nk D']; subst. destruct (N.eqb_spec x k) as [->|Ne].
  - split; [intro E; injection E; intros <-; left; reflexivity|]. intros [E|I]; [injection E; intros <-; reflexivity|].
    exfalso. apply Nk. apply in_map_iff. exists (k, v). split; [reflexivity | exact I].
  - rewrite (IH D'). split; [intro I; right; exact I | intros [E|I]; [injection E; intros; subst; contradiction | exact I]].
Qed.
Lemma get_in ty l e : NoDup (map ext_type l) -> In e l -> ext_type e = ty -> ext_get ty l = Some e.
Proof.
  unfold ext_get. induction l as [|x l IH]; intros D I E; [destruct I|]. cbn [find]. inversion D as [|? ? Nx D']; subst.
  destruct I as [->|I]; [rewrite N.eqb_refl; reflexivity|]. destruct (N.eqb_spec (ext_type x) (ext_type e)) as [Ex|_].
  - exfalso. apply Nx. rewrite Ex. apply in_map. exact I.
  - apply (IH D' I eq_refl).
Qed.
Lemma get_some ty l e : ext_get ty l = Some e -> In e l /\ ext_type e = ty.
Proof. intro H. apply find_some in H. destruct H as [I E]. apply N.eqb_eq in E. split; assumption. Qed.
Lemma same_type g a b : same g a b -> ext_type a = ext_type b.
Proof. intros []; reflexivity. Qed.
Lemma alike_get g a b ty : alike g a b -> In ty heard ->
  match ext_get ty a, ext_get ty b with None, None => True | Some x, Some y => same g x y | _, _ => False end.
Proof.
  intros (Da & Db & Ha & Hb) I. destruct (ext_get ty a) as [x|] eqn:Ea.
  - apply get_some in Ea. destruct Ea as [Ix Ex]. destruct (Ha x Ix) as (y & Iy & S); [rewrite Ex; exact I|].
    rewrite (get_in ty b y Db Iy) by (rewrite <- (same_type _ _ _ S); exact Ex). exact S.
  - destruct (ext_get ty b) as [y|] eqn:Eb; [|exact Logic.I]. apply get_some in Eb. destruct Eb as [Iy Ey].
    destruct (Hb y Iy) as (x & Ix & S); [rewrite Ey; exact I|].
    rewrite (get_in ty a x Da Ix) in Ea by (rewrite (same_type _ _ _ S); exact Ey). discriminate.
Qed.

(* the same actions on the connections configured so, which stay so *)
Definition twin {A} (g : config) (P : A -> Prop) (m m' : M A) : Prop :=
  forall c, c_config c = g -> m c = m' c /\ (forall x, fst (m c) = Ok x -> P x /\ c_config (snd (m c)) = g).
Definition any {A} (_ : A) : Prop := True.
Lemma twin_bind {A B} g P Q (m m' : M A) (f f' : A -> M B) : twin g P m m' -> (forall x, P x -> twin g Q (f x) (f' x)) -> twin g Q (bind m f) (bind m' f').
Proof.
  intros Hm Hf c E. destruct (Hm c E) as [Em Ec]. unfold bind. rewrite <- Em. destruct (m c) as [[x|e] c1]; cbn [fst snd] in *.
  - destruct (Ec x eq_refl) as [Px E1]. exact (Hf x Px c1 E1).
  - split; [reflexivity | discriminate].
Qed.
Lemma twin_get {A} g Q (f f' : conn -> M A) : (forall c, c_config c = g -> f c c = f' c c /\ (forall x, fst (f c c) = Ok x -> Q x /\ c_config (snd (f c c)) = g)) ->
  twin g Q (bind get f) (bind get f').
Proof. intros H c E. rewrite !bind_get. apply H. exact E. Qed.
Definition unmoved (c c' : conn) : Prop := c_config c' = c_config c.
Lemma unmoved_pre : preorder unmoved.
Proof. split; [intro; reflexivity | intros a b c; unfold unmoved; congruence]. Qed.
Lemma twin_rel {A} g (m : M A) : rel unmoved m -> twin g any m m.
Proof. intros R c E. split; [reflexivity | intros x _; split; [exact Logic.I | rewrite (R c); exact E]]. Qed.
Lemma twin_ret {A} g (P : A -> Prop) x : P x -> twin g P (ret x) (ret x).
Proof. intros H c E. split; [reflexivity|]. intros y Ey. injection Ey; intros <-. split; assumption. Qed.
Lemma twin_raise {A} g (P : A -> Prop) e : twin g P (raise e) (raise e).
Proof. intros c E. split; [reflexivity | discriminate]. Qed.
Lemma twin_nc g f : twin g any (upd_nc f) (upd_nc f).
Proof. apply twin_rel. apply (rel_upd_nc _ unmoved_pre). reflexivity. Qed.
Ltac nc := (eapply twin_bind; [apply twin_nc|]; intros _ _).
Ltac ends := repeat (first [apply twin_raise | apply twin_ret; exact Logic.I | apply twin_nc | nc]).

Section offer.
Context (C : crypto) (g : config) (a b : list ext) (K : alike g a b).
Ltac look ty := let H := fresh "G" in assert (H := alike_get g a b ty K ltac:(unfold heard; cbn [In]; tauto));
  destruct (ext_get ty a) as [?x|], (ext_get ty b) as [?y|]; try (destruct H; fail).
Lemma twin_versions : twin g any (server_neg_versions a) (server_neg_versions b).
Proof.
  unfold server_neg_versions. look SUPPORTED_VERSIONS; [|ends].
  destruct G as [e|l l' A| | | | | | |]; try (ends; fail).
  - destruct e; try (apply twin_raise). destruct (memN _ _); ends.
  - rewrite (agree_memN _ _ _ TLS_1_3 A) by (left; reflexivity). destruct (memN _ _); ends.
Qed.
Ltac cfg := match goal with E : c_config ?c = g |- context [c_config ?c] => rewrite E end.
Lemma common_in x l : first_common (g_groups g) l = Some x -> In x (g_groups g).
Proof. intro H. apply find_some in H. apply H. Qed.
Lemma twin_groups : twin g (fun gr => In gr (g_groups g)) (server_neg_groups a) (server_neg_groups b).
Proof.
  unfold server_neg_groups. apply twin_get. intros c E. cfg. revert c E.
  look SUPPORTED_GROUPS; [|apply twin_raise].
  assert (F : forall l, twin g (fun gr => In gr (g_groups g))
    (match first_common (g_groups g) l with None => raise (XAlert HANDSHAKE_FAILURE) | Some gr => upd_nc (fun n => nset_group n (Some gr)) ;; ret gr end)
    (match first_common (g_groups g) l with None => raise (XAlert HANDSHAKE_FAILURE) | Some gr => upd_nc (fun n => nset_group n (Some gr)) ;; ret gr end)).
  { intro l. destruct (first_common (g_groups g) l) as [gr|] eqn:Ef; [|apply twin_raise]. nc. apply twin_ret. exact (common_in _ _ Ef). }
  destruct G as [e| |l l' A| | | | | |]; try apply twin_raise; [destruct e; try apply twin_raise; apply F|].
  rewrite (agree_common _ _ _ A). apply F.
Qed.
Lemma twin_algs : twin g any (server_neg_sigalgs C a) (server_neg_sigalgs C b).
Proof.
  unfold server_neg_sigalgs. apply twin_get. intros c E. cfg. revert c E.
  look SIGNATURE_ALGORITHMS; [|apply twin_raise].
  assert (F : forall l l', agree (g_sigalgs g) l l' -> forall cert, twin g any
    (do suites <- lift (for_public_key_oid (cr_cert_pubkey_oid C cert));
     match find (fun s => memN s suites && memN s l) (g_sigalgs g) with None => raise (XAlert HANDSHAKE_FAILURE) | Some s => modify (cset_sig (Some s)) end)
    (do suites <- lift (for_public_key_oid (cr_cert_pubkey_oid C cert));
     match find (fun s => memN s suites && memN s l') (g_sigalgs g) with None => raise (XAlert HANDSHAKE_FAILURE) | Some s => modify (cset_sig (Some s)) end)).
  { intros l l' A cert. eapply (twin_bind g any); [apply twin_rel; intro c; apply unmoved_pre|]. intros suites _.
    rewrite (find_same _ (fun s => memN s suites && memN s l')) by (intros s I; rewrite (agree_memN _ _ _ s A I); reflexivity).
    destruct (find _ _); [|apply twin_raise]. apply twin_rel. intro c. reflexivity. }
  destruct G as [e| | |l l' A| | | | |]; try apply twin_raise.
  - destruct e; try apply twin_raise. destruct (g_chain g) as [[|cert ?]|]; try apply twin_raise. apply F. intros ? ?. tauto.
  - destruct (g_chain g) as [[|cert ?]|]; try apply twin_raise. apply F. exact A.
Qed.
Lemma twin_share gr : In gr (g_groups g) -> twin g any (server_neg_key_share C gr a) (server_neg_key_share C gr b).
Proof.
  intro I. unfold server_neg_key_share. look KEY_SHARE; [|ends].
  assert (F : forall o, twin g (@any (ext * option bytes))
    match o with Some peer => if negb (memN gr named_groups) then raise XKey
      else do priv <- draw; do share <- lift (on_value_error (kx_init C gr priv) (XAlert HANDSHAKE_FAILURE));
        do shared <- lift (on_value_error (kx_resume C gr priv peer) (XAlert HANDSHAKE_FAILURE)); ret (EKeyShareResp gr share, Some shared)
    | None => ret (EKeyShareRetry gr, None) end
    match o with Some peer => if negb (memN gr named_groups) then raise XKey
      else do priv <- draw; do share <- lift (on_value_error (kx_init C gr priv) (XAlert HANDSHAKE_FAILURE));
        do shared <- lift (on_value_error (kx_resume C gr priv peer) (XAlert HANDSHAKE_FAILURE)); ret (EKeyShareResp gr share, Some shared)
    | None => ret (EKeyShareRetry gr, None) end).
  { intros [peer|]; [|ends]. destruct (negb _); [ends|]. apply twin_rel.
    apply (rel_bind _ unmoved_pre); [intro c; unfold draw; rewrite bind_get; reflexivity|]. intro priv.
    apply (rel_bind _ unmoved_pre); [intro c; apply unmoved_pre|]. intro share.
    apply (rel_bind _ unmoved_pre); [intro c; apply unmoved_pre|]. intro sh. intro c; apply unmoved_pre. }
  destruct G as [e| | | |l l' D D' A| | | |]; try apply twin_raise.
  - destruct e; try apply twin_raise. apply F.
  - replace (assocN gr l') with (assocN gr l); [apply F|].
    destruct (assocN gr l) as [k|] eqn:Ek.
    + symmetry. apply (assoc_in gr l' k D'). apply (A gr k I). apply (assoc_in gr l k D). exact Ek.
    + destruct (assocN gr l') as [k|] eqn:Ek'; [|reflexivity]. apply (assoc_in gr l' k D') in Ek'. apply (A gr k I) in Ek'.
      apply (assoc_in gr l k D) in Ek'. congruence.
Qed.
Ltac brt := let c := fresh in let E := fresh in intros c E; rewrite !bind_ret; revert c E.
Ltac bra := let c := fresh in let E := fresh in intros c E; change (bind (raise XAttr) ?f c) with (@raise (list ext) XAttr c); revert c E; apply twin_raise.
Lemma twin_cct : twin g any (server_neg_cct a) (server_neg_cct b).
Proof.
  unfold server_neg_cct. apply twin_get. intros c E. cfg. revert c E. destruct (negb _); [apply twin_ret; exact Logic.I|].
  look CLIENT_CERTIFICATE_TYPE.
  - destruct G as [e| | | | |l l' A| | |]; try (apply twin_rel; intro c; apply unmoved_pre).
    + apply twin_rel. destruct e; try (intro; apply unmoved_pre). intro z. rewrite bind_ret.
      destruct (first_common _ _); [|apply unmoved_pre]. apply (rel_bind _ unmoved_pre); [|intros ? ?; apply unmoved_pre].
      apply (rel_upd_nc _ unmoved_pre). reflexivity.
    + brt. rewrite (agree_common _ _ _ A). destruct (first_common _ _); ends.
  - brt. destruct (first_common _ _); ends.
Qed.
Lemma twin_sct : twin g any (server_neg_sct a) (server_neg_sct b).
Proof.
  unfold server_neg_sct. apply twin_get. intros c E. cfg. revert c E.
  look SERVER_CERTIFICATE_TYPE.
  - destruct G as [e| | | | | |l l' A| |]; try (apply twin_rel; intro c; apply unmoved_pre).
    + apply twin_rel. destruct e; try (intro; apply unmoved_pre). intro z. rewrite bind_ret.
      destruct (first_common _ _); [|apply unmoved_pre]. apply (rel_bind _ unmoved_pre); [|intros ? ?; apply unmoved_pre].
      apply (rel_upd_nc _ unmoved_pre). reflexivity.
    + brt. rewrite (agree_common _ _ _ A). destruct (first_common _ _); ends.
  - brt. destruct (first_common _ _); ends.
Qed.
Lemma twin_mfl : twin g any (server_neg_mfl a) (server_neg_mfl b).
Proof.
  unfold server_neg_mfl. apply twin_get. intros c E. cfg. revert c E.
  look MAX_FRAGMENT_LENGTH; [|ends]. destruct G as [e| | | | | | | |]; try apply twin_raise.
  destruct e; try apply twin_raise. destruct (mfl_octets _); ends.
Qed.
Lemma twin_alpn : twin g any (server_neg_alpn a) (server_neg_alpn b).
Proof.
  unfold server_neg_alpn. apply twin_get. intros c E. cfg. revert c E.
  look ALPN; [|ends]. destruct G as [e| | | | | | |l l' A|]; try apply twin_raise.
  - destruct e; try apply twin_raise. destruct (is_nil _); [ends|]. destruct (find _ _); ends.
  - destruct (is_nil _); [ends|]. rewrite (find_same _ (fun p => memB p l')) by (intros p I; exact (agree_memB _ _ _ p A I)).
    destruct (find _ _); ends.
Qed.
Lemma twin_heartbeat : twin g any (server_neg_heartbeat a) (server_neg_heartbeat b).
Proof.
  unfold server_neg_heartbeat. apply twin_get. intros c E. cfg. revert c E.
  look HEARTBEAT; [|ends]. destruct G as [e| | | | | | | |]; try apply twin_raise.
  destruct e; try apply twin_raise. ends.
Qed.
Lemma twin_status : twin g any (server_neg_status a) (server_neg_status b).
Proof.
  unfold server_neg_status. look STATUS_REQUEST; apply twin_nc.
Qed.
Lemma twin_negociate : twin g any (server_negociate C a) (server_negociate C b).
Proof.
  unfold server_negociate. eapply twin_bind; [apply twin_versions|]. intros _ _.
  eapply twin_bind; [apply twin_groups|]. intros gr I.
  eapply twin_bind; [apply twin_algs|]. intros _ _.
  eapply twin_bind; [apply (twin_share gr I)|]. intros [ks shared] _.
  destruct shared as [[|x s]|]; [ends | | ends].
  eapply twin_bind; [apply twin_cct|]. intros e1 _.
  eapply twin_bind; [apply twin_sct|]. intros e2 _.
  eapply twin_bind; [apply twin_mfl|]. intros e3 _.
  eapply twin_bind; [apply twin_alpn|]. intros e4 _.
  eapply twin_bind; [apply twin_heartbeat|]. intros e5 _.
  eapply twin_bind; [apply twin_status|]. intros _ _. ends.
Qed.
End offer.

Lemma twin_setup g random a b : agree (g_suites g) a b -> twin g any (server_setup random a) (server_setup random b).
Proof.
  intros A. unfold server_setup. eapply (twin_bind g any); [apply twin_rel; intro; reflexivity|]. intros _ _.
  apply twin_get. intros c E. rewrite E, (agree_common _ _ _ A). revert c E. destruct (first_common _ _) as [suite|]; [|apply twin_raise].
  apply twin_rel. apply (rel_bind _ unmoved_pre); [apply (rel_upd_nc _ unmoved_pre); reflexivity|]. intros _.
  apply (rel_bind _ unmoved_pre); [intro; reflexivity|]. intros _. destruct (suite_hash suite); [|intro; apply unmoved_pre].
  apply (rel_bind _ unmoved_pre); [|intros _].
  - intro c. unfold set_cipher. repeat (rewrite ?bind_get, ?bind_modify). reflexivity.
  - apply rel_on_tr. reflexivity.
Qed.

Lemma bind_cong {A B} (m m' : M A) (f f' : A -> M B) c : m c = m' c -> (forall x c1, m c = (Ok x, c1) -> f x c1 = f' x c1) -> bind m f c = bind m' f' c.
Proof. intros E H. unfold bind. rewrite <- E. destruct (m c) as [[x|e] c1]; [apply H; reflexivity | reflexivity]. Qed.
Lemma process_alike C c first random sid suites suites' exts exts' :
  c_state c = ServerWaitClientHello first -> agree (g_suites (c_config c)) suites suites' -> alike (c_config c) exts exts' ->
  process C (KHandshake (HClientHello random sid suites exts)) c = process C (KHandshake (HClientHello random sid suites' exts')) c.
Proof.
  intros S A K. unfold process. rewrite !bind_get, S. unfold process_wait_ch. rewrite !bind_get.
  set (g := c_config c) in *. assert (E : c_config c = g) by reflexivity. clearbody g.
  assert (T : twin g any (if negb first then match first_common g.(g_suites) suites with None => raise (XAlert HANDSHAKE_FAILURE)
       | Some _ => if match c_cunique c with Some u => beqb random u | None => false end then ret tt else raise (XAlert ILLEGAL_PARAMETER) end else server_setup random suites)
    (if negb first then match first_common g.(g_suites) suites' with None => raise (XAlert HANDSHAKE_FAILURE)
       | Some _ => if match c_cunique c with Some u => beqb random u | None => false end then ret tt else raise (XAlert ILLEGAL_PARAMETER) end else server_setup random suites')).
  { destruct first; cbn [negb]; [apply twin_setup; exact A|]. rewrite (agree_common _ _ _ A). destruct (first_common _ _); [|apply twin_raise].
    destruct (match c_cunique c with Some u => beqb random u | None => false end); ends. }
  destruct (T c E) as [T1 T2]. apply bind_cong; [exact T1|]. intros x c1 Ec. rewrite Ec in T2. destruct (T2 x eq_refl) as [_ E1]. cbn [snd] in E1.
  apply bind_cong; [apply (twin_negociate C g exts exts' K c1 E1)|]. reflexivity.
Qed.

(* an extension of an unknown type, anywhere *)
Lemma alike_insert g pre post e : NoDup (map ext_type (pre ++ e :: post)) -> ~ In (ext_type e) heard -> alike g (pre ++ post) (pre ++ e :: post).
Proof.
  intros D N. split; [|split; [exact D|split]].
  - rewrite map_app in *. cbn [map] in D. apply NoDup_remove_1 in D. exact D.
  - intros x I _. exists x. split; [|constructor]. apply in_app_iff in I. apply in_app_iff. cbn [In]. tauto.
  - intros x I Hx. apply in_app_iff in I. cbn [In] in I. destruct I as [I|[<-|I]]; [| contradiction |]; exists x; (split; [apply in_app_iff; tauto | constructor]).
Qed.
Lemma unknown_read C pct random sid suites suites' pre post t data b :
  message_ok C pct (HClientHello random sid suites (pre ++ post)) -> suites' <> [] ->
  ~ In t (map fst rfc_places) -> ~ In t (map ext_type (pre ++ post)) ->
  ser_content C (KHandshake (HClientHello random sid suites' (pre ++ EUnknown t data :: post))) = Ok b ->
  parse_content C pct CT_HANDSHAKE b = Ok (KHandshake (HClientHello random sid suites' (pre ++ EUnknown t data :: post))).
Proof.
  intros (Lr & _ & D & F) Ns Nt Nu E. apply (content_roundtrip C pct (KHandshake _) b); [|exact E].
  split; [exact Lr|]. split; [exact Ns|]. split.
  - rewrite map_app in *. cbn [map ext_type]. apply NoDup_Add with (a := t) (l := map ext_type pre ++ map ext_type post); [apply Add_app|]. split; assumption.
  - apply Forall_app in F. destruct F as [F1 F2]. apply Forall_app. split; [exact F1|]. constructor; [|exact F2].
    split; [exact Logic.I | exact Nt].
Qed.
