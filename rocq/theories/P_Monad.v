(* Reasoning about computations on the connection. *)
From Verif Require Import Base Iana Crypto Config Serial Ext Msg Hkdf Cipher Kex Sig Ocsp Transcript Conn.

(* --- what any outcome preserves ---------------------------------------- *)
Definition rel (R : conn -> conn -> Prop) {A} (m : M A) : Prop := forall c, R c (snd (m c)).

Record preorder (R : conn -> conn -> Prop) : Prop := {
  pre_refl : forall c, R c c;
  pre_trans : forall a b c, R a b -> R b c -> R a c }.

Section rel.
Variable R : conn -> conn -> Prop.
Hypothesis P : preorder R.
Lemma rel_ret A (a : A) : rel R (ret a). Proof. intro; apply P. Qed.
Lemma rel_raise A e : rel R (@raise A e). Proof. intro; apply P. Qed.
Lemma rel_lift A (r : res A) : rel R (lift r). Proof. intro; apply P. Qed.
Lemma rel_getm : rel R get. Proof. intro; apply P. Qed.
Lemma rel_bind A B (m : M A) (f : A -> M B) :
  rel R m -> (forall a, rel R (f a)) -> rel R (bind m f).
Proof.
  intros Hm Hf c. unfold bind. specialize (Hm c).
  destruct (m c) as [[a|e] c1]; cbn [snd] in *; [|exact Hm].
  eapply P; [exact Hm | apply Hf].
Qed.
Lemma rel_get A (f : conn -> M A) : (forall c, R c (snd (f c c))) -> rel R (bind get f).
Proof. intros H c. apply H. Qed.
Lemma rel_get' A (f : conn -> M A) : (forall c, rel R (f c)) -> rel R (bind get f).
Proof. intros H c. apply H. Qed.
Lemma rel_modify f : (forall c, R c (f c)) -> rel R (modify f).
Proof. intros H c. apply H. Qed.
Lemma rel_set_state s : (forall c, R c (cset_state s c)) -> rel R (set_state s).
Proof. apply rel_modify. Qed.
Lemma rel_on_cipher A (f : cs -> res A * cs) :
  (forall x c, c_cipher c = Some x -> R c (cset_cipher (Some (snd (f x))) c)) -> rel R (on_cipher f).
Proof.
  intros H. apply rel_get. intro c. specialize (H) .
  destruct (c_cipher c) as [x|] eqn:E; [|apply P].
  specialize (H x c E). destruct (f x) as [r x1]. cbn. exact H.
Qed.
Lemma rel_on_tr A (f : transcript -> res A * transcript) :
  (forall c, R c (cset_tr (snd (f (c_tr c))) c)) -> rel R (on_tr f).
Proof.
  intros H c. specialize (H c). unfold on_tr. destruct (f (c_tr c)) as [r t]. exact H.
Qed.
Lemma rel_upd_nc f : (forall c v, R c (cset_nc v c)) -> rel R (upd_nc f).
Proof.
  intros H. apply rel_get. intro c. destruct (c_nc c); [apply H | apply P].
Qed.
End rel.

(* --- what a state predicate becomes ------------------------------------ *)
Definition keeps (I : conn -> Prop) {A} (m : M A) : Prop := forall c, I c -> I (snd (m c)).
Lemma keeps_rel (I : conn -> Prop) A (m : M A) : rel (fun c c' => I c -> I c') m <-> keeps I m.
Proof. split; intros H c; apply H. Qed.
Lemma of_rel (I : conn -> Prop) A (m : M A) : rel (fun c c' => I c -> I c') m -> keeps I m.
Proof. intros H c; apply H. Qed.
Lemma to_rel (I : conn -> Prop) A (m : M A) : keeps I m -> rel (fun c c' => I c -> I c') m.
Proof. intros H c; apply H. Qed.
Lemma impl_preorder (I : conn -> Prop) : preorder (fun c c' => I c -> I c').
Proof. split; auto. Qed.

(* --- inversion of a computation ---------------------------------------- *)
Lemma bind_ok A B (m : M A) (f : A -> M B) c b c' :
  bind m f c = (Ok b, c') -> exists a c1, m c = (Ok a, c1) /\ f a c1 = (Ok b, c').
Proof.
  unfold bind. destruct (m c) as [[a|e] c1]; [|discriminate]. intro H. exists a, c1. auto.
Qed.
Lemma bind_err A B (m : M A) (f : A -> M B) c e c' :
  bind m f c = (Err e, c') ->
  m c = (Err e, c') \/ exists a c1, m c = (Ok a, c1) /\ f a c1 = (Err e, c').
Proof.
  unfold bind. destruct (m c) as [[a|e'] c1].
  - intro H. right. exists a, c1. auto.
  - intro H. left. injection H; intros; subst. reflexivity.
Qed.
Lemma bind_eq A B (m : M A) (f : A -> M B) c r c1 :
  m c = (r, c1) ->
  bind m f c = match r with Ok a => f a c1 | Err e => (Err e, c1) end.
Proof. intro H. unfold bind. rewrite H. destruct r; reflexivity. Qed.
Lemma bind_get A (f : conn -> M A) c : bind get f c = f c c. Proof. reflexivity. Qed.
Lemma bind_modify A f (g : unit -> M A) c : bind (modify f) g c = g tt (f c). Proof. reflexivity. Qed.
Lemma bind_ret A B (a : A) (f : A -> M B) c : bind (ret a) f c = f a c. Proof. reflexivity. Qed.
Lemma bind_assoc A B D (m : M A) (f : A -> M B) (g : B -> M D) c :
  bind (bind m f) g c = bind m (fun a => bind (f a) g) c.
Proof. unfold bind. destruct (m c) as [[a|e] c1]; reflexivity. Qed.
Lemma lift_inv A (r r' : res A) c c' : lift r c = (r', c') -> r = r' /\ c' = c.
Proof. intro H; injection H; auto. Qed.
Lemma ret_inv A (a : A) r c c' : ret a c = (r, c') -> r = Ok a /\ c' = c.
Proof. intro H; injection H; auto. Qed.
Lemma raise_inv A e (r : res A) c c' : raise e c = (r, c') -> r = Err e /\ c' = c.
Proof. intro H; injection H; auto. Qed.
Lemma get_inv r c c' : get c = (r, c') -> r = Ok c /\ c' = c.
Proof. intro H; injection H; auto. Qed.
Lemma modify_inv f r c c' : modify f c = (r, c') -> r = Ok tt /\ c' = f c.
Proof. intro H; injection H; auto. Qed.
Lemma on_cipher_inv A (f : cs -> res A * cs) c r c' :
  on_cipher f c = (r, c') ->
  (c_cipher c = None /\ r = Err XAttr /\ c' = c) \/
  exists x x1, c_cipher c = Some x /\ f x = (r, x1) /\ c' = cset_cipher (Some x1) c.
Proof.
  unfold on_cipher. rewrite bind_get. destruct (c_cipher c) as [x|].
  - destruct (f x) as [r1 x1] eqn:E. cbn. intro H; injection H; intros; subst. right. exists x, x1. auto.
  - intro H. injection H; intros; subst. left. auto.
Qed.
Lemma on_tr_inv A (f : transcript -> res A * transcript) c r c' :
  on_tr f c = (r, c') -> exists t, f (c_tr c) = (r, t) /\ c' = cset_tr t c.
Proof.
  unfold on_tr. destruct (f (c_tr c)) as [r1 t]. intro H. injection H; intros; subst. exists t. auto.
Qed.
Lemma upd_nc_inv f c r c' :
  upd_nc f c = (r, c') ->
  (c_nc c = None /\ r = Err XAttr /\ c' = c) \/
  exists n, c_nc c = Some n /\ r = Ok tt /\ c' = cset_nc (Some (f n)) c.
Proof.
  unfold upd_nc. rewrite bind_get. destruct (c_nc c) as [n|]; intro H; injection H; intros; subst.
  - right. exists n. auto.
  - left. auto.
Qed.
Lemma digest_inv C c r c' : digest C c = (r, c') -> r = tr_digest C (c_tr c) /\ c' = c.
Proof. unfold digest. rewrite bind_get. intro H. apply lift_inv in H. intuition. Qed.

(* follow the successful execution of H *)
Ltac oki1 :=
  match goal with
  | H : bind get _ _ = (Ok _, _) |- _ => rewrite bind_get in H
  | H : bind (modify _) _ _ = (Ok _, _) |- _ => rewrite bind_modify in H
  | H : bind (ret _) _ _ = (Ok _, _) |- _ => rewrite bind_ret in H
  | H : bind _ _ _ = (Ok _, _) |- _ =>
      let a := fresh "v" in let c := fresh "c" in let H1 := fresh "S" in
      apply bind_ok in H; destruct H as (a & c & H1 & H)
  | H : ret _ _ = (Ok _, _) |- _ =>
      apply ret_inv in H; let E := fresh in destruct H as [E H]; try (injection E; clear E; intro E); subst
  | H : raise _ _ = (Ok _, _) |- _ => discriminate H
  | H : lift _ _ = (Ok _, _) |- _ => apply lift_inv in H; let E := fresh in destruct H as [H E]; subst
  | H : modify _ _ = (Ok _, _) |- _ => apply modify_inv in H; destruct H as [_ H]; subst
  | H : set_state _ _ = (Ok _, _) |- _ => unfold set_state in H; apply modify_inv in H; destruct H as [_ H]; subst
  | H : digest _ _ = (Ok _, _) |- _ =>
      apply digest_inv in H; let E := fresh in destruct H as [H E]; subst
  | H : (if ?b then _ else _) _ = (Ok _, _) |- _ => let E := fresh "B" in destruct b eqn:E
  | H : match ?x with _ => _ end _ = (Ok _, _) |- _ => let E := fresh "B" in destruct x eqn:E
  | H : (let (_, _) := ?x in _) _ = (Ok _, _) |- _ => let E := fresh "B" in destruct x eqn:E
  end.
Ltac oki := repeat (oki1; cbv beta zeta in *; try discriminate).

Ltac reli P :=
  repeat match goal with
  | |- rel _ (ret _) => apply (rel_ret _ P)
  | |- rel _ (raise _) => apply (rel_raise _ P)
  | |- rel _ (lift _) => apply (rel_lift _ P)
  | |- rel _ get => apply (rel_getm _ P)
  | |- rel _ (bind get _) => apply rel_get'; intro
  | |- rel _ (bind _ _) => apply (rel_bind _ P); [|intro]
  | |- rel _ (digest _) => unfold digest
  | |- rel _ (match ?x with _ => _ end) => destruct x
  | |- rel _ (let (_, _) := ?x in _) => destruct x
  | |- rel _ (if ?x then _ else _) => destruct x
  end.

(* --- relations closed under what the handshake does -------------------- *)
Record stable (C : crypto) (R : conn -> conn -> Prop) : Prop := {
  st_pre : preorder R;
  st_config : forall c s g l, R c (cset_config (restrict (c_config c) s g l) c);
  st_nc_new : forall c s, R c (cset_nc (Some (nconfig_new s)) c);
  st_nc_upd : forall c n f, c_nc c = Some n -> (forall m, n_mfl (f m) = n_mfl m) ->
    R c (cset_nc (Some (f n)) c);
  st_cmfl : forall exts, rel R (client_neg_mfl exts);
  st_smfl : forall exts, rel R (server_neg_mfl exts);
  st_sig : forall c v, R c (cset_sig v c);
  st_cunique : forall c v, R c (cset_cunique v c);
  st_sunique : forall c v, R c (cset_sunique v c);
  st_rngi : forall c v, R c (cset_rngi v c);
  st_state : forall c v, R c (cset_state v c);
  st_transcribe : forall d sd ty, rel R (transcribe d sd ty);
  st_post : forall h, rel R (tr_method (tr_post_init h));
  st_dance : forall sd h, rel R (tr_method (tr_dance sd h));
  st_cs_new : forall s sd, rel R (set_cipher s sd);
  st_skip : rel R (on_cipher (skip_early_secrets C));
  st_hsk : forall a b, rel R (on_cipher (derive_handshake_secrets C a b));
  st_msk : forall a b, rel R (on_cipher (derive_master_secrets C a b));
  st_decrypt : forall d a, rel R (on_cipher (decrypt C d a));
  st_send : forall k, rel R (send_content C k) }.
(* the same without looking at the values *)
Record stable_any (R : conn -> conn -> Prop) : Prop := {
  sa_pre : preorder R;
  sa_config : forall c v, R c (cset_config v c);
  sa_nc : forall c v, R c (cset_nc v c);
  sa_sig : forall c v, R c (cset_sig v c);
  sa_cunique : forall c v, R c (cset_cunique v c);
  sa_sunique : forall c v, R c (cset_sunique v c);
  sa_rngi : forall c v, R c (cset_rngi v c);
  sa_state : forall c v, R c (cset_state v c);
  sa_tr : forall c v, R c (cset_tr v c);
  sa_hs : forall c v, R c (cset_hs v c);
  sa_cipher : forall c v, R c (cset_cipher v c);
  sa_log : forall c v, R c (cset_log v c);
  sa_out : forall c v, R c (cset_out (c_out c ++ v) c) }.
Section any.
Variable C : crypto.
Variable R : conn -> conn -> Prop.
Hypothesis S : stable_any R.
Let P := sa_pre R S.
Lemma any_on_cipher A (f : cs -> res A * cs) : rel R (on_cipher f).
Proof. apply (rel_on_cipher _ P). intros; apply S. Qed.
Lemma any_transcribe d sd ty : rel R (transcribe d sd ty).
Proof.
  unfold transcribe. reli P. apply rel_on_tr; intros; apply S. apply rel_modify; intro; apply S.
Qed.
Lemma any_encrypt_fragment ct mfl f : rel R (encrypt_fragment C ct mfl f).
Proof.
  unfold encrypt_fragment. apply rel_get'. intro c0. cbv zeta. reli P.
  - intro c. pose proof (any_on_cipher _ (encrypt C (inner_bytes ct mfl (tag_len c0) f) (Nb CT_APPDATA :: x03 :: x03 :: a)) c) as H.
    destruct (on_cipher _ c) as [[x|e] c1]; exact H.
  - apply rel_modify; intro; apply S.
Qed.
Lemma any_send_fragments ct mfl l : rel R (send_fragments C ct mfl l).
Proof.
  induction l as [|f l IH]; cbn [send_fragments]; reli P.
  - apply any_encrypt_fragment.
  - apply IH.
Qed.
Lemma any_send_content k : rel R (send_content C k).
Proof.
  unfold send_content. reli P;
    try apply any_transcribe; try apply any_send_fragments;
    apply rel_modify; intro; apply S.
Qed.
End any.
Lemma any_stable C R : stable_any R -> stable C R.
Proof.
  intros S. pose proof (sa_pre R S) as P. split; try (intros; apply S).
  - intros. unfold client_neg_mfl. reli P; apply (rel_upd_nc _ P); intros; apply S.
  - intros. unfold server_neg_mfl. reli P; apply (rel_upd_nc _ P); intros; apply S.
  - apply any_transcribe. exact S.
  - intros. apply rel_on_tr; intros; apply S.
  - intros. apply rel_on_tr; intros; apply S.
  - intros. apply rel_modify; intros; apply S.
  - apply any_on_cipher. exact S.
  - intros. apply any_on_cipher. exact S.
  - intros. apply any_on_cipher. exact S.
  - intros. apply any_on_cipher. exact S.
  - apply any_send_content. exact S.
Qed.

(* for relations that ignore the cipher and the transcript *)
Lemma make_stable (C : crypto) (R : conn -> conn -> Prop) : preorder R ->
  (forall c s g l, R c (cset_config (restrict (c_config c) s g l) c)) ->
  (forall c s, R c (cset_nc (Some (nconfig_new s)) c)) ->
  (forall c n f, c_nc c = Some n -> (forall m, n_mfl (f m) = n_mfl m) -> R c (cset_nc (Some (f n)) c)) ->
  (forall exts, rel R (client_neg_mfl exts)) ->
  (forall exts, rel R (server_neg_mfl exts)) ->
  (forall c v, R c (cset_sig v c)) -> (forall c v, R c (cset_cunique v c)) ->
  (forall c v, R c (cset_sunique v c)) -> (forall c v, R c (cset_rngi v c)) ->
  (forall c v, R c (cset_state v c)) -> (forall c v, R c (cset_tr v c)) ->
  (forall c v, R c (cset_hs v c)) -> (forall c v, R c (cset_cipher v c)) ->
  (forall k, rel R (send_content C k)) -> stable C R.
Proof.
  intros P A1 A2 A3 A4 A5 A6 A7 A8 A9 A10 A11 A12 A13 A14.
  split; auto.
  - intros. unfold transcribe. reli P; [apply rel_on_tr; auto | apply rel_modify; auto].
  - intros. apply rel_on_tr; auto.
  - intros. apply rel_on_tr; auto.
  - intros. apply rel_modify; auto.
  - apply (rel_on_cipher _ P); auto.
  - intros. apply (rel_on_cipher _ P); auto.
  - intros. apply (rel_on_cipher _ P); auto.
  - intros. apply (rel_on_cipher _ P); auto.
Qed.

Section stable.
Variable C : crypto.
Variable R : conn -> conn -> Prop.
Hypothesis S : stable C R.
Let P := st_pre C R S.

Lemma stable_ask_cipher A (f : cs -> res A) : rel R (ask_cipher f).
Proof. unfold ask_cipher. reli P. Qed.
Lemma stable_upd_nc f : (forall m, n_mfl (f m) = n_mfl m) -> rel R (upd_nc f).
Proof.
  intro H. apply rel_get. intro c. destruct (c_nc c) eqn:E; [|apply P].
  apply (st_nc_upd C R S); assumption.
Qed.
Lemma stable_set_state s : rel R (set_state s).
Proof. apply rel_set_state. intros; apply S. Qed.
Lemma stable_transcribe d sd ty : rel R (transcribe d sd ty).
Proof. apply S. Qed.
Lemma stable_send_content k : rel R (send_content C k).
Proof. apply S. Qed.
Lemma stable_fail a : rel R (fail C a).
Proof.
  unfold fail. reli P; try apply stable_send_content; apply stable_set_state.
Qed.
Lemma stable_base_process k : rel R (base_process k).
Proof. unfold base_process. reli P. apply stable_set_state. Qed.
Lemma stable_draw : rel R draw.
Proof. unfold draw. reli P. apply rel_modify; intro; apply S. Qed.

Ltac stab := reli P; try apply stable_send_content; try apply stable_set_state;
  try apply stable_base_process; try apply stable_draw; try (apply stable_upd_nc; reflexivity);
  try apply (st_cmfl C R S); try apply (st_smfl C R S);
  try apply (st_post C R S); try apply (st_dance C R S); try apply (st_cs_new C R S);
  try apply (st_skip C R S); try apply (st_hsk C R S); try apply (st_msk C R S);
  try apply (st_decrypt C R S); try apply stable_ask_cipher;
  try (apply rel_modify; intro; apply S).

Lemma stable_client_initiate k : rel R (client_initiate C k).
Proof. unfold client_initiate. stab. Qed.
Lemma stable_initiate_connection : rel R (initiate_connection C).
Proof. unfold initiate_connection. stab; try apply stable_client_initiate. Qed.
Lemma stable_client_negociate_hello a b : rel R (client_negociate_hello C a b).
Proof. unfold client_negociate_hello. stab. Qed.
Lemma stable_client_hrr a b : rel R (client_process_hrr C a b).
Proof.
  unfold client_process_hrr. destruct (ext_get KEY_SHARE b) as [[]|]; try apply (rel_raise _ P).
  apply rel_get. intro c. destruct (negb _); [apply P|].
  destruct (c_nc c) as [n|]; [|apply P]. destruct (n_suite n) as [suite|]; [|apply P].
  rewrite bind_modify. lazymatch goal with |- R ?c0 (snd (?m ?x)) =>
    apply (pre_trans _ P c0 x); [apply (st_config C R S)|]; cut (rel R m); [intro Hm; apply Hm|] end.
  stab. apply stable_initiate_connection.
Qed.
Lemma stable_wait_sh a b d k : rel R (process_wait_sh C a b d k).
Proof.
  unfold process_wait_sh, client_process_sh.
  stab; try apply stable_client_hrr; try apply stable_client_negociate_hello.
Qed.
Lemma stable_wait_ee k : rel R (process_wait_ee k).
Proof.
  unfold process_wait_ee, client_neg_alpn, client_neg_heartbeat, client_neg_cct,
    client_neg_sct. stab.
Qed.
Lemma stable_wait_certificate m k : rel R (process_wait_certificate C m k).
Proof. unfold process_wait_certificate. stab. Qed.
Lemma stable_wait_cert_cr k : rel R (process_wait_cert_cr C k).
Proof. unfold process_wait_cert_cr. stab; apply stable_wait_certificate. Qed.
Lemma stable_wait_cv m h k : rel R (process_wait_cv C m h k).
Proof. unfold process_wait_cv. stab. Qed.
Lemma stable_client_finished m h k : rel R (process_client_finished C m h k).
Proof. unfold process_client_finished. stab. Qed.
Lemma stable_server_finished h k : rel R (process_server_finished C h k).
Proof. unfold process_server_finished. stab. Qed.
Lemma stable_server_setup a b : rel R (server_setup a b).
Proof. unfold server_setup. stab. Qed.
Lemma stable_server_negociate exts : rel R (server_negociate C exts).
Proof.
  unfold server_negociate, server_neg_versions, server_neg_groups, server_neg_sigalgs,
    server_neg_key_share, server_neg_cct, server_neg_sct, server_neg_alpn,
    server_neg_heartbeat, server_neg_status.
  stab.
Qed.
Lemma stable_server_send_hrr a b d : rel R (server_send_hrr C a b d).
Proof.
  unfold server_send_hrr. destruct (negb a); [apply (rel_raise _ P)|].
  apply (rel_bind _ P); [apply stable_set_state | intros _].
  apply rel_get. intro c. unfold bind at 1, lift. destruct (suite_of c); [|apply P].
  unfold bind at 1. destruct (sig_of c); [|apply P].
  destruct (c_nc c) as [n|]; [|apply P]. rewrite bind_ret.
  destruct (n_group n) as [g|]; [|apply P]. rewrite bind_ret, bind_modify.
  lazymatch goal with |- R ?c0 (snd (?m ?x)) =>
    apply (pre_trans _ P c0 x); [apply (st_config C R S)|]; cut (rel R m); [intro Hm; apply Hm|] end.
  stab.
Qed.
Lemma stable_server_send_hello a b d e f : rel R (server_send_hello C a b d e f).
Proof. unfold server_send_hello. stab. Qed.
Lemma stable_server_send_certificate : rel R (server_send_certificate C).
Proof. unfold server_send_certificate. stab. Qed.
Lemma stable_wait_ch a k : rel R (process_wait_ch C a k).
Proof.
  unfold process_wait_ch.
  stab; try apply stable_server_setup; try apply stable_server_negociate;
    try apply stable_server_send_hrr; try apply stable_server_send_hello;
    try apply stable_server_send_certificate.
Qed.
(* the handler of one state *)
Definition handler (s : state) (k : content) : M unit :=
  match s with
  | ClientStart _ | ServerStart => base_process k
  | ClientWaitServerHello first shares chash => process_wait_sh C first shares chash k
  | ClientWaitEncryptedExtensions => process_wait_ee k
  | ClientWaitCertCr => process_wait_cert_cr C k
  | ClientWaitCertificate must => process_wait_certificate C must k
  | ClientWaitCertificateVerify must h => process_wait_cv C must h k
  | ClientWaitFinished must h => process_client_finished C must h k
  | ServerWaitClientHello first => process_wait_ch C first k
  | ServerWaitFinished h => process_server_finished C h k
  | Closed false _ => raise (XAlert UNEXPECTED_MESSAGE)
  | Connected | Closed true _ =>
    match k with
    | KAppData d => modify (fun c => cset_app (c_app c ++ d) c)
    | _ => base_process k
    end
  | Failed => ret tt
  end.
Lemma process_handler k c : process C k c = handler (c_state c) k c.
Proof. reflexivity. Qed.
Lemma stable_handler s k :
  (match s, k with Connected, KAppData _ | Closed true _, KAppData _ => False | _, _ => True end) ->
  rel R (handler s k).
Proof.
  intro Hs. unfold handler. stab; try apply stable_wait_sh; try apply stable_wait_ee;
    try apply stable_wait_cert_cr; try apply stable_wait_certificate; try apply stable_wait_cv;
    try apply stable_client_finished; try apply stable_server_finished; try apply stable_wait_ch;
    contradiction.
Qed.
Variable S_app : forall c v, R c (cset_app (c_app c ++ v) c).
Lemma stable_process k : rel R (process C k).
Proof.
  unfold process. stab; try apply stable_wait_sh; try apply stable_wait_ee;
    try apply stable_wait_cert_cr; try apply stable_wait_certificate; try apply stable_wait_cv;
    try apply stable_client_finished; try apply stable_server_finished; try apply stable_wait_ch;
    apply rel_modify; intro; apply S_app.
Qed.
Lemma stable_handle ct d : rel R (handle_content C ct d).
Proof. unfold handle_content. stab; try apply stable_transcribe; apply stable_process. Qed.

(* and under the reading of records *)
Variable S_in : forall c v, R c (cset_in v c).
Variable S_inhs : forall c v, R c (cset_inhs v c).
Lemma stable_read_next_record : rel R (read_next_record C).
Proof. unfold read_next_record. cbv zeta. stab; apply rel_modify; intro; apply S_in. Qed.
Lemma stable_fill_handshake n : rel R (fill_handshake n C).
Proof.
  induction n as [|n IH]; cbn [fill_handshake]; stab;
  try apply stable_read_next_record; try apply IH; apply rel_modify; intro; apply S_inhs.
Qed.
Lemma stable_read_next_content : rel R (read_next_content C).
Proof.
  unfold read_next_content. stab; try apply stable_read_next_record; try apply stable_fill_handshake;
  apply rel_modify; intro; apply S_inhs.
Qed.
Lemma stable_receive_one : rel R (receive_one C).
Proof.
  unfold receive_one. stab; [apply stable_read_next_content | apply stable_handle].
Qed.
Lemma stable_guarded m : rel R m -> rel R (guarded C m).
Proof.
  intros H c. specialize (H c). unfold guarded.
  destruct (m c) as [[b|e] c1]; cbn [snd] in *; [exact H|].
  pose proof (stable_fail (Some match alert_of e with Some code => code | None => INTERNAL_ERROR end) c1) as H1.
  destruct (fail C _ c1) as [[?|?] c2]; cbn [snd] in *; eapply P; eassumption.
Qed.
Lemma stable_receive_loop n : rel R (receive_loop n C).
Proof.
  induction n as [|n IH]; cbn [receive_loop]; reli P;
    try (apply stable_guarded; apply stable_receive_one); apply IH.
Qed.
Lemma stable_rekey : rel R rekey.
Proof. unfold rekey. stab. Qed.
Lemma stable_receive_data d : rel R (receive_data C d).
Proof.
  unfold receive_data. stab; try apply stable_receive_loop; try apply stable_rekey.
  apply rel_modify; intro; apply S_in.
Qed.
Lemma stable_send_data d : rel R (send_data C d).
Proof. apply stable_send_content. Qed.
Lemma stable_close_receiving_end : rel R (close_receiving_end C).
Proof. unfold close_receiving_end. stab; apply stable_fail. Qed.
Lemma stable_close_sending_end : rel R (close_sending_end C).
Proof.
  unfold close_sending_end. stab.
  apply rel_modify; intro x. destruct (c_state x); try apply S; apply P.
Qed.
End stable.
