(* The key schedule is used in order. *)
From Verif Require Import Base P_Base Iana Crypto Config Serial Ext Msg Hkdf Cipher Kex Sig Ocsp Transcript Conn
  S_Hist S_Conn S_State S_Send S_Nonce S_Alert S_Utils S_Keys S_Auth S_Server S_Fault S_Sched
  P_Monad P_Frame P_Hist P_Send P_Wp P_State P_Alert P_Count P_Keys P_Auth P_Flight P_Fault.
From Verif Require P_Client P_Server.

Definition na {A} (r : res A) : Prop := r <> Err XAssert.
Lemma na_bind A B (r : res A) (f : A -> res B) : na r -> (forall a, na (f a)) -> na (rbind r f).
Proof. unfold na. intros H K. destruct r as [a|e]; cbn; [apply K | intro E; apply H; injection E; intros ->; reflexivity]. Qed.
Lemma na_err A B e : @na A (Err e) -> @na B (Err e).
Proof. unfold na. congruence. Qed.
Create HintDb na.
Ltac nas := repeat (cbv zeta; first
  [ solve [auto with na nocore]
  | lazymatch goal with
    | |- na (rbind _ _) => apply na_bind; [|intro]
    | |- na (Ok _) => discriminate
    | |- na (Err _) => discriminate
    | |- na (match ?x with _ => _ end) => destruct x eqn:?
    | |- na (let (_, _) := ?x in _) => destruct x eqn:?
    end ]).
Lemma na_join A (f : A -> res bytes) l : (forall a, na (f a)) -> na (join_map f l).
Proof. intro H. induction l; cbn [join_map]; nas. Qed.
Lemma na_to_bytes n v : na (to_bytes n v).
Proof. unfold to_bytes. nas. Qed.
#[local] Hint Resolve na_to_bytes : na.
Lemma na_put_var n b : na (put_var n b).
Proof. unfold put_var. nas. Qed.
#[local] Hint Resolve na_put_var : na.
Lemma na_put_ints n k l : na (put_ints n k l).
Proof. unfold put_ints. nas. apply na_join. intro. nas. Qed.
#[local] Hint Resolve na_put_ints : na.
Lemma na_value A (r : res A) e : na r -> e <> XAssert -> na (on_value_error r e).
Proof. intros H K. unfold on_value_error. destruct r as [a|x]; [discriminate|]. destruct (is_value_error x); [congruence | exact H]. Qed.

Section sched.
Variable C : crypto.
Hypothesis As : aead_sized C.
Hypothesis Un : unasserting C.
Lemma un1 g a b : na (cr_kx_shared C g a b). Proof. apply Un. Qed.
Lemma un2 s k m : na (cr_sign C s k m). Proof. apply Un. Qed.
Lemma un3 s k g m : na (cr_sig_verify C s k g m). Proof. apply Un. Qed.
Lemma un4 b : na (cr_load_cert C b). Proof. apply Un. Qed.
Lemma un5 b : na (cr_load_pubkey C b). Proof. apply Un. Qed.
Lemma un6 t d h l r : na (cr_verify_chain C t d h l r). Proof. apply Un. Qed.
Lemma un7 b : na (cr_idna_decode C b). Proof. apply Un. Qed.
Lemma un8 b : na (cr_idna_encode C b). Proof. apply Un. Qed.
Lemma un9 b : na (cr_load_ocsp_req C b). Proof. apply Un. Qed.
Lemma un10 b : na (cr_load_ocsp_res C b). Proof. apply Un. Qed.
Lemma un11 b : na (cr_ocsp_url C b). Proof. apply Un. Qed.
Lemma un12 a b : na (cr_make_ocsp_req C a b). Proof. apply Un. Qed.
Lemma un13 a b : na (cr_ocsp_fetch C a b). Proof. apply Un. Qed.
Hint Resolve un1 un2 un3 un4 un5 un6 un7 un8 un9 un10 un11 un12 un13 : na.

(* --- functions ------------------------------------------------------------ *)
Lemma na_ext_body e : na (ser_ext_body C e).
Proof. unfold ser_ext_body, put_host_name. destruct e; nas; apply na_join; intro; nas. Qed.
Hint Resolve na_ext_body : na.
Lemma na_ext e : na (ser_ext C e).
Proof. unfold ser_ext. nas. Qed.
Lemma na_exts l : na (join_map (ser_ext C) l).
Proof. apply na_join, na_ext. Qed.
Hint Resolve na_exts : na.
Lemma na_entry e : na (ser_entry C e).
Proof. unfold ser_entry. nas. Qed.
Lemma na_entries l : na (join_map (ser_entry C) l).
Proof. apply na_join, na_entry. Qed.
Hint Resolve na_entries : na.
Lemma na_hs_body h : na (ser_hs_body C h).
Proof. unfold ser_hs_body, ser_exts. destruct h; nas. Qed.
Hint Resolve na_hs_body : na.
Lemma na_ser k : na (ser_content C k).
Proof. unfold ser_content, ser_hs. destruct k; nas. Qed.
Hint Resolve na_ser : na.
Lemma na_parse pct ct d : na (parse_content C pct ct d).
Proof.
  intro H. apply content_errs in H as [(x & H & _)|[H|H]]; [discriminate| |].
  - unfold faults in H. repeat match type of H with context [if ?b then _ else _] => destruct b end;
      try (destruct d as [|t d]); repeat match type of H with context [if ?b then _ else _] => destruct b end;
      cbn in H; intuition discriminate.
  - destruct H as (_ & t & r & _ & [(_ & b & H)|(_ & b & [H|H])]); [exact (un7 _ H) | exact (un4 _ H) | exact (un5 _ H)].
Qed.
Lemma na_hello r s e : na (mk_client_hello r s e).
Proof. unfold mk_client_hello. nas. Qed.
Lemma na_kx_init g p : na (kx_init C g p).
Proof. unfold kx_init, ff_init. nas. Qed.
Lemma na_kx_resume g p k : na (kx_resume C g p k).
Proof. unfold kx_resume, ff_resume. nas. Qed.
Lemma na_verify a b c d : na (suite_verify C a b c d).
Proof. unfold suite_verify. nas. Qed.
Hint Resolve na_parse na_hello na_kx_init na_kx_resume na_verify : na.
Lemma na_ocsp a b c : na (validate_ocsp C a b c).
Proof. unfold validate_ocsp. nas. exfalso. eapply na_verify. eassumption. Qed.
Hint Resolve na_ocsp : na.
Lemma na_status o e i : na (verify_status C o e i).
Proof. unfold verify_status. nas; (apply na_value; [apply na_ocsp | discriminate]). Qed.
Hint Resolve na_status : na.
Lemma na_statuses o l : na (verify_statuses C o l).
Proof.
  induction l as [|e l IH]; [discriminate|]. destruct l as [|i l]; [discriminate|].
  cbn [verify_statuses] in *. nas.
Qed.
Hint Resolve na_statuses : na.
Lemma na_x509 g h o l : na (client_check_x509 C g h o l).
Proof. unfold client_check_x509. nas. exfalso. eapply un6. eassumption. Qed.
Lemma na_staple c n l : na (staple C c n l).
Proof. unfold staple. nas. match goal with H : validate_ocsp _ ?x ?y ?z = Err _ |- _ => pose proof (na_ocsp x y z) as K; rewrite H in K; exact (na_err _ _ _ K) end. Qed.
Hint Resolve na_x509 na_staple : na.
Lemma na_certs c : na (server_certificate_list C c).
Proof. unfold server_certificate_list. nas. Qed.
Lemma na_expand h p i k n t : na (expand_loop C h p i k n t).
Proof. revert n t. induction k; intros; cbn [expand_loop]; nas. Qed.
Hint Resolve na_certs na_expand : na.
Lemma na_secret h s l t : na (derive_secret C h s l t).
Proof. unfold derive_secret, hkdf_expand_label, hkdf_label, hkdf_expand. nas. Qed.
Lemma na_key_iv s k : na (derive_key_and_iv C s k).
Proof. unfold derive_key_and_iv, hkdf_expand_label, hkdf_label, hkdf_expand. nas. Qed.
Hint Resolve na_secret na_key_iv : na.
Lemma na_hs s k t : na (derive_hs C s k t).
Proof. unfold derive_hs. nas. Qed.
Lemma na_ap s k t u : na (derive_ap C s k t u).
Proof. unfold derive_ap. nas. Qed.
Lemma na_sign_finish t x : na (sign_finish C t x).
Proof. unfold sign_finish, fin_key. nas. Qed.
Lemma na_verify_finish t v x : na (verify_finish C t v x).
Proof. unfold verify_finish, fin_key. nas. Qed.
Lemma na_record ty f : na (record_bytes ty f).
Proof. unfold record_bytes. nas. Qed.
Lemma na_frags l b d : na (fragments_of l b d).
Proof. unfold fragments_of. nas. Qed.
Lemma na_inner b : na (inner_plaintext b).
Proof. unfold inner_plaintext. nas. Qed.
Lemma na_rekey x : na (should_rekey x).
Proof. unfold should_rekey, seq_peek. nas. Qed.
Lemma na_oid o : na (for_public_key_oid o).
Proof. unfold for_public_key_oid. nas. Qed.
Lemma na_digest t : na (tr_digest C t).
Proof. unfold tr_digest. nas. Qed.
Lemma na_post h t : na (tr_post_init h t).
Proof. unfold tr_post_init. nas. Qed.
Lemma na_dance s h t : na (tr_dance s h t).
Proof. unfold tr_dance. nas. Qed.
Lemma na_skip sd ty i l : na (skip_slots sd ty i l).
Proof. revert i. induction l; intro; cbn [skip_slots]; nas. Qed.
Lemma na_update d sd ty t : na (fst (tr_update d sd ty t)).
Proof.
  unfold tr_update. destruct (Nat.eqb _ _); [discriminate|]. pose proof (na_skip sd ty (t_i t) (skipn (t_i t) ORDER)) as H.
  destruct (skip_slots _ _ _ _) as [[i s]|e]; [destruct (slot_matches _ _ _); discriminate | exact (na_err _ _ _ H)].
Qed.
Lemma na_suite c : na (suite_of c). Proof. unfold suite_of. nas. Qed.
Lemma na_sig c : na (sig_of c). Proof. unfold sig_of. nas. Qed.
Lemma na_nonce d : na (fst (next_nonce d)).
Proof.
  unfold next_nonce, seq_next. destruct (d_iv d), (d_seq d) as [q|]; try discriminate. destruct (_ <? _); cbn [fst]; [apply na_to_bytes | discriminate].
Qed.
Hint Resolve na_hs na_ap na_sign_finish na_verify_finish na_record na_frags na_inner na_rekey na_oid na_digest na_post na_dance na_suite na_sig : na.

(* --- computations that leave the key schedule alone ----------------------- *)
Definition sched (c : conn) : option (N * N * N * N) :=
  option_map (fun x => (cs_suite x, cs_state x, d_epoch (cs_w x), d_epoch (cs_r x))) (c_cipher c).
Definition calm {A} (m : M A) : Prop := forall c, na (fst (m c)) /\ sched (snd (m c)) = sched c.
Lemma calm_ret A (a : A) : calm (ret a). Proof. intro c. split; [discriminate | reflexivity]. Qed.
Lemma calm_raise A e : e <> XAssert -> calm (@raise A e).
Proof. intros H c. split; [cbn; congruence | reflexivity]. Qed.
Lemma calm_get : calm get. Proof. intro c. split; [discriminate | reflexivity]. Qed.
Lemma calm_lift A (r : res A) : na r -> calm (lift r). Proof. intros H c. split; [exact H | reflexivity]. Qed.
Lemma calm_modify f : (forall c, sched (f c) = sched c) -> calm (modify f). Proof. intros H c. split; [discriminate | apply H]. Qed.
Lemma calm_bind A B (m : M A) (f : A -> M B) : calm m -> (forall a, calm (f a)) -> calm (bind m f).
Proof.
  intros H K c. destruct (H c) as [H1 H2]. unfold bind. destruct (m c) as [[a|e] c1]; cbn [fst snd] in *.
  - destruct (K a c1) as [K1 K2]. split; [exact K1 | congruence].
  - split; [exact (na_err _ _ _ H1) | exact H2].
Qed.
Lemma calm_ask A (f : cs -> res A) : (forall x, na (f x)) -> calm (ask_cipher f).
Proof. intros H c. unfold ask_cipher. rewrite bind_get. destruct (c_cipher c); [apply calm_lift, H | apply calm_raise; discriminate]. Qed.
Lemma calm_tr A (f : transcript -> res A * transcript) : (forall t, na (fst (f t))) -> calm (on_tr f).
Proof. intros H c. unfold on_tr. specialize (H (c_tr c)). destruct (f (c_tr c)). split; [exact H | reflexivity]. Qed.
Lemma calm_method f : (forall t, na (f t)) -> calm (tr_method f).
Proof. intro H. apply calm_tr. intro t. specialize (H t). destruct (f t); [discriminate | exact (na_err _ _ _ H)]. Qed.
Lemma calm_upd f : calm (upd_nc f).
Proof. intro c. unfold upd_nc. rewrite bind_get. destruct (c_nc c); split; try discriminate; reflexivity. Qed.
Lemma calm_set s : calm (set_state s). Proof. apply calm_modify. reflexivity. Qed.
Lemma calm_transcribe d sd ty : calm (transcribe d sd ty).
Proof. apply calm_bind; [apply calm_tr; intro; apply na_update | intro; apply calm_modify; reflexivity]. Qed.
Lemma calm_digest : calm (digest C).
Proof. apply calm_bind; [apply calm_get | intro; apply calm_lift, na_digest]. Qed.
Lemma calm_draw : calm draw.
Proof. apply calm_bind; [apply calm_get | intro]. apply calm_bind; [apply calm_modify; reflexivity | intro; apply calm_ret]. Qed.
Ltac calms := repeat (cbv zeta; lazymatch goal with
  | |- calm (bind _ _) => apply calm_bind; [|intro]
  | |- calm get => apply calm_get
  | |- calm (ret _) => apply calm_ret
  | |- calm (raise _) => apply calm_raise; discriminate
  | |- calm (lift _) => apply calm_lift; nas
  | |- calm (modify _) => apply calm_modify; reflexivity
  | |- calm (set_state _) => apply calm_set
  | |- calm (upd_nc _) => apply calm_upd
  | |- calm (transcribe _ _ _) => apply calm_transcribe
  | |- calm (digest _) => apply calm_digest
  | |- calm draw => apply calm_draw
  | |- calm (tr_method _) => apply calm_method; intro; nas
  | |- calm (ask_cipher _) => apply calm_ask; intro; nas
  | |- calm (match ?x with _ => _ end) => destruct x eqn:?
  end).
Lemma sched_w c x w : c_cipher c = Some x -> d_epoch w = d_epoch (cs_w x) -> sched (cset_cipher (Some (cs_set_w x w)) c) = sched c.
Proof. intros E H. unfold sched. rewrite E. cbn. rewrite H. reflexivity. Qed.
Lemma sched_r c x w : c_cipher c = Some x -> d_epoch w = d_epoch (cs_r x) -> sched (cset_cipher (Some (cs_set_r x w)) c) = sched c.
Proof. intros E H. unfold sched. rewrite E. cbn. rewrite H. reflexivity. Qed.
Lemma sched_id c x : c_cipher c = Some x -> sched (cset_cipher (Some x) c) = sched c.
Proof. intros E. unfold sched. rewrite E. reflexivity. Qed.
Lemma nonce_epoch d : d_epoch (snd (next_nonce d)) = d_epoch d.
Proof. unfold next_nonce. destruct (d_iv d), (d_seq d) as [q|]; try reflexivity. destruct (seq_next q) as [[?|?] ?]; reflexivity. Qed.
Lemma calm_decrypt d a : calm (on_cipher (decrypt C d a)).
Proof.
  intro c. unfold on_cipher. rewrite bind_get. destruct (c_cipher c) as [x|] eqn:E; [|apply calm_raise; discriminate].
  unfold decrypt. destruct (d_key (cs_r x)); [|split; [discriminate | apply sched_id; exact E]].
  pose proof (na_nonce (cs_r x)) as N1. pose proof (nonce_epoch (cs_r x)) as N2. destruct (next_nonce (cs_r x)) as [[n|e] r]; cbn [fst snd] in *.
  - destruct (cr_open C _ _ _ _ _); (split; [discriminate | apply sched_r; assumption]).
  - split; [exact (na_err _ _ _ N1) | apply sched_r; assumption].
Qed.
Lemma calm_encrypt ct mfl f : calm (encrypt_fragment C ct mfl f).
Proof.
  intro c. unfold encrypt_fragment, on_cipher, bind, lift, get, modify, raise, ret. cbv zeta beta iota.
  pose proof (na_to_bytes 2 (blen (inner_bytes ct mfl (tag_len c) f) + tag_len c)) as N0. destruct (to_bytes 2 _) as [len|e]; [|split; [exact (na_err _ _ _ N0) | reflexivity]].
  destruct (c_cipher c) as [x|] eqn:E; [|split; [discriminate | reflexivity]].
  unfold encrypt. destruct (d_key (cs_w x)); [|split; [discriminate | apply sched_id; exact E]].
  pose proof (na_nonce (cs_w x)) as N1. pose proof (nonce_epoch (cs_w x)) as N2. destruct (next_nonce (cs_w x)) as [[n|e] r]; cbn [fst snd] in *.
  - unfold tag_len in *. rewrite E in *. rewrite As, N.eqb_refl.
    split; [discriminate|]. change (sched (cset_cipher (Some (cs_set_w x r)) c) = sched c). apply sched_w; assumption.
  - split; [destruct e; cbn; unfold na in *; congruence | apply sched_w; assumption].
Qed.
Lemma calm_fragments ct mfl l : calm (send_fragments C ct mfl l).
Proof. induction l as [|f l IH]; cbn [send_fragments]; calms; try exact IH; try apply calm_encrypt. Qed.
Lemma calm_send k : calm (send_content C k).
Proof. unfold send_content. calms; try apply calm_fragments; try discriminate. Qed.
Lemma calm_record : calm (read_next_record C).
Proof. unfold read_next_record. calms; apply calm_decrypt. Qed.
Lemma calm_fill n : calm (fill_handshake n C).
Proof. induction n; cbn [fill_handshake]; calms; try apply calm_record; exact IHn. Qed.
Lemma calm_content : calm (read_next_content C).
Proof. unfold read_next_content. calms; try apply calm_record; apply calm_fill. Qed.
Lemma calm_base k : calm (base_process k).
Proof. unfold base_process. calms. Qed.
Lemma calm_initiate ck : calm (client_initiate C ck).
Proof. unfold client_initiate. calms; apply calm_send. Qed.
Lemma calm_init : calm (initiate_connection C).
Proof. unfold initiate_connection. calms; apply calm_initiate. Qed.
Lemma calm_hrr h e : calm (client_process_hrr C h e).
Proof. unfold client_process_hrr. calms; apply calm_init. Qed.
Lemma calm_neg_hello s e : calm (client_negociate_hello C s e).
Proof. unfold client_negociate_hello. calms. apply na_value; [nas | discriminate]. Qed.
Lemma calm_ee k : calm (process_wait_ee k).
Proof. unfold process_wait_ee, client_neg_mfl, client_neg_alpn, client_neg_heartbeat, client_neg_cct, client_neg_sct. calms; apply calm_base. Qed.
Lemma calm_cert b k : calm (process_wait_certificate C b k).
Proof. unfold process_wait_certificate. calms; apply calm_base. Qed.
Lemma calm_cert_cr k : calm (process_wait_cert_cr C k).
Proof. unfold process_wait_cert_cr. calms; first [apply calm_base | apply calm_cert]. Qed.
Lemma calm_cv b h k : calm (process_wait_cv C b h k).
Proof. unfold process_wait_cv. calms; apply calm_base. Qed.
Lemma calm_neg e : calm (server_negociate C e).
Proof.
  unfold server_negociate, server_neg_versions, server_neg_groups, server_neg_sigalgs, server_neg_key_share, server_neg_cct,
    server_neg_sct, server_neg_mfl, server_neg_alpn, server_neg_heartbeat, server_neg_status.
  calms; apply na_value; first [discriminate | nas].
Qed.
Lemma calm_send_hrr b s l : calm (server_send_hrr C b s l).
Proof. unfold server_send_hrr. calms; apply calm_send. Qed.
Lemma calm_send_cert : calm (server_send_certificate C).
Proof. unfold server_send_certificate. calms; apply calm_send. Qed.

(* --- the key schedule itself ---------------------------------------------- *)
Lemma wpb_calm A B (m : M A) (f : A -> M B) c (Q : res B -> conn -> Prop) : calm m ->
  (forall a c1, m c = (Ok a, c1) -> sched c1 = sched c -> wp (f a) c1 Q) ->
  (forall e c1, e <> XAssert -> sched c1 = sched c -> Q (Err e) c1) -> wp (bind m f) c Q.
Proof.
  intros H K L. destruct (H c) as [H1 H2]. unfold wp, bind. destruct (m c) as [[a|e] c1]; cbn [fst snd] in *.
  - apply K; [reflexivity | exact H2].
  - apply L; [unfold na in H1; congruence | exact H2].
Qed.
Lemma wpb_skip B (f : unit -> M B) c s a b (Q : res B -> conn -> Prop) : sched c = Some (s, 0, a, b) ->
  (forall c1, sched c1 = Some (s, 1, a, b) -> wp (f tt) c1 Q) ->
  (forall e c1, e <> XAssert -> sched c1 = sched c -> Q (Err e) c1) -> wp (bind (on_cipher (skip_early_secrets C)) f) c Q.
Proof.
  intros E K L. apply wpb_on_cipher; [intro N0; apply L; [discriminate | reflexivity]|].
  intros x r x' Ex Sk. pose proof E as E0. unfold sched in E. rewrite Ex in E. cbn in E. unfold skip_early_secrets in Sk.
  assert (Z : cs_state x = 0) by congruence. rewrite Z in Sk. cbn [N.eqb negb] in Sk.
  unfold extract_and_advance in Sk. cbv zeta in Sk.
  match type of Sk with context [derive_secret ?a ?b ?c ?d ?e] => pose proof (na_secret b c d e) as Ns; destruct (derive_secret a b c d e) end;
    injection Sk; intros <- <-.
  - apply K. unfold sched. cbn [option_map c_cipher cset_cipher cs_advance cs_suite cs_state cs_w cs_r]. rewrite Z. change (0 + 1) with 1. congruence.
  - apply L; [unfold na in Ns; congruence | unfold sched; cbn; rewrite Ex; reflexivity].
Qed.
Lemma install_both_sched a b c d x r x' : install_both a b c d x = (r, x') ->
  na r /\ cs_suite x' = cs_suite x /\ cs_state x' = cs_state x /\
  d_epoch (cs_w x) <= d_epoch (cs_w x') <= d_epoch (cs_w x) + 1 /\ d_epoch (cs_r x) <= d_epoch (cs_r x') <= d_epoch (cs_r x) + 1 /\
  (usage_limit (cs_suite x) <> None -> exists u, r = Ok u).
Proof.
  unfold install_both, install. destruct (match cs_side x with Client => _ | Server => _ end) as [[[wk wi] rk] ri].
  destruct (usage_limit (cs_suite x)); intro H; injection H; intros <- <-; cbn; (split; [discriminate|]); repeat (split; [reflexivity || lia|]);
    [eauto | intro Z; destruct (Z eq_refl)].
Qed.
Lemma wpb_derive B shared th (f : unit -> M B) c s a b (Q : res B -> conn -> Prop) : sched c = Some (s, 1, a, b) ->
  (forall c1 t a' b', sched c1 = Some (s, t, a', b') -> t = 2 -> a <= a' <= a + 1 -> b <= b' <= b + 1 -> wp (f tt) c1 Q) ->
  (forall e c1 t a' b', e <> XAssert -> sched c1 = Some (s, t, a', b') -> (t = 1 /\ a' = a /\ b' = b) \/ (t = 2 /\ a <= a' <= a + 1 /\ b <= b' <= b + 1) -> Q (Err e) c1) ->
  wp (bind (on_cipher (derive_handshake_secrets C shared th)) f) c Q.
Proof.
  intros E K L. apply wpb_on_cipher; [intro N0; unfold sched in E; rewrite N0 in E; discriminate|].
  intros x r x' Ex Sk. pose proof E as E0. unfold sched in E. rewrite Ex in E. cbn [option_map] in E. unfold derive_handshake_secrets in Sk.
  assert (Z : cs_state x = 1) by congruence. rewrite Z in Sk. cbn [N.eqb Pos.eqb negb] in Sk.
  unfold extract_and_advance in Sk. cbv zeta in Sk.
  match type of Sk with context [derive_secret ?a ?b ?c ?d ?e] => pose proof (na_secret b c d e) as Ns; destruct (derive_secret a b c d e) end.
  2:{ injection Sk; intros <- <-. apply (L _ _ 1 a b); [unfold na in Ns; congruence | unfold sched; cbn; congruence | auto]. }
  match type of Sk with context [derive_hs ?a ?b ?c ?d] => pose proof (na_hs b c d) as Nh; destruct (derive_hs a b c d) end.
  2:{ injection Sk; intros <- <-. apply (L _ _ 2 a b); [unfold na in Nh; congruence | unfold sched; cbn [option_map c_cipher cset_cipher cs_advance cs_suite cs_state cs_w cs_r]; rewrite Z; change (1 + 1) with 2; congruence | right; lia]. }
  match type of Sk with context [install_both ?a ?b ?c ?d ?x] => destruct (install_both a b c d x) as [r1 x1] eqn:Ei end.
  destruct (install_both_sched _ _ _ _ _ _ _ Ei) as (Nr & E1 & E2 & E3 & E4 & _). cbn in E1, E2, E3, E4. rewrite Z in E2. cbn in E2.
  assert (Ea : d_epoch (cs_w x) = a /\ d_epoch (cs_r x) = b /\ cs_suite x = s) by (repeat split; congruence). destruct Ea as (Ea & Eb & Es). rewrite Ea, Eb, Es in *.
  destruct r1 as [[]|e]; injection Sk; intros <- <-.
  - eapply K; [unfold sched; cbn; rewrite E1; reflexivity | exact E2 | exact E3 | exact E4].
  - eapply L; [unfold na in Nr; congruence | unfold sched; cbn; rewrite E1; reflexivity | right; auto].
Qed.
Lemma wpb_master B ts tc (f : bytes * bytes -> M B) c s a b (Q : res B -> conn -> Prop) : sched c = Some (s, 2, a, b) -> usage_limit s <> None ->
  (forall v c1 a' b', sched c1 = Some (s, 2, a', b') -> a <= a' <= a + 1 -> b <= b' <= b + 1 -> wp (f v) c1 Q) ->
  (forall e c1, e <> XAssert -> sched c1 = sched c -> Q (Err e) c1) ->
  wp (bind (on_cipher (derive_master_secrets C ts tc)) f) c Q.
Proof.
  intros E U K L. apply wpb_on_cipher; [intro N0; unfold sched in E; rewrite N0 in E; discriminate|].
  intros x r x' Ex Sk. pose proof E as E0. unfold sched in E. rewrite Ex in E. cbn [option_map] in E. unfold derive_master_secrets in Sk.
  assert (Z : cs_state x = 2) by congruence. rewrite Z in Sk. cbn [N.eqb Pos.eqb negb] in Sk. cbv zeta in Sk.
  match type of Sk with context [derive_ap ?a ?b ?c ?d ?e] => pose proof (na_ap b c d e) as Nh; destruct (derive_ap a b c d e) end.
  2:{ injection Sk; intros <- <-. apply L; [unfold na in Nh; congruence | unfold sched; cbn; rewrite Ex; reflexivity]. }
  destruct (install_both _ _ _ _ x) as [r1 x1] eqn:Ei. destruct (install_both_sched _ _ _ _ _ _ _ Ei) as (Nr & E1 & E2 & E3 & E4 & E5).
  assert (Ea : d_epoch (cs_w x) = a /\ d_epoch (cs_r x) = b /\ cs_suite x = s) by (repeat split; congruence). destruct Ea as (Ea & Eb & Es). rewrite Ea, Eb, Es in *.
  destruct (E5 U) as [u ->]. injection Sk; intros <- <-. eapply K; [unfold sched; cbn; rewrite E1, E2, Z; reflexivity | exact E3 | exact E4].
Qed.

(* --- the invariant --------------------------------------------------------- *)
Definition val (o : option (N * N * N * N)) : N * N * N := match o with Some (_, t, a, b) => (t, a, b) | None => (0, 0, 0) end.
Definition up (p q : N * N * N) : Prop := let '(t, a, b) := p in let '(t', a', b') := q in t <= t' /\ a <= a' /\ b <= b'.
Definition under (m : N) (p : N * N * N) : Prop := let '(t, a, b) := p in t <= 2 /\ a <= m /\ b <= m /\ (t < 2 -> a = 0 /\ b = 0).
Definition young (s : state) : bool := match s with Connected | Closed _ _ | Failed => false | _ => true end.
Definition K (c : conn) : Prop := under (if young (c_state c) then 1 else 2) (val (sched c)).
Definition ok {A} (c : conn) (r : res A) (c' : conn) : Prop := na r /\ up (val (sched c)) (val (sched c')) /\ K c'.
Lemma up_refl p : up p p. Proof. destruct p as [[t a] b]. cbn. lia. Qed.
Lemma up_trans p q r : up p q -> up q r -> up p r.
Proof. destruct p as [[? ?] ?], q as [[? ?] ?], r as [[? ?] ?]. cbn. lia. Qed.
Lemma under_mono m n p : m <= n -> under m p -> under n p.
Proof. destruct p as [[t a] b]. cbn. lia. Qed.
Lemma K_same c c' : sched c' = sched c -> (young (c_state c) = false -> young (c_state c') = false) -> K c -> K c'.
Proof.
  intros E Y H. unfold K in *. rewrite E. eapply under_mono; [|exact H]. destruct (young (c_state c)), (young (c_state c')); try lia; specialize (Y eq_refl); discriminate.
Qed.
Lemma ok_same A c (r : res A) c' : na r -> sched c' = sched c -> (young (c_state c) = false -> young (c_state c') = false) -> K c -> ok c r c'.
Proof. intros N0 E Y H. split; [exact N0|]. split; [rewrite E; apply up_refl | eapply K_same; eassumption]. Qed.
Lemma ok_young A c (r : res A) c' : na r -> up (val (sched c)) (val (sched c')) -> under 1 (val (sched c')) -> ok c r c'.
Proof. intros N0 U V. split; [exact N0|]. split; [exact U|]. unfold K. eapply under_mono; [|exact V]. destruct (young (c_state c')); lia. Qed.
Lemma calm_young A (m : M A) c : calm m -> young (c_state c) = true -> K c -> wp m c (ok c).
Proof.
  intros H Y Hk. destruct (H c) as [H1 H2]. unfold wp. apply ok_same; try assumption. congruence.
Qed.

(* what the states know *)
Definition pristine (first : bool) (c : conn) : Prop :=
  if first then c_cipher c = None else exists s sd, c_cipher c = Some (cs_new 0 0 s sd).
Definition place (c : conn) : Prop :=
  match c_state c with
  | ClientWaitServerHello first _ _ =>
    (forall d t, tr_update d (other_side (g_side (c_config c))) SERVER_HELLO (c_tr c) <> (Ok tt, t)) \/ pristine first c
  | ServerWaitClientHello first =>
    (forall d t, tr_update d (other_side (g_side (c_config c))) CLIENT_HELLO (c_tr c) <> (Ok tt, t)) \/ pristine first c
  | ClientWaitFinished _ _ | ServerWaitFinished _ =>
    exists x, c_cipher c = Some x /\ cs_state x = 2 /\ usage_limit (cs_suite x) <> None
  | _ => True
  end.
Lemma pristine_val f c : pristine f c -> val (sched c) = (0, 0, 0).
Proof. unfold pristine, sched. destruct f; [intros -> | intros (s & sd & ->)]; reflexivity. Qed.
Definition zero (c : conn) : Prop := exists s, sched c = Some (s, 0, 0, 0).
Ltac fine := apply ok_young; [try discriminate; try (unfold na; congruence) | |].

Lemma wp_process_sh shares random exts c c0 : zero c -> val (sched c0) = (0, 0, 0) -> wp (client_process_sh C shares random exts) c (ok c0).
Proof.
  intros [s Z] V. unfold client_process_sh. wstep.
  assert (B : forall (r : res unit) c1 s t, na r -> sched c1 = Some (s, t, 0, 0) -> t <= 2 -> ok c0 r c1).
  { intros r c1 s1 t N1 E L. apply ok_young; [exact N1 | rewrite V, E; cbn; lia | rewrite E; cbn; lia]. }
  apply wpb_calm; [apply calm_neg_hello | | intros e c1 Ne E; eapply B; [unfold na; congruence | rewrite E; exact Z | lia]].
  intros key c1 _ E1. eapply wpb_skip; [rewrite E1; exact Z | | intros e c2 Ne E; eapply B; [unfold na; congruence | rewrite E, E1; exact Z | lia]].
  intros c2 E2. apply wpb_calm; [apply calm_digest | | intros e c3 Ne E; eapply B; [unfold na; congruence | rewrite E; exact E2 | lia]].
  intros h c3 _ E3. eapply wpb_derive; [rewrite E3; exact E2 | |].
  - intros c4 t a b E4 T Ha Hb. wstep. wstep. wstep. apply ok_young; [discriminate | |]; change (sched (cset_state ClientWaitEncryptedExtensions c4)) with (sched c4); [rewrite V|]; rewrite E4; cbn; lia.
  - intros e c4 t a b Ne E4 T. apply ok_young; [unfold na; congruence | rewrite V |]; rewrite E4; cbn; lia.
Qed.
Lemma zero_ok A c c0 (r : res A) : na r -> zero c \/ sched c = None -> val (sched c0) = (0, 0, 0) -> ok c0 r c.
Proof. intros N0 Z V. apply ok_young; [exact N0 | rewrite V |]; destruct Z as [[s Z]|Z]; rewrite Z; cbn; lia. Qed.
Lemma calm_zero A (m : M A) c c0 : calm m -> zero c -> val (sched c0) = (0, 0, 0) -> wp m c (ok c0).
Proof. intros H [s Z] V. destruct (H c) as [H1 H2]. apply zero_ok; [exact H1 | left; exists s; congruence | exact V]. Qed.
Lemma wp_wait_sh first shares chash k c : pristine first c -> young (c_state c) = true ->
  wp (process_wait_sh C first shares chash k) c (ok c).
Proof.
  intros P Y. pose proof (pristine_val _ _ P) as V.
  assert (Kc : K c) by (unfold K; rewrite Y, V; cbn; lia).
  unfold process_wait_sh. destruct k; try (apply calm_young; [apply calm_base | exact Y | exact Kc]).
  match goal with |- context [KHandshake ?x] => rename x into h | _ => idtac end.
  match goal with |- wp (match ?h with _ => _ end) _ _ => destruct h as [|hrr random sid suite exts| | | | | |] end;
    try (destruct first; (apply calm_young; [first [apply calm_base | apply calm_raise; discriminate] | exact Y | exact Kc])).
  wstep. destruct (negb (memN suite _)); [wstep; apply ok_same; [discriminate | reflexivity | auto | exact Kc]|].
  assert (T : forall c1, zero c1 -> wp (if hrr then client_process_hrr C chash exts else client_process_sh C shares random exts) c1 (ok c)).
  { intros c1 Z. destruct hrr; [apply calm_zero; [apply calm_hrr | exact Z | exact V] | apply wp_process_sh; assumption]. }
  destruct first.
  - cbn in P. wstep. wstep. destruct (suite_hash suite) as [h|]; [|wstep; apply ok_same; [discriminate | reflexivity | auto | exact Kc]].
    wstep. wstep. wstep.
    set (c1 := cset_cipher _ _). assert (Z1 : zero c1).
    { exists suite. unfold sched, c1, epoch_w, epoch_r. cbn [option_map c_cipher cset_cipher cset_nc cs_logs cs_new cs_suite cs_state cs_w cs_r dir_none d_epoch]. rewrite P. reflexivity. }
    apply wpb_calm; [apply calm_method; intro; apply na_post | | intros e c2 Ne E; destruct Z1 as [s Z1]; apply zero_ok; [unfold na; congruence | left; exists s; congruence | exact V]].
    intros u c2 _ E2. apply wpb_calm; [apply calm_send | | intros e c3 Ne E; destruct Z1 as [s Z1]; apply zero_ok; [unfold na; congruence | left; exists s; congruence | exact V]].
    intros u' c3 _ E3. apply T. destruct Z1 as [s Z1]. exists s. congruence.
  - wstep. apply T. destruct P as (s & sd & P). exists s. unfold sched. rewrite P. reflexivity.
Qed.
Lemma wp_setup random suites c c0 (f : unit -> M unit) : val (sched c0) = (0, 0, 0) -> c_cipher c = None ->
  (forall c1, zero c1 -> wp (f tt) c1 (ok c0)) -> wp (bind (server_setup random suites) f) c (ok c0).
Proof.
  intros V E F. assert (B : forall e c1, e <> XAssert -> c_cipher c1 = c_cipher c -> ok c0 (@Err unit e) c1).
  { intros e c1 Ne E1. apply zero_ok; [unfold na; congruence | right; unfold sched; rewrite E1, E; reflexivity | exact V]. }
  unfold server_setup. wstep. wstep. wstep. wstep. destruct (first_common _ _) as [suite|]; [|wstep; apply B; [discriminate | reflexivity]].
  wstep. wstep; [apply B; [discriminate | reflexivity]|]. wstep. wstep.
  destruct (suite_hash suite) as [h|]; [|wstep; apply B; [discriminate | reflexivity]].
  wstep. wstep.
  set (c1 := cset_cipher _ _). assert (Z1 : exists s, sched c1 = Some (s, 0, 0, 0)).
  { exists suite. unfold sched, c1, epoch_w, epoch_r. cbn [option_map c_cipher cset_cipher cset_nc cset_cunique cs_logs cs_new cs_suite cs_state cs_w cs_r dir_none d_epoch]. rewrite E. reflexivity. }
  destruct Z1 as [s Z1].
  apply wpb_calm; [apply calm_method; intro; apply na_post | | intros e c2 Ne E2; apply zero_ok; [unfold na; congruence | left; exists s; congruence | exact V]].
  intros u c2 _ E2. destruct u. apply F. exists s. congruence.
Qed.
Lemma wp_wait_ch first k c : pristine first c -> young (c_state c) = true -> wp (process_wait_ch C first k) c (ok c).
Proof.
  intros P Y. pose proof (pristine_val _ _ P) as V.
  assert (Kc : K c) by (unfold K; rewrite Y, V; cbn; lia).
  unfold process_wait_ch. destruct k as [| |h| |]; try (apply calm_young; [apply calm_base | exact Y | exact Kc]).
  destruct h as [random sid suites exts| | | | | | |]; try (apply calm_young; [apply calm_base | exact Y | exact Kc]).
  assert (T : forall c1, zero c1 -> wp (do (clear, enc, shared) <- server_negociate C exts;
    match shared with
    | None => server_send_hrr C first sid clear
    | Some key =>
      server_send_hello C first sid clear enc key ;;
      do c <- get;
      (if require_peer_auth (c_config c)
       then send_content C (KHandshake (HCertReq [] [ESigAlgs (g_sigalgs (c_config c))]))
       else ret tt) ;;
      server_send_certificate C ;;
      do h <- digest C;
      do f <- ask_cipher (fun x => sign_finish C h x);
      send_content C (KHandshake (HFinished f)) ;;
      do h <- digest C;
      do c <- get;
      if require_peer_auth (c_config c) then raise XType
      else set_state (ServerWaitFinished h)
    end) c1 (ok c)).
  { intros c1 [s Z]. 
    assert (B : forall A (r : res A) c1 s t, na r -> sched c1 = Some (s, t, 0, 0) -> t <= 2 -> ok c r c1).
    { intros A r c2 s1 t N1 E L. apply ok_young; [exact N1 | rewrite V, E; cbn; lia | rewrite E; cbn; lia]. }
    assert (B2 : forall (r : res unit) c1 s a b, na r -> sched c1 = Some (s, 2, a, b) -> a <= 1 -> b <= 1 -> ok c r c1).
    { intros r c2 s1 a b N1 E La Lb. apply ok_young; [exact N1 | rewrite V, E; cbn; lia | rewrite E; cbn; lia]. }
    apply wpb_calm; [apply calm_neg | | intros e c2 Ne E; eapply B; [unfold na; congruence | rewrite E; exact Z | lia]].
    intros [[clear enc] [key|]] c2 _ E2; [|apply calm_zero; [apply calm_send_hrr | exists s; congruence | exact V]].
    unfold server_send_hello. wstep.
    eapply wpb_skip; [rewrite E2; exact Z | | intros e c3 Ne E; eapply B; [unfold na; congruence | rewrite E, E2; exact Z | lia]].
    intros c3 E3.
    assert (B1 : forall e c4, e <> XAssert -> sched c4 = sched c3 -> ok c (@Err unit e) c4).
    { intros e c4 Ne E. eapply B; [unfold na; congruence | rewrite E; exact E3 | lia]. }
    wstep. wstep. wstep. wstep; [|apply B1; [|reflexivity]; match goal with E : suite_of ?x = Err ?e |- _ => pose proof (na_suite x) as Nx; rewrite E in Nx; unfold na in Nx; congruence end].
    wstep. apply wpb_calm; [calms | | exact B1]. intros u c4 _ E4.
    wstep. apply wpb_calm; [apply calm_send | | intros e c5 Ne E; apply B1; congruence]. intros u5 c5 _ E5.
    wstep. apply wpb_calm; [destruct first; [apply calm_send | apply calm_ret] | | intros e c6 Ne E; apply B1; congruence]. intros u6 c6 _ E6.
    wstep. apply wpb_calm; [apply calm_digest | | intros e c7 Ne E; apply B1; congruence]. intros th c7 _ E7.
    wstep. eapply wpb_derive; [rewrite E7, E6, E5, E4; exact E3 | | intros e c8 t a1 b1 Ne E T; apply ok_young; [unfold na; congruence | rewrite V |]; rewrite E; cbn; lia].
    intros c8 t a1 b1 E8 -> Ha Hb.
    match goal with |- wp ?m _ _ => assert (Cm : calm m) end.
    { calms; try apply calm_send; apply calm_send_cert. }
    destruct (Cm c8) as [N9 E9]. unfold wp. eapply B2; [exact N9 | rewrite E9; exact E8 | lia | lia]. }
  wstep. destruct first; cbn [negb].
  - apply wp_setup; [exact V | exact P | exact T].
  - destruct P as (s & sd & P). assert (Z : sched c = Some (s, 0, 0, 0)) by (unfold sched; rewrite P; reflexivity).
    apply wpb_calm; [calms | intros u c1 _ E1; apply T; exists s; congruence|].
    intros e c1 Ne E. apply ok_same; [unfold na; congruence | exact E | congruence | exact Kc].
Qed.
Lemma wp_client_finished must h k c x : c_cipher c = Some x -> cs_state x = 2 -> usage_limit (cs_suite x) <> None -> young (c_state c) = true -> K c ->
  wp (process_client_finished C must h k) c (ok c).
Proof.
  intros Ex Es U Y Kc. unfold process_client_finished.
  destruct k as [| |m| |]; try (apply calm_young; [apply calm_base | exact Y | exact Kc]).
  destruct m as [| | | | | |v|]; try (apply calm_young; [apply calm_base | exact Y | exact Kc]).
  assert (B : forall e c1, e <> XAssert -> sched c1 = sched c -> ok c (@Err unit e) c1).
  { intros e c1 Ne E. apply ok_same; [unfold na; congruence | exact E | congruence | exact Kc]. }
  apply wpb_calm; [apply calm_ask; intro; apply na_value; [apply na_verify_finish | discriminate] | | exact B]. intros u c1 _ E1.
  apply wpb_calm; [apply calm_digest | | intros; apply B; congruence]. intros sf c2 _ E2.
  destruct must; [wstep; apply B; [discriminate | congruence]|].
  apply wpb_calm; [apply calm_digest | | intros; apply B; congruence]. intros sf3 c3 _ E3.
  apply wpb_calm; [calms | | intros; apply B; congruence]. intros f c4 _ E4.
  apply wpb_calm; [apply calm_send | | intros; apply B; congruence]. intros u5 c5 _ E5.
  apply wpb_calm; [apply calm_digest | | intros; apply B; congruence]. intros cf c6 _ E6.
  assert (S : sched c = Some (cs_suite x, 2, d_epoch (cs_w x), d_epoch (cs_r x))) by (unfold sched; rewrite Ex; cbn [option_map]; rewrite Es; reflexivity).
  eapply wpb_master; [rewrite E6, E5, E4, E3, E2, E1; exact S | exact U | | intros; apply B; congruence].
  intros w c7 a b E7 Ha Hb. wstep. wstep. wstep.
  unfold K in Kc. rewrite Y, S in Kc. cbn in Kc.
  split; [discriminate|]. change (sched (cset_state Connected c7)) with (sched c7). unfold K. change (sched (cset_state Connected c7)) with (sched c7). rewrite S, E7. cbn. lia.
Qed.
Lemma wp_server_finished h k c x : c_cipher c = Some x -> cs_state x = 2 -> usage_limit (cs_suite x) <> None -> young (c_state c) = true -> K c ->
  wp (process_server_finished C h k) c (ok c).
Proof.
  intros Ex Es U Y Kc. unfold process_server_finished.
  destruct k as [| |m| |]; try (apply calm_young; [apply calm_base | exact Y | exact Kc]).
  destruct m as [| | | | | |v|]; try (apply calm_young; [apply calm_base | exact Y | exact Kc]).
  assert (B : forall e c1, e <> XAssert -> sched c1 = sched c -> ok c (@Err unit e) c1).
  { intros e c1 Ne E. apply ok_same; [unfold na; congruence | exact E | congruence | exact Kc]. }
  apply wpb_calm; [apply calm_ask; intro; apply na_value; [apply na_verify_finish | discriminate] | | exact B]. intros u c1 _ E1.
  apply wpb_calm; [apply calm_digest | | intros; apply B; congruence]. intros sf c2 _ E2.
  assert (S : sched c = Some (cs_suite x, 2, d_epoch (cs_w x), d_epoch (cs_r x))) by (unfold sched; rewrite Ex; cbn [option_map]; rewrite Es; reflexivity).
  eapply wpb_master; [rewrite E2, E1; exact S | exact U | | intros; apply B; congruence].
  intros w c7 a b E7 Ha Hb. wstep. wstep. wstep.
  unfold K in Kc. rewrite Y, S in Kc. cbn in Kc.
  split; [discriminate|]. change (sched (cset_state Connected c7)) with (sched c7). unfold K. change (sched (cset_state Connected c7)) with (sched c7). rewrite S, E7. cbn. lia.
Qed.
Lemma base_ok k c : K c -> wp (base_process k) c (ok c).
Proof.
  intro Kc. destruct (calm_base k c) as [H1 H2]. unfold wp. apply ok_same; try assumption. intro Y.
  unfold base_process. destruct k; try exact Y. repeat match goal with |- context [if ?b then _ else _] => destruct b end; try exact Y; reflexivity.
Qed.
Lemma wp_process k c : (forall h, k = KHandshake h -> exists ty d c0 t, msg_type h = Some ty /\ c_state c0 = c_state c /\ g_side (c_config c0) = g_side (c_config c) /\
     c_cipher c0 = c_cipher c /\ place c0 /\ tr_update d (other_side (g_side (c_config c0))) ty (c_tr c0) = (Ok tt, t)) ->
  ((forall h, k <> KHandshake h) -> place c) -> K c -> wp (process C k) c (ok c).
Proof.
  intros Hh Hn Kc. unfold process. wstep.
  destruct (c_state c) eqn:S; try (apply base_ok; exact Kc).
  - destruct (k) as [| |h| |] eqn:Ek; try (unfold process_wait_sh; apply base_ok; exact Kc).
    destruct (Hh _ eq_refl) as (ty & d & c0 & t & Mt & S0 & G0 & C0 & P0 & T0). unfold place in P0. rewrite S0 in P0. destruct P0 as [P0|P0].
    + destruct h as [|hrr random sid suite exts| | | | | |]; try (cbn [process_wait_sh]; destruct first; [apply base_ok; exact Kc | wstep; apply ok_same; [discriminate | reflexivity | auto | exact Kc]]).
      cbn in Mt. injection Mt; intros <-. destruct (P0 _ _ T0).
    + apply wp_wait_sh; [unfold pristine in *; rewrite <- C0; exact P0 | rewrite S; reflexivity].
  - apply calm_young; [apply calm_ee | rewrite S; reflexivity | exact Kc].
  - apply calm_young; [apply calm_cert_cr | rewrite S; reflexivity | exact Kc].
  - apply calm_young; [apply calm_cert | rewrite S; reflexivity | exact Kc].
  - apply calm_young; [apply calm_cv | rewrite S; reflexivity | exact Kc].
  - assert (X : exists x, c_cipher c = Some x /\ cs_state x = 2 /\ usage_limit (cs_suite x) <> None \/ forall h, k <> KHandshake h).
    { destruct k as [| |h| |]; try (exists (cs_new 0 0 0 Client); right; discriminate).
      destruct (Hh _ eq_refl) as (ty & d & c0 & t & Mt & S0 & G0 & C0 & P0 & T0). unfold place in P0. rewrite S0 in P0. destruct P0 as (x & P0). exists x. left. rewrite <- C0. exact P0. }
    destruct X as [x [(X1 & X2 & X3)|X]]; [eapply wp_client_finished; eauto; rewrite S; reflexivity|].
    unfold process_client_finished. destruct k; try (apply base_ok; exact Kc). destruct (X _ eq_refl).
  - destruct (k) as [| |h| |] eqn:Ek; try (unfold process_wait_ch; apply base_ok; exact Kc).
    destruct (Hh _ eq_refl) as (ty & d & c0 & t & Mt & S0 & G0 & C0 & P0 & T0). unfold place in P0. rewrite S0 in P0. destruct P0 as [P0|P0].
    + destruct h as [random sid suites exts| | | | | | |]; try (cbn [process_wait_ch]; apply base_ok; exact Kc).
      cbn in Mt. injection Mt; intros <-. destruct (P0 _ _ T0).
    + apply wp_wait_ch; [unfold pristine in *; rewrite <- C0; exact P0 | rewrite S; reflexivity].
  - assert (X : exists x, c_cipher c = Some x /\ cs_state x = 2 /\ usage_limit (cs_suite x) <> None \/ forall h, k <> KHandshake h).
    { destruct k as [| |h| |]; try (exists (cs_new 0 0 0 Client); right; discriminate).
      destruct (Hh _ eq_refl) as (ty & d & c0 & t & Mt & S0 & G0 & C0 & P0 & T0). unfold place in P0. rewrite S0 in P0. destruct P0 as (x & P0). exists x. left. rewrite <- C0. exact P0. }
    destruct X as [x [(X1 & X2 & X3)|X]]; [eapply wp_server_finished; eauto; rewrite S; reflexivity|].
    unfold process_server_finished. destruct k; try (apply base_ok; exact Kc). destruct (X _ eq_refl).
  - destruct k; try (apply base_ok; exact Kc). wstep. wstep. wstep. apply ok_same; [discriminate | reflexivity | auto | exact Kc].
  - destruct can_recv; [|wstep; apply ok_same; [discriminate | reflexivity | auto | exact Kc]].
    destruct k; try (apply base_ok; exact Kc). wstep. wstep. wstep. apply ok_same; [discriminate | reflexivity | auto | exact Kc].
  - wstep. apply ok_same; [discriminate | reflexivity | auto | exact Kc].
Qed.
Lemma wp_hand ct d c : place c -> K c -> wp (handle_content C ct d) c (ok c).
Proof.
  intros P Kc. unfold handle_content. wstep. wstep.
  2:{ apply ok_same; [|reflexivity | auto | exact Kc]. match goal with E : parse_content _ ?x ?y ?z = Err _ |- _ => pose proof (na_parse x y z) as Nx; rewrite E in Nx; exact (na_err _ _ _ Nx) end. }
  match goal with |- wp (bind (match ?x with _ => _ end) _) _ _ => rename x into k end.
  destruct k as [| |h| |]; try (wstep; apply wp_process; [discriminate | intro; exact P | exact Kc]).
  destruct (msg_type h) as [ty|] eqn:Mt; [|wstep; apply ok_same; [discriminate | reflexivity | auto | exact Kc]].
  wstep.
  - apply (wp_mono _ _ _ (ok (cset_hs (c_hs c ++ [(other_side (g_side (c_config c)), ty, d)]) (cset_tr t c)))); [|intros r c' X; exact X].
    apply wp_process; [|intro Nk; destruct (Nk _ eq_refl) | exact Kc].
    intros h' E. injection E; intros <-. exists ty, d, c, t. repeat (split; [reflexivity || assumption|]). assumption.
  - apply ok_same; [|reflexivity | auto | exact Kc].
    match goal with E : tr_update ?x ?y ?z ?w = (Err ?e, _) |- _ => pose proof (na_update x y z w) as Nx; rewrite E in Nx; exact (na_err _ _ _ Nx) end.
Qed.
Lemma send_young k c : c_state (snd (send_content C k c)) = c_state c.
Proof. pose proof (sending_content C k c) as (E & _). rewrite E. reflexivity. Qed.
Lemma wp_fail a c : K c -> wp (fail C a) c (ok c).
Proof.
  intro Kc. unfold fail.
  assert (F : forall c1, sched c1 = sched c -> wp (set_state Failed) c1 (ok c)).
  { intros c1 E. apply ok_same; [discriminate | exact E | reflexivity | exact Kc]. }
  destruct a as [code|]; [|apply F; reflexivity].
  pose proof (send_young (KAlert FATAL code) c) as Sy. destruct (calm_send (KAlert FATAL code) c) as [N1 E1].
  unfold wp, bind. destruct (send_content C (KAlert FATAL code) c) as [[u|e] c1]; cbn [fst snd] in *; [exact (F c1 E1)|].
  apply ok_same; [exact (na_err _ _ _ N1) | exact E1 | congruence | exact Kc].
Qed.
Lemma ok_trans A B c (r : res A) c1 (r' : res B) c2 : ok c r c1 -> ok c1 r' c2 -> ok c r' c2.
Proof. intros (_ & U & _) (N2 & U2 & K2). split; [exact N2|]. split; [eapply up_trans; eassumption | exact K2]. Qed.

Section history.
Variable G : conn -> Prop.
Hypothesis G_place : forall c, G c -> place c.
Hypothesis G_content : forall c, G c -> G (snd (read_next_content C c)).
Hypothesis G_guard : forall c, G c -> G (snd (guarded C (receive_one C) c)).
Hypothesis G_in : forall c v, G c -> G (cset_in v c).
Lemma wp_guarded c : G c -> K c -> wp (guarded C (receive_one C)) c (ok c).
Proof.
  intros Gc Kc.
  assert (R : wp (receive_one C) c (ok c)).
  { unfold receive_one. pose proof (G_content c Gc) as G1. pose proof (reading_content C c) as [Er _].
    destruct (calm_content c) as [N1 E1]. unfold wp, bind. destruct (read_next_content C c) as [r c1]. cbn [fst snd] in *.
    assert (S1 : c_state c1 = c_state c) by (rewrite Er; reflexivity).
    assert (K1 : K c1) by (eapply K_same; [exact E1 | congruence | exact Kc]).
    destruct r as [[[ct d]|]|e].
    - pose proof (wp_hand ct d c1 (G_place _ G1) K1) as (N2 & U2 & K2). rewrite E1 in U2. destruct (handle_content C ct d c1) as [[u|e] c2]; cbn [fst snd] in *.
      + split; [discriminate | split; assumption].
      + split; [exact (na_err _ _ _ N2) | split; assumption].
    - apply ok_same; [discriminate | exact E1 | cbn; rewrite S1; auto | exact Kc].
    - apply ok_same; [exact (na_err _ _ _ N1) | exact E1 | cbn; rewrite S1; auto | exact Kc]. }
  unfold wp in *. unfold guarded. destruct (receive_one C c) as [[b|e] c1]; cbn [fst snd] in *; [exact R|].
  destruct R as (N1 & U1 & K1).
  match goal with |- context [fail C ?a c1] => pose proof (wp_fail a c1 K1) as F; unfold wp in F; destruct (fail C a c1) as [[u|e2] c2]; cbn [fst snd] in * end.
  - destruct F as (_ & U2 & K2). split; [exact (na_err _ _ _ N1)|]. split; [eapply up_trans; eassumption | exact K2].
  - destruct F as (N2 & U2 & K2). split; [exact (na_err _ _ _ N2)|]. split; [eapply up_trans; eassumption | exact K2].
Qed.
Lemma wp_loop n c : G c -> K c -> wp (receive_loop n C) c (ok c).
Proof.
  revert c. induction n as [|n IH]; intros c Gc Kc; cbn [receive_loop];
  pose proof (wp_guarded c Gc Kc) as R; pose proof (G_guard c Gc) as G1; unfold wp in *; unfold bind;
  destruct (guarded C (receive_one C) c) as [[b|e] c1]; cbn [fst snd] in *.
  1,3: destruct b; cbn [negb]; [|destruct R as (_ & R); split; [discriminate | exact R]].
  - destruct R as (_ & R); split; [discriminate | exact R].
  - eapply ok_trans; [exact R|]. apply IH; [exact G1 | apply R].
  - destruct R as (N1 & R). split; [exact (na_err _ _ _ N1) | exact R].
  - destruct R as (N1 & R). split; [exact (na_err _ _ _ N1) | exact R].
Qed.
Lemma wp_receive d c : G c -> K c -> wp (receive_data C d) c (ok c).
Proof.
  intros Gc Kc. unfold receive_data.
  assert (B : forall e, e <> XAssert -> ok c (@Err unit e) c) by (intros e Ne; apply ok_same; [unfold na; congruence | reflexivity | auto | exact Kc]).
  destruct (is_nil d); [wstep; apply B; discriminate|]. wstep. destruct (negb _); [wstep; apply B; discriminate|]. wstep.
  pose proof (wp_loop (length (c_in c ++ d)) (cset_in (c_in c ++ d) c) (G_in _ _ Gc) Kc) as R.
  eapply wpb_mono; [exact R|]. intros [u|e] c1 (N1 & U1 & K1); [|split; [exact N1 | split; assumption]].
  assert (D : forall r : res unit, na r -> ok c r c1) by (intros r Nr; split; [exact Nr | split; assumption]).
  wstep. destruct (c_cipher c1) as [x|]; [|wstep; wstep; apply D; discriminate].
  wstep; [|apply D; match goal with E : should_rekey ?x = Err ?e |- _ => pose proof (na_rekey x) as Nx; rewrite E in Nx; exact (na_err _ _ _ Nx) end].
  match goal with |- wp (if ?b then _ else _) _ _ => destruct b end; [|wstep; apply D; discriminate].
  unfold rekey. wstep. destruct (negb _); wstep; apply D; discriminate.
Qed.
Lemma wp_void A (m : M A) c (b : bytes) : wp m c (ok c) -> wp (m ;; ret b) c (ok c).
Proof. intro H. eapply wpb_mono; [exact H|]. intros [a|e] c1 (N1 & H1); [split; [discriminate | exact H1] | split; [exact (na_err _ _ _ N1) | exact H1]]. Qed.
Lemma wp_step o c : G c -> K c -> wp (step C o) c (ok c).
Proof.
  intros Gc Kc.
  assert (Id : forall A (r : res A), na r -> ok c r c) by (intros A r Nr; apply ok_same; [exact Nr | reflexivity | auto | exact Kc]).
  destruct o; unfold step.
  - apply wp_void. destruct (calm_init c) as [N1 E1]. unfold wp. apply ok_same; [exact N1 | exact E1 | | exact Kc].
    intro Y. unfold initiate_connection. rewrite bind_get. destruct (c_state c) eqn:S; try discriminate; rewrite <- S in Y; unfold raise; exact Y.
  - apply wp_void, wp_receive; assumption.
  - apply wp_void. unfold send_data. destruct (calm_send (KAppData d) c) as [N1 E1]. unfold wp. apply ok_same; [exact N1 | exact E1 | rewrite send_young; auto | exact Kc].
  - unfold data_to_read. wstep. wstep. wstep. apply ok_same; [discriminate | reflexivity | auto | exact Kc].
  - unfold data_to_send. wstep. wstep. wstep. apply ok_same; [discriminate | reflexivity | auto | exact Kc].
  - apply wp_void. unfold rekey. wstep. destruct (negb _); wstep; apply Id; discriminate.
  - apply wp_void. unfold close_receiving_end. wstep. destruct (negb _); [apply wp_fail; exact Kc|].
    destruct (c_state c) eqn:S; wstep; wstep; wstep; apply ok_same; try discriminate; try reflexivity; exact Kc.
  - apply wp_void. unfold close_sending_end. wstep.
    assert (T : forall c1, sched c1 = sched c -> young (c_state c1) = false -> wp (do c <- get;
      if can_send (c_state c)
      then send_content C (KAlert WARNING CLOSE_NOTIFY) ;;
           modify (fun c => match c_state c with Closed r _ => cset_state (Closed r false) c | _ => c end)
      else ret tt) c1 (ok c)).
    { intros c1 E1 Y1. wstep. destruct (can_send (c_state c1)); [|wstep; apply ok_same; [discriminate | exact E1 | auto | exact Kc]].
      pose proof (send_young (KAlert WARNING CLOSE_NOTIFY) c1) as Sy. destruct (calm_send (KAlert WARNING CLOSE_NOTIFY) c1) as [N2 E2].
      unfold wp, bind. destruct (send_content C (KAlert WARNING CLOSE_NOTIFY) c1) as [[u|e] c2]; cbn [fst snd] in *.
      - unfold modify. cbn [fst snd]. apply ok_same; [discriminate | | | exact Kc].
        + destruct (c_state c2); exact (eq_trans E2 E1).
        + intros _. rewrite <- Sy in Y1. destruct (c_state c2) eqn:S2; try discriminate; cbn; try rewrite S2; reflexivity.
      - apply ok_same; [exact (na_err _ _ _ N2) | exact (eq_trans E2 E1) | intros _; rewrite Sy; exact Y1 | exact Kc]. }
    destruct (c_state c) eqn:S; wstep; apply T; try reflexivity; rewrite S; reflexivity.
Qed.
End history.
End sched.

(* --- clients --------------------------------------------------------------- *)
Section client.
Variables (C : crypto) (g : config) (host : option str) (ocsp : bool) (rng : N -> bytes) (hl : list hashalg) (hc : hashalg).
Hypothesis As : aead_sized C.
Hypothesis Un : unasserting C.
Hypothesis Hs : hmac_sized C.
Hypothesis Hh : hash_sized C.
Hypothesis Hg : g_side g = Client.
Hypothesis Hhl : exists r, hl = hc :: r.
Let live := P_Client.live C g host ocsp rng hl hc.
Definition gc (c : conn) : Prop := able c /\ live c.
Lemma gc_place c : gc c -> place c.
Proof.
  intros [_ L]. unfold live, P_Client.live in L. unfold place. destruct (c_state c) eqn:S; try exact Logic.I; try destruct L; try exact Logic.I.
  - left. destruct H as (_ & Gs & Hi & At). rewrite Gs. cbn [other_side]. intros d t Tu. destruct (c_tr c) as [hs i]. cbn [t_i] in *.
    destruct (at_slot_update _ _ _ _ _ _ _ Hi At Tu) as [_ [Nty _]]. destruct (Nty eq_refl).
  - right. destruct H as (_ & gr & j & n & _ & _ & _ & _ & A). unfold pristine. destruct first.
    + destruct A as (d & _ & E & _). exact E.
    + destruct A as (su & h & _ & _ & _ & E & _). eauto.
  - destruct H as (ee & crs & cd & vd & n & key & alg & _ & M & _). destruct M as (Kok & _ & _ & _ & (y & Ey & Hk & Fr)).
    destruct Kok as (_ & Sh & _). destruct (suite_hash_of _ _ Sh) as [_ [klen Is]].
    destruct (handshake_keys_full C _ _ _ _ _ _ _ Hs Is (hk_keys _ _ _ _ _ _ Hk)) as (_ & Csu & _ & Cst & _).
    exists y. split; [exact Ey|]. split; [exact Cst|]. destruct Fr as (lim & q & Il & _). apply limit_table_usage in Il. congruence.
Qed.
Lemma gc_content c : gc c -> gc (snd (read_next_content C c)).
Proof.
  intros [A L]. split.
  - apply (stable_read_next_content C _ (able_stable C)); intros; auto.
  - eapply P_Client.live_read; [apply reading_content | exact L].
Qed.
Lemma gc_in c v : gc c -> gc (cset_in v c).
Proof. intros [A L]. split; [exact A|]. eapply P_Client.live_read; [apply reading_in | exact L]. Qed.
Lemma gc_guard c : gc c -> gc (snd (guarded C (receive_one C) c)).
Proof.
  apply (goodE_guarded C able (able_stable C)) with (J := P_Client.soft C g host ocsp rng hc); try (intros; assumption).
  - intros c0 c1. apply P_Client.live_read.
  - apply P_Client.live_soft.
  - intros code c0 Lc A0. apply P_Client.soft_fail; assumption.
  - intros ct d c0 A0 L0. apply P_Client.live_hand; assumption.
Qed.
Lemma gc_step o c : gc c -> gc (after C o c).
Proof.
  intros [A L]. apply (P_Client.client_run C g host ocsp rng hl hc As Hs Hh Hg Hhl [o] c A L).
Qed.
Lemma gc_run ops c : gc c -> K c -> gc (run C ops c) /\ K (run C ops c).
Proof.
  revert c. induction ops as [|o ops IH]; intros c Gc Kc; [split; assumption|]. cbn [run]. apply IH; [apply gc_step; exact Gc|].
  apply (wp_step C As Un gc gc_place gc_content gc_guard gc_in o c Gc Kc).
Qed.
End client.

(* --- servers --------------------------------------------------------------- *)
Section server.
Variables (C : crypto) (g : config) (ocsp : bool) (rng : N -> bytes) (unique : bytes) (hl : list hashalg).
Hypothesis As : aead_sized C.
Hypothesis Un : unasserting C.
Hypothesis Hs : hmac_sized C.
Hypothesis Hh : hash_sized C.
Hypothesis Hg : g_side g = Server.
Hypothesis Hu : blen unique = 32.
Hypothesis Hn : unique <> retry_random.
Let live := P_Server.live C g ocsp rng unique hl.
Definition gs (c : conn) : Prop := ready c /\ live c.
Lemma gs_place c : gs c -> place c.
Proof.
  intros [_ L]. unfold live, P_Server.live in L. unfold place. destruct (c_state c) eqn:S; try exact Logic.I; try destruct L; try exact Logic.I.
  - left. destruct H as (_ & Gs & Hi & _). rewrite Gs. cbn [other_side]. intros d t Tu. destruct (c_tr c) as [hs i]. cbn [t_i] in *. subst i.
    apply P_Server.tr_dead in Tu as (_ & e & E). discriminate.
  - right. destruct H as (_ & _ & A). unfold pristine. destruct first.
    + apply A.
    + destruct A as (d0 & dr & random & su & h & group & sg & n & _ & _ & _ & _ & _ & _ & _ & E & _). eauto.
  - destruct H as (ee & cd & vd & sd & junk & y & Kok & _ & _ & _ & _ & _ & _ & Ey & Hk & U & _).
    destruct Kok as (_ & _ & Sh & _). destruct (suite_hash_of _ _ Sh) as [_ [klen Is]].
    destruct (handshake_keys_full C _ _ _ _ _ _ _ Hs Is (hk_keys _ _ _ _ _ _ Hk)) as (_ & Csu & _ & Cst & _).
    exists y. split; [exact Ey|]. split; [exact Cst|]. congruence.
Qed.
Lemma gs_content c : gs c -> gs (snd (read_next_content C c)).
Proof.
  intros [A L]. split.
  - apply (stable_read_next_content C _ (ready_stable C)); intros; auto.
  - eapply P_Server.live_read; [apply reading_content | exact L].
Qed.
Lemma gs_in c v : gs c -> gs (cset_in v c).
Proof. intros [A L]. split; [exact A|]. eapply P_Server.live_read; [apply reading_in | exact L]. Qed.
Lemma gs_guard c : gs c -> gs (snd (guarded C (receive_one C) c)).
Proof.
  apply (goodE_guarded C ready (ready_stable C)) with (J := P_Server.soft C g ocsp rng unique); try (intros; assumption).
  - intros c0 c1. apply P_Server.live_read.
  - apply P_Server.live_soft.
  - intros code c0 Lc A0. apply P_Server.soft_fail; assumption.
  - intros ct d c0 A0 L0. apply P_Server.live_hand; assumption.
Qed.
Lemma gs_step o c : gs c -> gs (after C o c).
Proof. intros [A L]. apply (P_Server.server_run C g ocsp rng unique hl As Hs Hh Hg Hu Hn [o] c A L). Qed.
Lemma gs_run ops c : gs c -> K c -> gs (run C ops c) /\ K (run C ops c).
Proof.
  revert c. induction ops as [|o ops IH]; intros c Gc Kc; [split; assumption|]. cbn [run]. apply IH; [apply gs_step; exact Gc|].
  apply (wp_step C As Un gs gs_place gs_content gs_guard gs_in o c Gc Kc).
Qed.
End server.

Lemma created_K g c : created g c -> K c.
Proof.
  intro H. apply created_cases in H. destruct H as [(_ & ? & ? & ? & ? & ? & -> & _)|(_ & ? & ? & ? & ? & -> & _)]; cbn; lia.
Qed.
Lemma alive_step C g c o : aead_sized C -> hmac_sized C -> hash_sized C -> unasserting C -> alive C g c ->
  K c /\ wp (step C o) c (ok c).
Proof.
  intros As Hs Hh Un (c0 & ops & Cr & Ow & ->). pose proof (created_K _ _ Cr) as K0. destruct (g_side g) eqn:Hg.
  - destruct (P_Client.client_live' C g c0 As Hs Hh Hg) as (host & ocsp & rng & hl & hc & Hhl & A & L); [exists c0, []; auto|].
    assert (G0 : gc C g host ocsp rng hl hc c0) by (split; assumption).
    destruct (gc_run C g host ocsp rng hl hc As Un Hs Hh Hg Hhl ops c0 G0 K0) as [G1 K1]. split; [exact K1|].
    eapply wp_step; try assumption; [apply gc_place; eassumption | apply gc_content; eassumption | apply gc_guard; eassumption | apply gc_in; eassumption | exact G1].
  - destruct (P_Server.server_live' C g c0 As Hs Hh Hg) as (ocsp & rng & unique & hl & Lu & Nu & R & L & _); [exists c0, []; auto|].
    assert (G0 : gs C g ocsp rng unique hl c0) by (split; assumption).
    destruct (gs_run C g ocsp rng unique hl As Un Hs Hh Hg Lu Nu ops c0 G0 K0) as [G1 K1]. split; [exact K1|].
    eapply wp_step; try assumption; [apply gs_place; eassumption | apply gs_content; eassumption | apply gs_guard; eassumption | apply gs_in; eassumption | exact G1].
Qed.
Lemma sched_of c : val (sched c) = (stage c, installed_w c, installed_r c).
Proof. unfold sched, stage, installed_w, installed_r. destruct (c_cipher c); reflexivity. Qed.
Section theorems.
Variables (C : crypto) (g : config) (c : conn).
Hypothesis As : aead_sized C.
Hypothesis Hs : hmac_sized C.
Hypothesis Hh : hash_sized C.
Hypothesis Un : unasserting C.
Hypothesis Al : alive C g c.
Lemma sched_forward o : forward c (after C o c).
Proof. destruct (alive_step C g c o As Hs Hh Un Al) as [_ (_ & U & _)]. rewrite !sched_of in U. exact U. Qed.
Lemma sched_once : installed_w c <= 2 /\ installed_r c <= 2 /\ stage c <= 2 /\
  (before_end (c_state c) = true -> installed_w c <= 1 /\ installed_r c <= 1) /\
  (stage c < 2 -> installed_w c = 0 /\ installed_r c = 0).
Proof.
  destruct (alive_step C g c ORead As Hs Hh Un Al) as [Hk _]. unfold K in Hk. rewrite sched_of in Hk.
  change (young (c_state c)) with (before_end (c_state c)) in Hk. destruct (before_end (c_state c)); cbn in Hk; intuition lia.
Qed.
Lemma sched_asserts o : fst (step C o c) <> Err XAssert.
Proof. destruct (alive_step C g c o As Hs Hh Un Al) as [_ (N1 & _)]. exact N1. Qed.
End theorems.
Lemma forward_trans a b c : forward a b -> forward b c -> forward a c.
Proof. unfold forward. lia. Qed.
Lemma run_app C ops o c : run C (ops ++ [o]) c = after C o (run C ops c).
Proof. revert c. induction ops as [|x ops IH]; intro c; cbn [run app]; [reflexivity | apply IH]. Qed.
Lemma alive_after C g c o : alive C g c -> alive C g (after C o c).
Proof. intros (c0 & ops & H1 & H2 & ->). exists c0, (ops ++ [o]). split; [exact H1|]. split; [exact H2 | symmetry; apply run_app]. Qed.
Lemma sched_run C g c ops : aead_sized C -> hmac_sized C -> hash_sized C -> unasserting C -> alive C g c -> forward c (run C ops c).
Proof.
  intros As Hs Hh Un. revert c. induction ops as [|o ops IH]; intros c Al; cbn [run].
  - unfold forward. lia.
  - eapply forward_trans; [apply (sched_forward C g c As Hs Hh Un Al o) | apply IH, alive_after, Al].
Qed.
