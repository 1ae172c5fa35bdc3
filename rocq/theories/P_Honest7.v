From Verif Require Import Base Iana Crypto Config Ext Msg Cipher Kex Sig Ocsp Transcript Conn S_Hist S_Conn S_Send S_Auth S_Server S_Deliver S_Keys S_Utils S_Codec S_Honest P_Base P_Hist P_Tr P_Neg P_Refuse P_Codec P_Keys P_Send P_Deliver P_Honest P_Honest2 P_Honest3 P_Honest4 P_Honest5 P_Honest6.

(* the messages of the server parse back *)
Lemma cons_ok C h e l : sound C e -> match home e with Some l => In h l | None => False end ->
  Forall (ext_ok C h) l -> Forall (ext_ok C h) (e :: l).
Proof. intros S H F. constructor; [|exact F]. split; [exact S|]. destruct (home e); [exact H | destruct H]. Qed.
Lemma sh_ok C p random suite group share : blen random = 32 -> random <> retry_random ->
  message_ok C p (HServerHello false random [] suite [ESupVersionsResp TLS_1_3; EKeyShareResp group share]).
Proof.
  intros L N. cbn [message_ok]. split; [exact L|]. split; [split; [discriminate | intro E; destruct (N E)]|]. split.
  - repeat constructor; cbn; intuition discriminate.
  - apply cons_ok; [reflexivity | cbn; tauto|]. apply cons_ok; [exact I | cbn; tauto | constructor].
Qed.
Lemma ee_ok C p al m : match al with Some q => Forall (fun c => 32 <= bN c <= 126) q | None => True end -> In m [1; 2] ->
  message_ok C p (HEncExt (match al with Some q => [EAlpn [q]] | None => [] end ++ [EHeartbeat m])).
Proof.
  intros Ha Hm. cbn [message_ok]. split.
  - destruct al; repeat constructor; cbn; intuition discriminate.
  - assert (F : Forall (ext_ok C NEncryptedExt) [EHeartbeat m]) by (apply cons_ok; [exact Hm | cbn; tauto | constructor]).
    destruct al as [q|]; [|exact F]. cbn [app]. apply cons_ok; [constructor; [exact Ha | constructor] | cbn; tauto | exact F].
Qed.
Lemma ce_ok C leaf rest st : Forall (fun cert => cr_load_cert C cert = Ok cert) (leaf :: rest) ->
  message_ok C (Some (Some CT_X509)) (HCert [] (entries_of leaf rest st)).
Proof.
  intro F. cbn [message_ok]. exists CT_X509. split; [reflexivity|]. split; [left; reflexivity|]. inversion F as [|? ? F1 F2]; subst.
  unfold entries_of. constructor.
  - split; [reflexivity|]. split; [exact F1|]. cbn [en_exts]. destruct st as [der|]; cbn [leaf_exts]; split; try constructor; try constructor; cbn; tauto.
  - clear F F1. induction F2 as [|c l Hc F IH]; [constructor|]. constructor; [|exact IH]. split; [reflexivity|]. split; [exact Hc|]. split; constructor.
Qed.

(* --- negotiation --------------------------------------------------------- *)
Lemma tr_new_has flip suites t : tr_new flip suites = Ok t ->
  exists hl, hl <> [] /\ t = mkTr (map (fun h => (h, [])) hl) 1 /\ forall s, In s suites -> exists h, suite_hash s = Some h /\ In h hl.
Proof.
  unfold tr_new. intro H. apply rbind_ok in H as (l & El & H).
  destruct (is_nil l) eqn:E; [discriminate|]. apply is_nil_false in E. injection H; intros <-. clear H.
  exists (if flip then rev l else l). split; [|split; [reflexivity|]].
  - destruct flip; [|exact E]. intro R. apply E. rewrite <- (rev_involutive l), R. reflexivity.
  - assert (X : forall s, In s suites -> exists h, suite_hash s = Some h /\ In h l).
    { clear E. revert l El. induction suites as [|s0 suites IH]; intros l El s I; [destruct I|]. cbn [fold_right] in El.
      apply rbind_ok in El as (l' & El' & El). destruct (suite_hash s0) as [h0|] eqn:Eh; [|discriminate].
      assert (S1 : forall x, In x l' -> In x l).
      { intros x Ix. destruct (existsb (hashalg_eqb h0) l') eqn:Ex; injection El; intros <-; [exact Ix | right; exact Ix]. }
      destruct I as [->|I].
      - exists h0. split; [exact Eh|]. destruct (existsb (hashalg_eqb h0) l') eqn:Ex; injection El; intros <-; [|left; reflexivity].
        apply existsb_exists in Ex as (x & Ix & Ee). destruct h0, x; cbn in Ee; try discriminate; exact Ix.
      - destruct (IH l' El' s I) as (h & A & B). exists h. auto. }
    intros s I. destruct (X s I) as (h & A & B). exists h. split; [exact A|]. destruct flip; [apply in_rev in B|]; exact B.
Qed.
Lemma find_has h data hl : In h hl -> find (fun p : hashalg * bytes => hashalg_eqb (fst p) h) (map (fun h => (h, data)) hl) = Some (h, data).
Proof.
  intro I. destruct (find _ _) as [p|] eqn:F; [apply find_map_hash in F; subst; reflexivity|].
  pose proof (find_none _ _ F (h, data)) as K. cbn [fst] in K.
  assert (K' : hashalg_eqb h h = false) by (apply K; apply in_map_iff; exists h; auto). destruct h; discriminate K'.
Qed.
Lemma suite_hash_small s h : suite_hash s = Some h -> s < 65536.
Proof.
  unfold suite_hash. repeat (destruct (s =? _) eqn:?E; [apply N.eqb_eq in E; subst; reflexivity | clear E]). discriminate.
Qed.
Lemma scheme_small oid s : In s (schemes_of_key oid) -> s < 65536 /\ memN s signature_suites = true /\ exists l, for_public_key_oid oid = Ok l /\ l = schemes_of_key oid.
Proof.
  unfold schemes_of_key, for_public_key_oid. repeat (destruct (oid =? _); [intro I; cbn [In] in I; repeat (destruct I as [<-|I]; [split; [reflexivity|]; split; [reflexivity|]; eexists; split; reflexivity|]); destruct I|]).
  intros [].
Qed.
Lemma named_small g : memN g named_groups = true -> g < 65536.
Proof. intro H. apply memN_In in H. cbn [In named_groups] in H. repeat (destruct H as [<-|H]; [reflexivity|]). destruct H. Qed.
Lemma kx_named C g a b : kx_init C g a = Ok b -> memN g named_groups = true.
Proof. unfold kx_init. destruct (memN g named_groups); [reflexivity | discriminate]. Qed.

(* --- certificates -------------------------------------------------------- *)
Lemma staple_ok C asked service chain st c n : stapling C asked service chain st -> c_ocsp c = service -> n_want_ocsp n = Some asked ->
  staple C c n chain = Ok (leaf_exts st).
Proof.
  intros S Hc Hn. unfold staple. rewrite Hn, Hc. destruct S as [H|subject issuer rest url req der until -> -> -> U Q F V|subject issuer rest url req der -> -> -> U Q F V].
  - destruct asked; [|reflexivity]. destruct service; [|reflexivity]. destruct H as [H|[H|H]]; try discriminate.
    destruct chain as [|? [|? ?]]; try reflexivity. cbn in H. lia.
  - rewrite U. cbn [rbind]. rewrite Q. cbn [rbind]. rewrite F. cbn [rbind]. rewrite V. reflexivity.
  - rewrite U. cbn [rbind]. rewrite Q. cbn [rbind]. rewrite F. cbn [rbind]. rewrite V. reflexivity.
Qed.
Lemma statuses_pass C o : forall l, (forall pre e i post, l = pre ++ e :: i :: post -> verify_status C o e i = Ok tt) -> verify_statuses C o l = Ok tt.
Proof.
  induction l as [|e l IH]; intro H; [reflexivity|]. destruct l as [|i l]; [reflexivity|]. cbn [verify_statuses].
  rewrite (H [] e i l eq_refl). cbn [rbind]. apply IH. intros pre e' i' post E. apply (H (e :: pre) e' i' post). rewrite E. reflexivity.
Qed.
Lemma download_ok C o e i x : download_fine C o (en_data e) (en_data i) -> en_exts e = x -> ext_get STATUS_REQUEST x = None -> verify_status C o e i = Ok tt.
Proof.
  intros D Ex Eg. unfold verify_status. rewrite Ex, Eg. destruct o; [|reflexivity]. destruct (D eq_refl) as (url & U & K). rewrite U. cbn [rbind].
  destruct url as [[|y u]|]; try reflexivity. destruct (K y u eq_refl) as (req & der & until & Q & F & V). rewrite Q. cbn [rbind]. match goal with |- context [cr_ocsp_fetch C ?a req] => assert (F2 : cr_ocsp_fetch C a req = Ok der) by exact F; rewrite F2 end. cbn [rbind]. rewrite V. reflexivity.
Qed.
Lemma check_ok C gc c leaf rest asked service st : chain_trusted C gc c leaf rest st -> stapling C asked service (leaf :: rest) st ->
  opt_bool (g_trust gc) = true ->
  client_check_x509 C gc (c_host c) (c_ocsp c) (entries_of leaf rest st) = Ok tt.
Proof.
  intros T S Ht. assert (Nt : g_trust gc <> None) by (intro E; rewrite E in Ht; discriminate). destruct (T Nt) as (Hc & (v & Hv) & Hs).
  unfold client_check_x509.
  assert (Em : map en_data (entries_of leaf rest st) = leaf :: rest).
  { unfold entries_of. cbn [map en_data]. f_equal. rewrite map_map. cbn [en_data]. apply map_id. }
  rewrite Em, Hv. cbn [rbind]. rewrite Hc. cbn [rbind]. apply statuses_pass. intros pre e i post E.
  pose proof (f_equal (map en_data) E) as E'. rewrite Em, map_app in E'. cbn [map] in E'.
  destruct (Hs _ _ _ _ E') as [[Hp Hn]|D].
  - destruct pre; [|discriminate]. cbn [app] in E. unfold entries_of in E. injection E; intros Er Ee. subst e. unfold verify_status. cbn [en_exts en_data].
    inversion S as [|subject issuer r url req der until ? ? Ech U Q F V|]; subst; try congruence.
    injection Ech; intros Er' <-. subst rest. cbn [map] in Er. injection Er; intros _ <-. cbn [en_data].
    cbn [leaf_exts]. change (ext_get STATUS_REQUEST [EOcspStatus der]) with (Some (EOcspStatus der)). cbv iota.
    rewrite Q. cbn [rbind]. rewrite V. reflexivity.
  - destruct pre as [|p0 pre].
    + cbn [app] in E. unfold entries_of in E. injection E; intros Er Ee. subst e.
      destruct st as [der|]; [|eapply download_ok; [exact D | reflexivity | reflexivity]].
      unfold verify_status. cbn [en_exts en_data leaf_exts].
      inversion S as [|subject issuer r url req der' until ? ? Ech U Q F V|]; subst.
      injection Ech; intros Er' <-. subst rest. cbn [map] in Er. injection Er; intros _ <-. cbn [en_data].
      change (ext_get STATUS_REQUEST [EOcspStatus der]) with (Some (EOcspStatus der)). cbv iota. rewrite Q. cbn [rbind]. rewrite V. reflexivity.
    + cbn [app] in E. unfold entries_of in E. injection E; intros Er _.
      assert (Ie : In e (map (fun cert => mkEntry CT_X509 cert []) rest)) by (rewrite Er; apply in_or_app; right; left; reflexivity).
      apply in_map_iff in Ie as (cert & Ec & _). apply (download_ok _ _ _ _ []); [exact D | rewrite <- Ec; reflexivity | reflexivity].
Qed.

(* --- keys ---------------------------------------------------------------- *)
Lemma finishes C suite h klen sd z th x t : hmac_sized C -> In (suite, (h, klen)) suite_table -> handshake_keys C suite sd z th x ->
  sign_finish C t x = Ok (cr_hmac C h (finished_key C h (hs_traffic C h sd z th)) t) /\
  verify_finish C t (cr_hmac C h (finished_key C h (hs_traffic C h (other_side sd) z th)) t) x = Ok tt.
Proof.
  intros Hs I K. destruct (handshake_keys_full _ _ _ _ _ _ _ _ Hs I K) as ((_ & _ & F1 & F2) & E1 & E2 & _).
  destruct (suite_of_hash _ _ _ I) as [Eh _]. unfold sign_finish, verify_finish. rewrite E1, E2, Eh.
  destruct sd; cbn [other_side]; rewrite ?F1, ?F2; cbn [fin_key rbind]; rewrite (proj2 (beqb_eq _ _) eq_refl); split; reflexivity.
Qed.
Lemma no_rekey s lim n x c : usage_limit s = Some lim -> cs_suite x = s -> c_cipher c = Some x -> loaded lim n (cs_w x) -> n < 1000 -> P_Split.rekeying c = Ok tt.
Proof.
  intros U Es Ex (k & iv & _ & _ & _ & Eq) Ln. unfold P_Split.rekeying. rewrite Ex. unfold should_rekey. rewrite Eq.
  pose proof (limit_small _ _ U) as L. unfold seq_peek. cbn [q_next q_limit].
  replace (n <? lim) with true by (symmetry; apply N.ltb_lt; lia).
  cbn [rbind]. rewrite Es, U. unfold REKEY_THRESHOLD. replace (lim - 1024 <=? n) with false by (symmetry; apply N.leb_gt; lia). reflexivity.
Qed.
