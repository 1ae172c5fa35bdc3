From Verif Require Import Base P_Base Iana Serial S_Serial P_Serial Crypto Ext Msg S_Codec P_Codec S_Layout P_Layout Cipher Config Conn P_Monad P_Grease S_Shuffle P_Shuffle.

(* --- what a state does with a message --------------------------------------- *)
Lemma get_shuffled a b ty : NoDup (map ext_type a) -> Permutation a b -> ext_get ty a = ext_get ty b.
Proof.
  intros Na P. assert (Nb : NoDup (map ext_type b)) by (eapply Permutation_NoDup; [apply Permutation_map; exact P | exact Na]).
  destruct (ext_get ty a) as [e|] eqn:Ea.
  - apply get_some in Ea. destruct Ea as [I E]. symmetry. apply get_in; [exact Nb | apply (Permutation_in _ P I) | exact E].
  - destruct (ext_get ty b) as [e|] eqn:Eb; [|reflexivity]. apply get_some in Eb. destruct Eb as [I E].
    rewrite (get_in ty a e Na) in Ea; [discriminate | apply (Permutation_in _ (Permutation_sym P) I) | exact E].
Qed.
Lemma hello_shuffled C a b random sid suites first c : (forall ty, ext_get ty a = ext_get ty b) ->
  process_wait_ch C first (KHandshake (HClientHello random sid suites a)) c = process_wait_ch C first (KHandshake (HClientHello random sid suites b)) c.
Proof.
  intro E. unfold process_wait_ch, server_negociate, server_neg_versions, server_neg_groups, server_neg_sigalgs, server_neg_key_share, server_neg_cct, server_neg_sct,
    server_neg_mfl, server_neg_alpn, server_neg_heartbeat, server_neg_status. rewrite !E. reflexivity.
Qed.
Lemma answer_shuffled C a b hrr random sid suite first sh ch c : (forall ty, ext_get ty a = ext_get ty b) ->
  process_wait_sh C first sh ch (KHandshake (HServerHello hrr random sid suite a)) c = process_wait_sh C first sh ch (KHandshake (HServerHello hrr random sid suite b)) c.
Proof.
  intro E. unfold process_wait_sh, client_process_hrr, client_process_sh, client_negociate_hello. rewrite !E. reflexivity.
Qed.
Lemma ee_shuffled a b c : (forall ty, ext_get ty a = ext_get ty b) ->
  process_wait_ee (KHandshake (HEncExt a)) c = process_wait_ee (KHandshake (HEncExt b)) c.
Proof.
  intro E. unfold process_wait_ee, client_neg_mfl, client_neg_alpn, client_neg_heartbeat, client_neg_cct, client_neg_sct. rewrite !E. reflexivity.
Qed.
Lemma entry_status C ocsp e e' i i' : entry_reordered e e' -> entry_reordered i i' -> verify_status C ocsp e i = verify_status C ocsp e' i'.
Proof. intros (_ & D & N & P) (_ & Di & _ & _). unfold verify_status. rewrite (get_shuffled _ _ STATUS_REQUEST N P), D, Di. reflexivity. Qed.
Lemma entries_status C ocsp l l' : Forall2 entry_reordered l l' -> verify_statuses C ocsp l = verify_statuses C ocsp l'.
Proof.
  induction 1 as [|e e' l l' R F IH]; [reflexivity|]. destruct F as [|i i' l l' Ri F]; [reflexivity|].
  change (verify_statuses C ocsp (e :: i :: l)) with (let* _ := verify_status C ocsp e i in verify_statuses C ocsp (i :: l)).
  change (verify_statuses C ocsp (e' :: i' :: l')) with (let* _ := verify_status C ocsp e' i' in verify_statuses C ocsp (i' :: l')).
  rewrite (entry_status _ _ _ _ _ _ R Ri), IH. reflexivity.
Qed.
Lemma entries_data l l' : Forall2 entry_reordered l l' -> map en_data l = map en_data l'.
Proof. induction 1 as [|e e' l l' (_ & D & _) F IH]; cbn [map]; congruence. Qed.
Lemma entries_check C g host ocsp l l' : Forall2 entry_reordered l l' -> client_check_x509 C g host ocsp l = client_check_x509 C g host ocsp l'.
Proof. intro F. unfold client_check_x509. rewrite (entries_data _ _ F), (entries_status _ _ _ _ F). reflexivity. Qed.
Lemma entries_exist f l l' : Forall2 entry_reordered l l' -> (forall e e', en_type e = en_type e' -> f e = f e') -> existsb f l = existsb f l'.
Proof. intros F H. induction F as [|e e' l l' (T & _) F IH]; [reflexivity|]. cbn [existsb]. rewrite IH, (H _ _ T). reflexivity. Qed.
Lemma certificate_shuffled C must ctx l l' c : Forall2 entry_reordered l l' ->
  process_wait_certificate C must (KHandshake (HCert ctx l)) c = process_wait_certificate C must (KHandshake (HCert ctx l')) c.
Proof.
  intro F. unfold process_wait_certificate. rewrite !bind_get, (entries_check _ _ _ _ _ _ F).
  replace (is_nil l') with (is_nil l) by (destruct F; reflexivity).
  destruct (require_peer_auth (c_config c) && is_nil l); [reflexivity|]. destruct (c_nc c) as [n|]; [|reflexivity].
  rewrite (entries_exist _ _ _ F) by (intros e e' ->; reflexivity).
  destruct F as [|e e' l l' (_ & D & _) F]; [reflexivity|]. rewrite D. reflexivity.
Qed.
Lemma process_shuffled C h h' c : reordered h h' -> process C (KHandshake h) c = process C (KHandshake h') c.
Proof.
  intro R. unfold process. rewrite !bind_get. destruct R as [? ? ? a b N P | ? ? ? ? a b N P | a b N P | ? a b N P | ctx l l' F];
    destruct (c_state c) as [ | | | | | | | | | | |[]| ]; try reflexivity.
  - apply hello_shuffled. exact (fun ty => get_shuffled a b ty N P).
  - apply answer_shuffled. exact (fun ty => get_shuffled a b ty N P).
  - apply ee_shuffled. exact (fun ty => get_shuffled a b ty N P).
  - unfold process_wait_cert_cr. unfold bind. destruct (set_state _ c) as [[[]|] c1]; [apply certificate_shuffled; exact F | reflexivity].
  - apply certificate_shuffled. exact F.
Qed.

(* --- what a message is read as ------------------------------------------------ *)
Definition place (r : raw) : hname :=
  match r with
  | RClientHello _ _ _ => NClientHello
  | RServerHello random _ _ => if beqb random hrr_random then NHelloRetry else NServerHello
  | REncExt => NEncryptedExt
  | RCertReq _ => NCertRequest
  end.
Definition finish (r : raw) (l : list ext) : res hs :=
  match r with
  | RClientHello random sid suites =>
    let* h := on_value_error (mk_client_hello random suites l) (XAlert ILLEGAL_PARAMETER) in
    match h with HClientHello r _ cs d => Ok (HClientHello r sid cs d) | _ => Err XAttr end
  | RServerHello random sid suite => Ok (HServerHello (beqb random hrr_random) random sid suite (ext_dict l))
  | REncExt => Ok (HEncExt (ext_dict l))
  | RCertReq ctx => if opt_bool (ext_get SIGNATURE_ALGORITHMS (ext_dict l)) then Ok (HCertReq ctx (ext_dict l)) else Err (XAlert ILLEGAL_PARAMETER)
  end.
Definition meant (C : crypto) (r : raw) (b : bytes) : res hs := let* l := parse_list (parse_ext C (place r)) b in finish r l.
Definition body_of (C : crypto) (r : raw) : stream -> res (hs * stream) :=
  match r with
  | RClientHello _ _ _ => parse_client_hello C
  | RServerHello _ _ _ => parse_server_hello C
  | REncExt => parse_enc_ext C
  | RCertReq _ => parse_cert_request C
  end.

Lemma join_ints n items : Forall (fun s => s < 256 ^ N.of_nat n) items -> join_map (to_bytes n) items = Ok (concat (map (be_bytes n) items)).
Proof.
  induction 1 as [|x l H F IH]; [reflexivity|]. cbn [join_map map concat]. unfold to_bytes at 1. apply N.ltb_lt in H. rewrite H. cbn [rbind]. rewrite IH. reflexivity.
Qed.
Lemma blen_ints n items : blen (concat (map (be_bytes n) items)) = N.of_nat (length items) * N.of_nat n.
Proof. induction items as [|x l IH]; [reflexivity|]. cbn [map concat length]. rewrite blen_app, blen_be_bytes, IH. lia. Qed.
Lemma suites_written suites : Forall (fun s => s < 65536) suites -> 2 * N.of_nat (length suites) < 65536 ->
  write_listint 2 2 suites = Ok (vec 2 (concat (map (be_bytes 2) suites))).
Proof.
  intros F L. unfold write_listint, vec. rewrite blen_ints, (join_ints 2 _ F). unfold to_bytes.
  assert (E : N.of_nat (length suites) * N.of_nat 2 <? 256 ^ N.of_nat 2 = true) by (apply N.ltb_lt; change (256 ^ N.of_nat 2) with 65536; lia).
  rewrite E. reflexivity.
Qed.

(* [p] reads [b], then does [o] *)
Definition acts {A} (p : stream -> res (A * stream)) (b : bytes) (o : res A) : Prop :=
  forall s post, rest s = b ++ post -> room s (blen b) -> p s = let* x := o in Ok (x, adv s (blen b)).
Lemma acts_bind {A B} (p : stream -> res (A * stream)) (q : A -> stream -> res (B * stream)) b1 b2 x o :
  reads p b1 x -> acts (q x) b2 o -> acts (fun s => let* (x, s1) := p s in q x s1) (b1 ++ b2) o.
Proof.
  intros H1 H2 s post HR HB. rewrite <- app_assoc in HR. rewrite blen_app in *.
  rewrite (H1 s (b2 ++ post) HR) by (eapply room_le; [apply HB|lia]). cbn [rbind].
  rewrite (H2 _ post (rest_adv_app _ _ _ HR) (room_adv _ _ _ HB)), adv_adv. reflexivity.
Qed.
Lemma acts_exts {A} C h b (k : list ext -> res A) : blen b < 65536 ->
  acts (fun s => let* (l, s1) := parse_exts C h s in let* x := k l in Ok (x, s1)) (vec 2 b) (let* l := parse_list (parse_ext C h) b in k l).
Proof.
  intros B s post R Ro. unfold parse_exts. rr (reads_var 2 b ltac:(discriminate) B s post R Ro). cbn [rbind].
  destruct (parse_list (parse_ext C h) b); reflexivity.
Qed.
Lemma acts_ext {A} (p q : stream -> res (A * stream)) b o : (forall s, p s = q s) -> acts p b o -> acts q b o.
Proof. intros E H s post HR HB. rewrite <- E. apply (H s post HR HB). Qed.
Lemma acts_limit {A} (p : stream -> res (A * stream)) b o : acts p b o -> acts (with_limit (blen b) (fun _ => p)) b o.
Proof.
  intros H s post HR HB. unfold with_limit. cbv zeta.
  assert (match s_limits s with [] => false | lim :: _ => lim <? s_pos s + blen b end = false) as E.
  { unfold room in HB. destruct (s_limits s); [reflexivity|]. apply N.ltb_ge. exact HB. }
  rewrite E. rewrite (H (mkStream (s_data s) (s_pos s) (s_pos s + blen b :: s_limits s)) post HR) by (cbn; apply N.le_refl).
  destruct o as [x|e]; cbn [rbind]; [|reflexivity]. unfold adv, with_pos. cbn [s_limits s_pos s_data]. rewrite !N.eqb_refl. reflexivity.
Qed.
Lemma body_acts C r b : fits r -> blen b < 65536 -> acts (body_of C r) (head r ++ vec 2 b) (meant C r b).
Proof.
  intros F B. destruct r as [random sid suites | random sid suite | | ctx]; cbn [body_of head meant finish place fits] in *.
  - destruct F as (Lr & Ls & Fs & Ln). unfold parse_client_hello. rewrite <- !app_assoc.
    eapply acts_bind; [apply (reads_int 2 TLS_1_2); [discriminate | reflexivity]|]. cbv beta. change (TLS_1_2 =? TLS_1_2) with true. cbn [negb].
    eapply acts_bind; [apply reads_exactly'; symmetry; exact Lr|]. cbv beta.
    eapply acts_bind; [apply (reads_var 1); [discriminate | exact Ls]|]. cbv beta.
    eapply acts_bind; [apply (reads_listint 2 2); [discriminate | discriminate | apply suites_written; assumption]|]. cbv beta.
    eapply acts_bind; [apply (reads_var 1 [x00]); [discriminate | reflexivity]|]. cbv beta. change (beqb [x00] [x00]) with true. cbn [negb].
    refine (acts_ext _ _ _ _ _ (acts_exts C NClientHello b (finish (RClientHello random sid suites)) B)).
    intro s. destruct (parse_exts C NClientHello s) as [[l s1]|]; cbn [rbind finish]; [|reflexivity].
    destruct (on_value_error _ _) as [[]|]; reflexivity.
  - destruct F as (Lr & Ls & Fs). unfold parse_server_hello. rewrite <- !app_assoc.
    eapply acts_bind; [apply (reads_int 2 TLS_1_2); [discriminate | reflexivity]|]. cbv beta. change (TLS_1_2 =? TLS_1_2) with true. cbn [negb].
    eapply acts_bind; [apply reads_exactly'; symmetry; exact Lr|]. cbv beta zeta.
    eapply acts_bind; [apply (reads_var 1); [discriminate | exact Ls]|]. cbv beta.
    eapply acts_bind; [apply (reads_int 2); [discriminate | exact Fs]|]. cbv beta.
    eapply acts_bind; [apply (reads_int 1 0); [discriminate | reflexivity]|]. cbv beta. change (0 =? 0) with true. cbn [negb].
    exact (acts_exts C _ b (finish (RServerHello random sid suite)) B).
  - exact (acts_exts C NEncryptedExt b (finish REncExt) B).
  - unfold parse_cert_request. eapply acts_bind; [apply (reads_var 1); [discriminate | exact F]|]. cbv beta zeta.
    refine (acts_ext _ _ _ _ _ (acts_exts C NCertRequest b (finish (RCertReq ctx)) B)).
    intro s. destruct (parse_exts C NCertRequest s) as [[l s1]|]; cbn [rbind finish]; [|reflexivity].
    destruct (opt_bool _); reflexivity.
Qed.
Definition closed_over (o : res hs) : res content :=
  match o with Ok h => Ok (KHandshake h) | Err e => if is_buffer_error e then Err (XAlert DECODE_ERROR) else Err e end.
Lemma head_small r : fits r -> blen (head r) < 131072.
Proof.
  destruct r; cbn [fits head]; intro F; unfold vec; rewrite ?blen_app, ?blen_be_bytes, ?blen_ints; cbn [blen length N.of_nat]; lia.
Qed.
Lemma wire_meant C pct r items : fits r -> small items -> parse_content C pct CT_HANDSHAKE (wire r items) = closed_over (meant C r (blk items)).
Proof.
  intros F [_ B]. pose proof (head_small r F) as Hh. set (b := blk items) in *.
  assert (L : blen (head r ++ vec 2 b) < 256 ^ N.of_nat 3).
  { change (256 ^ N.of_nat 3) with 16777216. unfold vec. rewrite !blen_app, blen_be_bytes. lia. }
  assert (A : acts (parse_hs C pct) (wire r items) (meant C r b)).
  { unfold parse_hs, wire. fold b. eapply acts_bind; [apply (reads_int 1); [discriminate | destruct r; reflexivity]|]. cbv beta.
    unfold vec at 1. eapply acts_bind; [apply (reads_int 3); [discriminate | exact L]|]. cbv beta zeta.
    pose proof (acts_limit _ _ _ (body_acts C r b F B)) as X. destruct r; exact X. }
  unfold parse_content. change (CT_HANDSHAKE =? CT_CCS) with false. change (CT_HANDSHAKE =? CT_ALERT) with false. change (CT_HANDSHAKE =? CT_HANDSHAKE) with true. cbv iota zeta.
  rewrite (A (stream_of (wire r items)) [] (rest_new _) I). destruct (meant C r b) as [h|e]; cbn [rbind closed_over]; [|reflexivity].
  unfold assert_eof, is_eof, adv, with_pos. cbn [s_pos s_data stream_of]. rewrite N.add_0_l, N.eqb_refl. reflexivity.
Qed.

(* --- the order does not matter ------------------------------------------------- *)
Lemma finish_shuffled r a b h : NoDup (map ext_type a) -> Permutation a b ->
  (kind r = 1 -> ~ In PRE_SHARED_KEY (map ext_type a)) -> finish r a = Ok h -> exists h', finish r b = Ok h' /\ reordered h h'.
Proof.
  intros Na P Psk. assert (Nb : NoDup (map ext_type b)) by (eapply Permutation_NoDup; [apply Permutation_map; exact P | exact Na]).
  pose proof (fun ty => get_shuffled a b ty Na P) as E.
  destruct r as [random sid suites | random sid suite | | ctx]; cbn [finish]; [unfold mk_client_hello | ..]; rewrite ?(ext_dict_nodup a Na), ?(ext_dict_nodup b Nb).
  - rewrite !PeanoNat.Nat.eqb_refl. cbn [negb andb]. rewrite <- !E.
    assert (Np : ext_get PRE_SHARED_KEY a = None).
    { destruct (ext_get PRE_SHARED_KEY a) as [e|] eqn:Ea; [|reflexivity]. apply get_some in Ea. destruct Ea as [I0 T]. exfalso.
      apply (Psk eq_refl). rewrite <- T. apply in_map. exact I0. }
    rewrite Np. cbn [opt_bool andb]. destruct (negb (blen random =? 32)); [discriminate|]. destruct (is_nil suites); [discriminate|].
    cbn [on_value_error rbind]. intro H. injection H; intros <-. eexists. split; [reflexivity | constructor; assumption].
  - intro H. injection H; intros <-. eexists. split; [reflexivity | constructor; assumption].
  - intro H. injection H; intros <-. eexists. split; [reflexivity | constructor; assumption].
  - rewrite <- E. destruct (opt_bool _); [|discriminate]. intro H. injection H; intros <-. eexists. split; [reflexivity | constructor; assumption].
Qed.
Lemma read_shuffled C pct r items items' k : fits r -> small items -> NoDup (map fst items) ->
  (kind r = 1 -> ~ In PRE_SHARED_KEY (map fst items)) -> Permutation items items' ->
  parse_content C pct CT_HANDSHAKE (wire r items) = Ok k ->
  exists h h', k = KHandshake h /\ parse_content C pct CT_HANDSHAKE (wire r items') = Ok (KHandshake h') /\ reordered h h'.
Proof.
  intros F S N Psk P H. destruct (small_perm _ _ S P) as (S' & _). rewrite (wire_meant C pct r _ F S) in H. rewrite (wire_meant C pct r _ F S').
  unfold meant in *. destruct (parse_list (parse_ext C (place r)) (blk items)) as [l|e] eqn:El; cbn [rbind closed_over] in H;
    [|destruct (is_buffer_error e); discriminate].
  destruct (block_shuffled C (place r) _ _ _ S P El) as (T & l' & El' & Pl). rewrite El'. cbn [rbind].
  destruct (finish r l) as [h|e] eqn:Ef; cbn [closed_over] in H; [|destruct (is_buffer_error e); discriminate]. injection H; intros <-.
  destruct (finish_shuffled r l l' h) as (h' & Ef' & R); [rewrite T; exact N | exact Pl | rewrite T; exact Psk | exact Ef |].
  rewrite Ef'. exists h, h'. split; [reflexivity|]. split; [reflexivity | exact R].
Qed.
Lemma refused_shuffled C pct r items items' : fits r -> small items -> NoDup (map fst items) ->
  (kind r = 1 -> ~ In PRE_SHARED_KEY (map fst items)) -> Permutation items items' ->
  ((exists x, parse_content C pct CT_HANDSHAKE (wire r items) = Err x) <-> exists x, parse_content C pct CT_HANDSHAKE (wire r items') = Err x).
Proof.
  intros F S N Psk P. destruct (small_perm _ _ S P) as (S' & _).
  assert (N' : NoDup (map fst items')) by (eapply Permutation_NoDup; [apply Permutation_map; exact P | exact N]).
  assert (Psk' : kind r = 1 -> ~ In PRE_SHARED_KEY (map fst items')).
  { intros K X. apply (Psk K). exact (Permutation_in _ (Permutation_sym (Permutation_map fst P)) X). }
  split; intros (x & E).
  - destruct (parse_content C pct CT_HANDSHAKE (wire r items')) as [k|y] eqn:E'; [|exists y; reflexivity].
    destruct (read_shuffled C pct r _ _ k F S' N' Psk' (Permutation_sym P) E') as (_ & h & _ & E2 & _). rewrite E in E2. discriminate E2.
  - destruct (parse_content C pct CT_HANDSHAKE (wire r items)) as [k|y] eqn:E'; [|exists y; reflexivity].
    destruct (read_shuffled C pct r _ _ k F S N Psk P E') as (_ & h & _ & E2 & _). rewrite E in E2. discriminate E2.
Qed.
Lemma same_shuffled C pct r items items' k : fits r -> small items -> NoDup (map fst items) ->
  (kind r = 1 -> ~ In PRE_SHARED_KEY (map fst items)) -> Permutation items items' ->
  parse_content C pct CT_HANDSHAKE (wire r items) = Ok k ->
  exists k', parse_content C pct CT_HANDSHAKE (wire r items') = Ok k' /\ forall c, process C k c = process C k' c.
Proof.
  intros F S N Psk P H. destruct (read_shuffled C pct r _ _ k F S N Psk P H) as (h & h' & -> & E & R).
  exists (KHandshake h'). split; [exact E|]. intro c. apply process_shuffled. exact R.
Qed.
