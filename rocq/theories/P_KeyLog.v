(* The key log. *)
From Verif Require Import Base P_Base Iana Crypto Config Serial Ext Msg Hkdf Cipher Kex Sig Ocsp Transcript Conn KeyLog
  S_Hist S_Utils S_Keys S_KeyLog P_Monad P_Frame P_Hist P_Nonce P_Keys.
Local Open Scope string_scope.
Local Open Scope list_scope.
Local Open Scope N_scope.

(* --- reading the lines back ------------------------------------------------- *)
Lemma words_sep a r : ~ In x20 a -> words (a ++ x20 :: r) = a :: words r.
Proof.
  induction a as [|c a IH]; intro N; [reflexivity|]. cbn [app words].
  assert (Byte.eqb c x20 = false) as -> by (apply not_true_iff_false; intro E; apply Byte.byte_dec_bl in E; apply N; left; exact E).
  rewrite IH; [reflexivity|]. intro I. apply N. right. exact I.
Qed.
Lemma words_one a : ~ In x20 a -> words a = [a].
Proof.
  induction a as [|c a IH]; intro N; [reflexivity|]. cbn [words].
  assert (Byte.eqb c x20 = false) as -> by (apply not_true_iff_false; intro E; apply Byte.byte_dec_bl in E; apply N; left; exact E).
  rewrite IH; [reflexivity|]. intro I. apply N. right. exact I.
Qed.
Lemma unhex_digit n : n < 16 -> unhex (hex_digit n) = Some n /\ hex_digit n <> x20.
Proof.
  intro L. assert (n = 0 \/ n = 1 \/ n = 2 \/ n = 3 \/ n = 4 \/ n = 5 \/ n = 6 \/ n = 7 \/ n = 8 \/ n = 9 \/ n = 10 \/ n = 11 \/ n = 12 \/ n = 13 \/ n = 14 \/ n = 15) by lia.
  repeat match goal with H : _ \/ _ |- _ => destruct H as [->|H] | H : n = _ |- _ => rewrite H end; vm_compute; split; (reflexivity || discriminate).
Qed.
Lemma byte_digits x : bN x / 16 < 16 /\ bN x mod 16 < 16 /\ Nb (bN x / 16 * 16 + bN x mod 16) = x.
Proof.
  pose proof (bN_lt x) as L. split; [apply N.div_lt_upper_bound; lia|]. split; [apply N.mod_lt; discriminate|].
  replace (bN x / 16 * 16 + bN x mod 16) with (bN x) by (pose proof (N.div_mod' (bN x) 16); lia). apply Nb_bN.
Qed.
Lemma hex_plain b : ~ In x20 (hex b).
Proof.
  induction b as [|x b IH]; [intros []|]. cbn [hex flat_map app]. destruct (byte_digits x) as (A & B & _).
  intros [E|[E|I]]; [exact (proj2 (unhex_digit _ A) E) | exact (proj2 (unhex_digit _ B) E) | exact (IH I)].
Qed.
Lemma unhex_hex b : unhex_word (hex b) = Some b.
Proof.
  induction b as [|x b IH]; [reflexivity|]. cbn [hex flat_map app unhex_word]. destruct (byte_digits x) as (A & B & E).
  rewrite (proj1 (unhex_digit _ A)), (proj1 (unhex_digit _ B)). fold (hex b). rewrite IH, E. reflexivity.
Qed.
Lemma read_key_line u e : ~ In x20 (ascii_bytes (fst e)) -> read_line (key_line u e) = Some (ascii_bytes (fst e), u, snd e).
Proof.
  intro N. unfold read_line, key_line. rewrite words_sep by exact N. rewrite words_sep by apply hex_plain.
  rewrite words_one by apply hex_plain. rewrite !unhex_hex. reflexivity.
Qed.
Definition plain_labels : list String.string :=
  ["CLIENT_HANDSHAKE_TRAFFIC_SECRET"; "SERVER_HANDSHAKE_TRAFFIC_SECRET"; "CLIENT_TRAFFIC_SECRET_0"; "SERVER_TRAFFIC_SECRET_0"; "EXPORTER_SECRET"].
Lemma plain_label l : In l plain_labels -> ~ In x20 (ascii_bytes l).
Proof.
  assert (forallb (fun l => negb (existsb (Byte.eqb x20) (ascii_bytes l))) plain_labels = true) as H by (vm_compute; reflexivity).
  rewrite forallb_forall in H. intros I X. specialize (H l I). apply negb_true_iff in H. apply not_true_iff_false in H. apply H.
  apply existsb_exists. exists x20. split; [exact X | reflexivity].
Qed.
Lemma key_lines_on c u : c_cunique c = Some u -> u <> [] -> key_lines true c = map (key_line u) (klog c).
Proof. unfold key_lines. intros -> N. destruct u; [congruence | reflexivity]. Qed.
Lemma filed_in c u l secret : c_cunique c = Some u -> u <> [] -> In l plain_labels -> In (l, secret) (klog c) ->
  filed (key_lines true c) l u secret.
Proof.
  intros E N P I. exists (key_line u (l, secret)). rewrite (key_lines_on c u E N). split; [apply in_map; exact I|].
  apply (read_key_line u (l, secret)). apply plain_label. exact P.
Qed.
Lemma traffic_plain sd l : In l (traffic_labels sd) -> In l plain_labels.
Proof. destruct sd; cbn; intuition. Qed.
Lemma holds_lines c u l : c_cunique c = Some u -> u <> [] -> klog c = l -> (forall e, In e l -> In (fst e) plain_labels) ->
  holds (key_lines true c) u l.
Proof.
  intros E N K P. rewrite (key_lines_on c u E N), K. unfold holds. clear K. induction l as [|e l IH]; constructor.
  - apply read_key_line. apply plain_label. apply P. left. reflexivity.
  - apply IH. intros e' I. apply P. right. exact I.
Qed.
Lemma five_plain C h shared th th_sf e : In e (five_lines C h shared th th_sf) -> In (fst e) plain_labels.
Proof. cbn [five_lines In]. intuition; subst; cbn; auto 8. Qed.

(* --- every key in use, and every key that sealed, is in the log --------------- *)
Section covered.
Variable C : crypto.
Definition cov (L : list (String.string * bytes)) (suite : N) (sd : side) (k : bytes) (iv : N) : Prop :=
  exists l secret ivb, In l (traffic_labels sd) /\ In (l, secret) L /\ usage_limit suite <> None /\
    derive_key_and_iv C suite secret = Ok (k, ivb) /\ iv = of_bytes ivb.
Definition dcov L suite sd (d : dir) : Prop :=
  forall q, d_seq d = Some q -> exists k iv, d_key d = Some k /\ d_iv d = Some iv /\ cov L suite sd k iv.
Definition scov L (s : sealing) : Prop :=
  exists sd iv n, cov L (se_suite s) sd (se_key s) iv /\ se_nonce s = be_bytes 12 (N.lxor iv n).
Definition xcov (x : cs) : Prop :=
  dcov (cs_klog x) (cs_suite x) (cs_side x) (cs_w x) /\ dcov (cs_klog x) (cs_suite x) (other_side (cs_side x)) (cs_r x).
Definition klogI (c : conn) : Prop :=
  (forall s, In s (c_log c) -> scov (klog c) s) /\ match c_cipher c with Some x => xcov x | None => True end.
Definition klogR (c c' : conn) : Prop := klogI c -> klogI c'.

Lemma cov_more L L' suite sd k iv : cov L suite sd k iv -> cov (L ++ L') suite sd k iv.
Proof. intros (l & s & b & A & B & D). exists l, s, b. split; [exact A|]. split; [apply in_or_app; left; exact B | exact D]. Qed.
Lemma dcov_more L L' suite sd d : dcov L suite sd d -> dcov (L ++ L') suite sd d.
Proof. intros H q E. destruct (H q E) as (k & iv & A & B & D). exists k, iv. split; [exact A|]. split; [exact B|]. apply cov_more. exact D. Qed.
Lemma scov_more L L' s : scov L s -> scov (L ++ L') s.
Proof. intros (sd & iv & n & A & B). exists sd, iv, n. split; [apply cov_more; exact A | exact B]. Qed.
Lemma klogI_same c c' : c_cipher c' = c_cipher c -> c_log c' = c_log c -> klogR c c'.
Proof. unfold klogR, klogI, klog. intros -> ->. auto. Qed.
Lemma klogI_cipher c x x' L' : c_cipher c = Some x -> klogI c -> cs_klog x' = cs_klog x ++ L' -> xcov x' -> klogI (cset_cipher (Some x') c).
Proof.
  intros Ex [A _] E X. split; [|exact X]. cbn [c_log cset_cipher]. unfold klog in *. cbn [c_cipher cset_cipher]. rewrite Ex in A.
  intros s Hs. rewrite E. apply scov_more. apply A. exact Hs.
Qed.

Lemma install_both_cov ck civ sk siv x r x' : install_both ck civ sk siv x = (r, x') ->
  cs_klog x' = cs_klog x /\ cs_suite x' = cs_suite x /\ cs_side x' = cs_side x /\
  match r with
  | Ok _ => usage_limit (cs_suite x) <> None /\
      d_key (cs_w x') = Some (match cs_side x with Client => ck | Server => sk end) /\
      d_iv (cs_w x') = Some (of_bytes (match cs_side x with Client => civ | Server => siv end)) /\
      d_key (cs_r x') = Some (match cs_side x with Client => sk | Server => ck end) /\
      d_iv (cs_r x') = Some (of_bytes (match cs_side x with Client => siv | Server => civ end))
  | Err _ => usage_limit (cs_suite x) = None /\ d_seq (cs_w x') = d_seq (cs_w x) /\ d_seq (cs_r x') = d_seq (cs_r x)
  end.
Proof.
  unfold install_both, install. destruct (usage_limit (cs_suite x)) eqn:U; destruct (cs_side x) eqn:Es; cbn; intro H;
    injection H; intros <- <-; cbn; rewrite ?Es; repeat split; discriminate.
Qed.
Lemma err_cov x x' : xcov x -> cs_klog x' = cs_klog x -> cs_suite x' = cs_suite x -> usage_limit (cs_suite x) = None ->
  d_seq (cs_w x') = d_seq (cs_w x) -> d_seq (cs_r x') = d_seq (cs_r x) -> xcov x'.
Proof.
  intros [A B] _ _ U Ew Er. split; intros q E; exfalso; [rewrite Ew in E; destruct (A q E) as (k & iv & _ & _ & l & s & b & _ & _ & N & _)
    | rewrite Er in E; destruct (B q E) as (k & iv & _ & _ & l & s & b & _ & _ & N & _)]; congruence.
Qed.
Lemma same_cov x x' : xcov x -> cs_klog x' = cs_klog x -> cs_suite x' = cs_suite x -> cs_side x' = cs_side x ->
  cs_w x' = cs_w x -> cs_r x' = cs_r x -> xcov x'.
Proof. unfold xcov. intros H -> -> -> -> ->. exact H. Qed.
Lemma extract_klog ikm x r x' : extract_and_advance C ikm x = (r, x') -> cs_klog x' = cs_klog x.
Proof. unfold extract_and_advance. destruct (derive_secret _ _ _ _ _); intro H; injection H; intros <- <-; reflexivity. Qed.
Lemma key_iv_split suite secret p : derive_key_and_iv C suite secret = Ok p -> derive_key_and_iv C suite secret = Ok (fst p, snd p).
Proof. destruct p. auto. Qed.

Lemma klog_skip : rel klogR (on_cipher (skip_early_secrets C)).
Proof.
  apply (rel_on_cipher _ (impl_preorder _)). intros x c Ex G. pose proof (proj2 G) as X. rewrite Ex in X.
  unfold skip_early_secrets. destruct (negb _); [apply (klogI_cipher c x _ []); rewrite ?app_nil_r; auto|].
  destruct (extract_and_advance C _ x) as [r x1] eqn:E. pose proof (extract_klog _ _ _ _ E) as K. apply extract_w in E.
  destruct E as (E1 & E2 & E3 & E4). destruct r; cbn [snd]; (apply (klogI_cipher c x _ []); [exact Ex | exact G | rewrite app_nil_r; exact K | eapply same_cov; eassumption]).
Qed.
Lemma klog_hsk a b : rel klogR (on_cipher (derive_handshake_secrets C a b)).
Proof.
  apply (rel_on_cipher _ (impl_preorder _)). intros x c Ex G. pose proof (proj2 G) as X. rewrite Ex in X.
  unfold derive_handshake_secrets. destruct (negb _); [apply (klogI_cipher c x _ []); rewrite ?app_nil_r; auto|].
  destruct (extract_and_advance C a x) as [[secret|e] x1] eqn:E; pose proof (extract_klog _ _ _ _ E) as K; apply extract_w in E;
    destruct E as (E1 & E2 & E3 & E4); [|cbn [snd]; apply (klogI_cipher c x _ []); [exact Ex | exact G | rewrite app_nil_r; exact K | eapply same_cov; eassumption]].
  destruct (derive_hs C (cs_suite x) secret b) as [s|e] eqn:D;
    [|cbn [snd]; apply (klogI_cipher c x _ []); [exact Ex | exact G | rewrite app_nil_r; exact K | eapply same_cov; eassumption]].
  destruct (install_both _ _ _ _ _) as [[u|e] x'] eqn:I; apply install_both_cov in I; cbn [cs_klog cs_suite cs_side cs_set_fin cs_w cs_r] in I;
    rewrite K, E1, E4 in I; destruct I as (I1 & I2 & I3 & I4); cbn [snd].
  - apply (klogI_cipher c x _ [("CLIENT_HANDSHAKE_TRAFFIC_SECRET", h_cts s); ("SERVER_HANDSHAKE_TRAFFIC_SECRET", h_sts s)]); [exact Ex | exact G | cbn [cs_klog cs_logs]; rewrite I1; reflexivity|].
    destruct I4 as (U & W1 & W2 & R1 & R2).
    assert (Kc : derive_key_and_iv C (cs_suite x) (h_cts s) = Ok (h_ckey s) /\ derive_key_and_iv C (cs_suite x) (h_sts s) = Ok (h_skey s)).
    { unfold derive_hs in D. repeat match type of D with rbind ?m _ = _ => let E := fresh in destruct m eqn:E; [|discriminate]; cbn [rbind] in D end.
      injection D; intros <-. cbn. split; assumption. }
    destruct Kc as [Kc Ks]. apply key_iv_split in Kc. apply key_iv_split in Ks.
    split; intros q _; cbn [cs_logs cs_w cs_r cs_klog cs_suite cs_side]; do 2 eexists; (split; [eassumption|]); (split; [eassumption|]); rewrite I1, I2, I3.
    + destruct (cs_side x); [exists "CLIENT_HANDSHAKE_TRAFFIC_SECRET", (h_cts s), (snd (h_ckey s)) | exists "SERVER_HANDSHAKE_TRAFFIC_SECRET", (h_sts s), (snd (h_skey s))];
        (split; [left; reflexivity|]); (split; [apply in_or_app; right; cbn; auto|]); auto.
    + destruct (cs_side x); cbn [other_side]; [exists "SERVER_HANDSHAKE_TRAFFIC_SECRET", (h_sts s), (snd (h_skey s)) | exists "CLIENT_HANDSHAKE_TRAFFIC_SECRET", (h_cts s), (snd (h_ckey s))];
        (split; [left; reflexivity|]); (split; [apply in_or_app; right; cbn; auto|]); auto.
  - destruct I4 as (U & Sw & Sr). rewrite E2 in Sw. rewrite E3 in Sr.
    apply (klogI_cipher c x _ []); [exact Ex | exact G | rewrite app_nil_r; exact I1 | eapply err_cov; eassumption].
Qed.
Lemma klog_msk a b : rel klogR (on_cipher (derive_master_secrets C a b)).
Proof.
  apply (rel_on_cipher _ (impl_preorder _)). intros x c Ex G. pose proof (proj2 G) as X. rewrite Ex in X.
  unfold derive_master_secrets. destruct (negb _); [apply (klogI_cipher c x _ []); rewrite ?app_nil_r; auto|].
  destruct (derive_ap C (cs_suite x) _ a b) as [s|e] eqn:D; [|cbn [snd]; apply (klogI_cipher c x _ []); rewrite ?app_nil_r; auto].
  destruct (install_both _ _ _ _ _) as [[u|e] x'] eqn:I; apply install_both_cov in I; destruct I as (I1 & I2 & I3 & I4); cbn [snd].
  - apply (klogI_cipher c x _ [("CLIENT_TRAFFIC_SECRET_0", a_cts s); ("SERVER_TRAFFIC_SECRET_0", a_sts s); ("EXPORTER_SECRET", a_exp s)]); [exact Ex | exact G | cbn [cs_klog cs_logs cs_set_fin]; rewrite I1; reflexivity|].
    destruct I4 as (U & W1 & W2 & R1 & R2).
    assert (Kc : derive_key_and_iv C (cs_suite x) (a_cts s) = Ok (a_ckey s) /\ derive_key_and_iv C (cs_suite x) (a_sts s) = Ok (a_skey s)).
    { unfold derive_ap in D. repeat match type of D with rbind ?m _ = _ => let E := fresh in destruct m eqn:E; [|discriminate]; cbn [rbind] in D end.
      injection D; intros <-. cbn. split; assumption. }
    destruct Kc as [Kc Ks]. apply key_iv_split in Kc. apply key_iv_split in Ks.
    split; intros q _; cbn [cs_logs cs_set_fin cs_w cs_r cs_klog cs_suite cs_side]; do 2 eexists; (split; [eassumption|]); (split; [eassumption|]); rewrite I1, I2, I3.
    + destruct (cs_side x); [exists "CLIENT_TRAFFIC_SECRET_0", (a_cts s), (snd (a_ckey s)) | exists "SERVER_TRAFFIC_SECRET_0", (a_sts s), (snd (a_skey s))];
        (split; [cbn; auto|]); (split; [apply in_or_app; right; cbn; auto|]); auto.
    + destruct (cs_side x); cbn [other_side]; [exists "SERVER_TRAFFIC_SECRET_0", (a_sts s), (snd (a_skey s)) | exists "CLIENT_TRAFFIC_SECRET_0", (a_cts s), (snd (a_ckey s))];
        (split; [cbn; auto|]); (split; [apply in_or_app; right; cbn; auto|]); auto.
  - destruct I4 as (U & Sw & Sr). apply (klogI_cipher c x _ []); [exact Ex | exact G | rewrite app_nil_r; exact I1 | eapply err_cov; eassumption].
Qed.

(* a nonce was taken *)
Lemma nonce_dcov L suite sd d r d' : next_nonce d = (r, d') -> dcov L suite sd d ->
  dcov L suite sd d' /\ (forall nonce, r = Ok nonce -> exists k iv n, d_key d = Some k /\ cov L suite sd k iv /\ nonce = be_bytes 12 (N.lxor iv n)).
Proof.
  intros H D. unfold next_nonce in H. destruct (d_iv d) as [iv|] eqn:Ei, (d_seq d) as [q|] eqn:Eq;
    try (injection H; intros <- <-; split; [exact D | discriminate]).
  destruct (D q Eq) as (k & iv' & A & B & K). rewrite Ei in B. injection B; intros <-. unfold seq_next in H.
  destruct (q_next q <? q_limit q).
  - injection H; intros Hd Hr. subst d'. split; [intros q' _; exists k, iv; auto|].
    intros nonce ->. exists k, iv, (q_next q). split; [exact A|]. split; [exact K|]. apply to_bytes_ok in Hr. apply Hr.
  - injection H; intros Hd Hr. subst r d'. split; [intros q' _; exists k, iv; auto | discriminate].
Qed.
Lemma klog_decrypt a b : rel klogR (on_cipher (decrypt C a b)).
Proof.
  apply (rel_on_cipher _ (impl_preorder _)). intros x c Ex G. pose proof (proj2 G) as X. rewrite Ex in X.
  assert (K : forall r, dcov (cs_klog x) (cs_suite x) (other_side (cs_side x)) r -> klogI (cset_cipher (Some (cs_set_r x r)) c)).
  { intros r Hr. apply (klogI_cipher c x _ []); [exact Ex | exact G | rewrite app_nil_r; reflexivity|]. split; [exact (proj1 X) | exact Hr]. }
  unfold decrypt. destruct (d_key (cs_r x)); [|apply (klogI_cipher c x _ []); rewrite ?app_nil_r; auto].
  destruct (next_nonce (cs_r x)) as [r d'] eqn:N. destruct (nonce_dcov _ _ _ _ _ _ N (proj2 X)) as [D _].
  destruct r; [destruct (cr_open _ _ _ _ _ _)|]; apply K; exact D.
Qed.
Lemma klog_new s sd : rel klogR (set_cipher s sd).
Proof.
  apply rel_modify. intros c [A _]. split; [|split; intros q E; discriminate].
  cbn [c_log cset_cipher]. unfold klog at 1. cbn [c_cipher cset_cipher cs_klog cs_logs cs_new app]. exact A.
Qed.
Lemma klog_encrypt_fragment ct mfl f : rel klogR (encrypt_fragment C ct mfl f).
Proof.
  unfold encrypt_fragment. intros c G. rewrite bind_get. cbv zeta.
  destruct (to_bytes 2 _) as [l|e]; [|exact G].
  change (bind (lift (Ok l)) ?k c) with (k l c). cbv beta zeta.
  set (data := inner_bytes ct mfl (tag_len c) f). set (aad := Nb CT_APPDATA :: x03 :: x03 :: l).
  destruct (on_cipher (encrypt C data aad) c) as [r0 c0] eqn:E0.
  match goal with |- context [bind ?m ?k c] =>
    assert (E1 : m c = (match r0 with Ok z => Ok z | Err e => Err (in_generator e) end, c0)) by
      (rewrite E0; destruct r0; reflexivity);
    rewrite (bind_eq _ _ m k c _ _ E1); clear E1 end.
  apply on_cipher_inv in E0. destruct E0 as [(_ & -> & ->) | (x & x1 & Ex & E & ->)]; [exact G|].
  assert (K : klogI (match r0 with Ok (b, s) => cset_log (s :: c_log c) (cset_cipher (Some x1) c)
                       | Err _ => cset_cipher (Some x1) c end)).
  { pose proof (proj2 G) as X. rewrite Ex in X.
    assert (Kw : forall w, dcov (cs_klog x) (cs_suite x) (cs_side x) w -> klogI (cset_cipher (Some (cs_set_w x w)) c)).
    { intros w Hw. apply (klogI_cipher c x _ []); [exact Ex | exact G | rewrite app_nil_r; reflexivity|]. split; [exact Hw | exact (proj2 X)]. }
    unfold encrypt in E. destruct (d_key (cs_w x)) as [k|] eqn:Ek.
    2:{ injection E; intros <- <-. apply (klogI_cipher c x _ []); rewrite ?app_nil_r; auto. }
    destruct (next_nonce (cs_w x)) as [r d'] eqn:N. destruct (nonce_dcov _ _ _ _ _ _ N (proj1 X)) as [D F].
    destruct r as [nonce|e]; injection E; intros <- <-; [|apply Kw; exact D].
    destruct (F nonce eq_refl) as (k' & iv & n & A1 & A2 & A3). rewrite Ek in A1. injection A1; intros <-.
    destruct (Kw d' D) as [P Q]. split; [|exact Q]. intros s [<-|Hs]; [|apply P; exact Hs].
    exists (cs_side x), iv, n. split; [exact A2 | exact A3]. }
  destruct r0 as [[b s]|e]; [|exact K]. rewrite bind_modify.
  match goal with |- context [if ?b then _ else _] => destruct b end; exact K.
Qed.
Ltac same_klog := intros; try match goal with |- klogR _ _ => intro end; eapply klogI_same; [| | eassumption]; reflexivity.
Lemma klog_send k : rel klogR (send_content C k).
Proof.
  pose proof (impl_preorder klogI) as P.
  assert (T : forall d sd ty, rel klogR (transcribe d sd ty)).
  { intros. unfold transcribe. reli P; [apply rel_on_tr | apply rel_modify]; same_klog. }
  assert (F : forall ct mfl l, rel klogR (send_fragments C ct mfl l)).
  { intros ct mfl. induction l as [|f l IH]; cbn [send_fragments]; reli P; [apply klog_encrypt_fragment | apply IH]. }
  unfold send_content. reli P; try apply T; try apply F; apply rel_modify; same_klog.
Qed.
Lemma klogR_stable : stable C klogR.
Proof.
  split; try exact (impl_preorder klogI); try (same_klog).
  - intros exts c. apply klogI_same; unfold client_neg_mfl; rewrite bind_get;
    (destruct (ext_get MAX_FRAGMENT_LENGTH exts) as [[]|]; try reflexivity;
      [destruct (mfl_octets code); [|reflexivity]; destruct (negb _); [reflexivity|]|];
      unfold upd_nc; rewrite bind_get; destruct (c_nc c); reflexivity).
  - intros exts c. apply klogI_same; unfold server_neg_mfl; rewrite bind_get;
    (destruct (ext_get MAX_FRAGMENT_LENGTH exts) as [[]|]; try reflexivity;
      [destruct (mfl_octets code); [|reflexivity]|];
      unfold upd_nc, bind, get; destruct (c_nc c); reflexivity).
  - intros. unfold transcribe. reli (impl_preorder klogI); [apply rel_on_tr | apply rel_modify]; same_klog.
  - intros. apply rel_on_tr; same_klog.
  - intros. apply rel_on_tr; same_klog.
  - apply klog_new.
  - apply klog_skip.
  - apply klog_hsk.
  - apply klog_msk.
  - apply klog_decrypt.
  - apply klog_send.
Qed.
Lemma klogI_run ops c : klogI c -> klogI (run C ops c).
Proof.
  revert ops c. apply keeps_run. intro o. apply of_rel.
  apply (stable_step C klogR o klogR_stable); same_klog.
Qed.
Lemma klogI_reachable g c : reachable C g c -> klogI c.
Proof.
  intros (c0 & ops & H & ->). apply klogI_run. apply created_cases in H.
  destruct H as [(_ & host & ocsp & unique & rng & t & -> & _) | (_ & ocsp & unique & rng & t & -> & _)]; (split; [intros s [] | exact I]).
Qed.
Lemma limited_suite suite : usage_limit suite <> None -> exists h klen, In (suite, (h, klen)) suite_table.
Proof.
  unfold usage_limit. intro H.
  destruct (suite =? TLS_AES_128_GCM_SHA256) eqn:E1. { apply N.eqb_eq in E1. rewrite E1. do 2 eexists. left. reflexivity. }
  destruct (suite =? TLS_AES_256_GCM_SHA384) eqn:E2. { apply N.eqb_eq in E2. rewrite E2. do 2 eexists. right; left. reflexivity. }
  destruct (suite =? TLS_CHACHA20_POLY1305_SHA256) eqn:E3; [|destruct (H eq_refl)]. apply N.eqb_eq in E3. rewrite E3. do 2 eexists. right; right; left. reflexivity.
Qed.
Lemma sealed_filed g c u s : hmac_sized C -> reachable C g c -> c_cunique c = Some u -> u <> [] -> In s (c_log c) ->
  opened_by C (key_lines true c) u s.
Proof.
  intros Hs R Eu Nu I. destruct (klogI_reachable g c R) as [A _].
  destruct (A s I) as (sd & iv & n & (l & secret & ivb & L1 & L2 & U & D & ->) & En).
  destruct (limited_suite _ U) as (h & klen & T). apply (key_iv_eq C _ h klen) in D; [|exact Hs | exact T]. destruct D as [Dk ->].
  exists sd, l, secret, h, klen, n. split; [exact L1|]. split; [|auto]. apply filed_in; try assumption. eapply traffic_plain; exact L1.
Qed.
Lemma in_use_filed g c u x : hmac_sized C -> reachable C g c -> c_cunique c = Some u -> u <> [] -> c_cipher c = Some x ->
  (d_seq (cs_w x) <> None -> keys_filed C (key_lines true c) u (cs_side x) (cs_suite x) (cs_w x)) /\
  (d_seq (cs_r x) <> None -> keys_filed C (key_lines true c) u (other_side (cs_side x)) (cs_suite x) (cs_r x)).
Proof.
  intros Hs R Eu Nu Ex. destruct (klogI_reachable g c R) as [_ X]. rewrite Ex in X.
  assert (K : forall sd d, dcov (cs_klog x) (cs_suite x) sd d -> d_seq d <> None -> keys_filed C (key_lines true c) u sd (cs_suite x) d).
  { intros sd d D N. destruct (d_seq d) as [q|] eqn:Eq; [|congruence]. destruct (D q Eq) as (k & iv & Ek & Ei & l & secret & ivb & L1 & L2 & U & Dk & ->).
    destruct (limited_suite _ U) as (h & klen & T). apply (key_iv_eq C _ h klen) in Dk; [|exact Hs | exact T]. destruct Dk as [-> ->].
    exists l, secret, h, klen. split; [exact L1|]. split; [|split; [exact T | split; assumption]].
    apply filed_in; try assumption; [eapply traffic_plain; exact L1|]. unfold klog. rewrite Ex. exact L2. }
  split; apply K; apply X.
Qed.
End covered.
