(* The handshake of a server. *)
From Verif Require Import Base P_Base Iana Crypto Config Serial Ext Msg Hkdf Cipher Kex Sig Ocsp Transcript Conn
  S_Hist S_Conn S_State S_Send S_Nonce S_Alert S_Utils S_Keys S_Auth S_Server
  P_Monad P_Frame P_Hist P_Send P_Wp P_State P_Speak P_Alert P_Keys P_Tr P_Count P_Auth P_Neg P_Flight.

Record sctx := mkS {
  y_n : nat; y_w0 : list hmsg; y_dn : bytes; y_d1 : bytes; y_suite : N; y_h : hashalg; y_group : N; y_sg : N;
  y_pub : bytes; y_shared : bytes; y_nc : nconfig; y_enc : list ext }.
Section server.
Variables (C : crypto) (g : config) (ocsp : bool) (rng : N -> bytes) (unique : bytes) (hl : list hashalg).
Hypothesis As : aead_sized C.
Hypothesis Hs : hmac_sized C.
Hypothesis Hh : hash_sized C.
Hypothesis Hg : g_side g = Server.
Hypothesis Hu : blen unique = 32.
Hypothesis Hn : unique <> retry_random.

Definition cfgeq (k : config) : Prop := k = g \/ exists s gr sg, k = restrict g s gr [sg].
Definition stat (c : conn) : Prop := c_ocsp c = ocsp /\ c_rng c = rng /\ c_sunique c = Some unique /\ cfgeq (c_config c).
Lemma cfg_side k : cfgeq k -> g_side k = Server.
Proof. intros [-> | (s & gr & sg & ->)]; exact Hg. Qed.
Lemma cfg_auth k : cfgeq k -> require_peer_auth k = require_peer_auth g.
Proof. intros [-> | (s & gr & sg & ->)]; reflexivity. Qed.
Lemma cfg_private k : cfgeq k -> g_private k = g_private g.
Proof. intros [-> | (s & gr & sg & ->)]; reflexivity. Qed.

Definition W k := y_w0 k ++ [(Server, SERVER_HELLO, y_d1 k)].
Definition T k ms := heard C (y_h k) (y_h k) true (W k ++ ms).
Definition H k ms := cr_hash C (y_h k) (T k ms).
Definition ctx_ok k : Prop :=
  map token_of (y_w0 k) = hello_word (y_n k) /\ (y_n k <= 1)%nat /\ suite_hash (y_suite k) = Some (y_h k) /\
  is_retry (Server, SERVER_HELLO, y_d1 k) = false /\
  hellos C g (y_w0 k) (y_dn k) (y_suite k) (y_group k) (y_sg k) /\
  shares C rng (y_dn k) (y_group k) (y_pub k) (y_shared k) /\
  settles C g (y_dn k) (y_nc k) (y_enc k) /\ n_suite (y_nc k) = Some (y_suite k) /\ n_group (y_nc k) = Some (y_group k) /\
  exists sid, ser_content C (KHandshake (HServerHello false unique sid (y_suite k)
    (ext_dict [ESupVersionsResp TLS_1_3; EKeyShareResp (y_group k) (y_pub k)]))) = Ok (y_d1 k).
Definition keyed k (c : conn) : Prop :=
  exists x, c_cipher c = Some x /\ hk C (y_suite k) Server (y_shared k) (H k []) x /\ usage_limit (y_suite k) <> None.
Definition mid k tail i m (c : conn) : Prop :=
  ctx_ok k /\ stat c /\ c_hs c = W k ++ tail /\ c_tr c = mkTr [(y_h k, T k tail)] i /\ keyed k c /\
  c_nc c = Some (y_nc k) /\ c_sig c = Some (y_sg k) /\ (exists f, c_state c = ServerWaitClientHello f) /\
  logn c <= 50000 * m.
(* what our own messages are *)
Definition flight k ee cd vd sd : Prop :=
  ser_content C (KHandshake (HEncExt (ext_dict (y_enc k)))) = Ok ee /\
  (exists l, presents g (y_nc k) l /\ ser_content C (KHandshake (HCert [] l)) = Ok cd) /\
  (exists key sig, g_private g = Some key /\
     cr_sign C (y_sg k) key (signed_content Server (H k [EE ee; Cert cd])) = Ok sig /\
     ser_content C (KHandshake (HCertVerify (y_sg k) sig)) = Ok vd) /\
  ser_content C (KHandshake (HFinished (cr_hmac C (y_h k)
     (finished_key C (y_h k) (hs_traffic C (y_h k) Server (y_shared k) (H k []))) (H k [EE ee; Cert cd; CV vd])))) = Ok sd.

Definition zombie (c : conn) : Prop :=
  (exists f, c_state c = ServerWaitClientHello f) /\ g_side (c_config c) = Server /\ t_i (c_tr c) = 3%nat /\
  exists n, (n <= 1)%nat /\ map token_of (c_hs c) = hello_word n ++ [TSH].
Definition waiting (first : bool) (c : conn) : Prop :=
  stat c /\ c_log c = [] /\
  if first
  then c_hs c = [] /\ c_tr c = mkTr (map (fun h => (h, [])) hl) 1 /\ c_nc c = None /\ c_cipher c = None /\ c_config c = g
  else exists d0 dr random suite h group sg n,
    suite_hash suite = Some h /\ c_hs c = [(Client, CLIENT_HELLO, d0); (Server, SERVER_HELLO, dr)] /\
    asks_again C dr suite /\
    picks C (g_suites g) (g_groups g) (g_sigalgs g) (g_chain g) d0 random suite group sg /\
    c_cunique c = Some random /\ c_nc c = Some n /\ n_suite n = Some suite /\
    c_cipher c = Some (cs_new 0 0 suite Server) /\ c_config c = restrict g suite group [sg] /\
    c_tr c = mkTr [(h, heard C h h true (c_hs c))] 1.
Definition fin_ok (P : Prop) (sfh : bytes) (c : conn) : Prop :=
  exists k ee cd vd sd junk x,
    ctx_ok k /\ stat c /\ require_peer_auth g = false /\ c_nc c = Some (y_nc k) /\ flight k ee cd vd sd /\
    c_hs c = W k ++ [EE ee; Cert cd; CV vd; SFin sd] ++ junk /\ sfh = H k [EE ee; Cert cd; CV vd; SFin sd] /\
    c_cipher c = Some x /\ hk C (y_suite k) Server (y_shared k) (H k []) x /\ usage_limit (y_suite k) <> None /\
    (P -> junk = [] /\ c_tr c = mkTr [(y_h k, T k [EE ee; Cert cd; CV vd; SFin sd])] 8).
Definition conn_ok (P : Prop) (c : conn) : Prop :=
  exists k ee cd vd sd fd j1 j2 x,
    ctx_ok k /\ stat c /\ require_peer_auth g = false /\ c_nc c = Some (y_nc k) /\ flight k ee cd vd sd /\
    c_hs c = W k ++ [EE ee; Cert cd; CV vd; SFin sd] ++ j1 ++ [CFin fd] ++ j2 /\
    finished_says C (y_h k) Client (y_shared k) (H k []) (H k [EE ee; Cert cd; CV vd; SFin sd]) fd /\
    c_cipher c = Some x /\
    application_keys C (y_suite k) Server (y_shared k) (H k []) (H k [EE ee; Cert cd; CV vd; SFin sd]) x /\
    usage_limit (y_suite k) <> None /\
    (P -> j1 = [] /\ j2 = [] /\ c_tr c = mkTr [(y_h k, T k [EE ee; Cert cd; CV vd; SFin sd; CFin fd])] 12).
Definition live (c : conn) : Prop :=
  match c_state c with
  | Closed _ _ | Failed => True
  | ServerStart => waiting true c
  | ServerWaitClientHello first => zombie c \/ waiting first c
  | ServerWaitFinished sfh => fin_ok (few c) sfh c
  | Connected => conn_ok (few c) c
  | _ => False
  end.
Definition late (c : conn) : Prop :=
  match c_state c with
  | ServerWaitFinished sfh => fin_ok False sfh c
  | Connected => conn_ok False c
  | _ => False
  end.
Definition soft (c : conn) : Prop :=
  done (c_state c) = true \/ zombie c \/ late c \/ (can_send (c_state c) = true /\ room c).
Definition Q (r : res unit) (c' : conn) : Prop := match r with Ok _ => live c' | Err _ => soft c' end.

Lemma live_done c : done (c_state c) = true -> live c.
Proof. unfold live. destruct (c_state c); try discriminate; intros; exact I. Qed.
Lemma plain_soft c : enc_on c = false -> can_send (c_state c) = true -> soft c.
Proof. intros E S. right; right; right. split; [exact S | apply room_plain; exact E]. Qed.
Lemma keyed_suite k c x : keyed k c -> ctx_ok k -> c_cipher c = Some x -> cs_suite x = y_suite k /\ usage_limit (cs_suite x) <> None.
Proof.
  intros (y & Ey & Hk & U) (_ & _ & Sh & _) Ex. rewrite Ex in Ey. injection Ey; intros <-. destruct (suite_hash_of _ _ Sh) as [_ [klen Is]].
  destruct (handshake_keys_full C _ _ _ _ _ _ _ Hs Is (hk_keys _ _ _ _ _ _ Hk)) as (_ & Csu & _). rewrite Csu. split; [reflexivity | exact U].
Qed.
Lemma mid_few k tail i m c : m <= 200 -> mid k tail i m c -> few c.
Proof. intros L (_ & _ & _ & _ & _ & _ & _ & _ & Lg). unfold few, logn in *. lia. Qed.
Lemma mid_room k tail i m c : m <= 200 -> ready c -> mid k tail i m c -> room c.
Proof.
  intros L [_ Ct] M. apply few_room; [exact Ct | eapply mid_few; eassumption|]. intros x Ex.
  destruct M as (K & _ & _ & _ & Ky & _). eapply keyed_suite; eassumption.
Qed.
Lemma mid_soft k tail i m c : m <= 200 -> ready c -> mid k tail i m c -> soft c.
Proof.
  intros L R M. right; right; right. split; [|eapply mid_room; eassumption].
  destruct M as (_ & _ & _ & _ & _ & _ & _ & (f & ->) & _). reflexivity.
Qed.
Lemma fin_weaken (P P' : Prop) s c : (P' -> P) -> fin_ok P s c -> fin_ok P' s c.
Proof. intros X (k & ee & cd & vd & sd & junk & x & A). exists k, ee, cd, vd, sd, junk, x. tauto. Qed.
Lemma conn_weaken (P P' : Prop) c : (P' -> P) -> conn_ok P c -> conn_ok P' c.
Proof. intros X (k & ee & cd & vd & sd & fd & j1 & j2 & x & A). exists k, ee, cd, vd, sd, fd, j1, j2, x. tauto. Qed.
Lemma waiting_plain f c : waiting f c -> enc_on c = false.
Proof.
  intros (_ & _ & A). unfold enc_on. destruct f.
  - destruct A as (_ & _ & _ & -> & _). reflexivity.
  - destruct A as (d0 & dr & random & suite & h & group & sg & n & _ & _ & _ & _ & _ & _ & _ & -> & _). reflexivity.
Qed.
Lemma live_soft c : live c -> soft c.
Proof.
  unfold live. destruct (c_state c) eqn:S; try (intros; left; rewrite S; reflexivity); try (intros []; fail).
  - intro A. apply plain_soft; [eapply waiting_plain; exact A | rewrite S; reflexivity].
  - intros [Z|A]; [right; left; exact Z|]. apply plain_soft; [eapply waiting_plain; exact A | rewrite S; reflexivity].
  - intro K. right; right; left. unfold late. rewrite S. eapply fin_weaken; [|exact K]. intros [].
  - intro K. right; right; left. unfold late. rewrite S. eapply conn_weaken; [|exact K]. intros [].
Qed.

(* keys move along with records *)
Definition moves (a b : option cs) : Prop := forall x, a = Some x -> exists y, b = Some y /\ same_keys x y.
Lemma read_moves a b : olift cs_read a b -> moves a b.
Proof. intros O x ->. destruct b as [y|]; [|destruct O]. exists y. split; [reflexivity | apply read_same; exact O]. Qed.
Lemma write_moves a b : olift cs_write a b -> moves a b.
Proof. intros O x ->. destruct b as [y|]; [|destruct O]. exists y. split; [reflexivity | apply write_same; exact O]. Qed.
Lemma fin_moves (P P' : Prop) s c oc : moves (c_cipher c) oc -> (P' -> P) -> fin_ok P s c -> fin_ok P' s (cset_cipher oc c).
Proof.
  intros O X (k & ee & cd & vd & sd & junk & x & A1 & A2 & A3 & A4 & A5 & A6 & A7 & A8 & A9 & A10 & A11).
  destruct (O x A8) as (y & -> & S).
  exists k, ee, cd, vd, sd, junk, y. repeat (split; [assumption|]). split; [reflexivity|].
  split; [eapply hk_same; eassumption|]. split; [exact A10 | tauto].
Qed.
Lemma conn_moves (P P' : Prop) c oc : moves (c_cipher c) oc -> (P' -> P) -> conn_ok P c -> conn_ok P' (cset_cipher oc c).
Proof.
  intros O X (k & ee & cd & vd & sd & fd & j1 & j2 & x & A1 & A2 & A3 & A4 & A5 & A6 & A7 & A8 & A9 & A10 & A11).
  destruct (O x A8) as (y & -> & S).
  exists k, ee, cd, vd, sd, fd, j1, j2, y. repeat (split; [assumption|]). split; [reflexivity|].
  split; [eapply app_same; eassumption|]. split; [exact A10 | tauto].
Qed.
Lemma live_cipher c oc : olift cs_read (c_cipher c) oc -> live c -> live (cset_cipher oc c).
Proof.
  intros O. unfold live. cbn [c_state cset_cipher]. change (few (cset_cipher oc c)) with (few c).
  assert (Wt : forall f, waiting f c -> waiting f (cset_cipher oc c)).
  { intros f (A & B & D). split; [exact A|]. split; [exact B|]. destruct f.
    - destruct D as (D1 & D2 & D3 & D4 & D5). rewrite D4 in O. destruct oc; [destruct O|]. repeat (split; [assumption || reflexivity|]). exact D5.
    - destruct D as (d0 & dr & random & suite & h & group & sg & n & D1 & D2 & D3 & D4 & D5 & D6 & D7 & D8 & D9).
      rewrite D8 in O. destruct oc as [y|]; [|destruct O]. apply new_read in O. subst y.
      exists d0, dr, random, suite, h, group, sg, n. repeat (split; [assumption || reflexivity|]). exact D9. }
  destruct (c_state c) eqn:S; try (intro L; exact L).
  - apply Wt.
  - intros [Z|A]; [left; exact Z | right; apply Wt; exact A].
  - apply fin_moves; [apply read_moves; exact O | auto].
  - apply conn_moves; [apply read_moves; exact O | auto].
Qed.
Lemma live_read c c' : reading c c' -> live c -> live c'.
Proof. intros [E O] L. rewrite E. apply (live_cipher (cset_inhs (c_inhs c') (cset_in (c_in c') c)) _ O). exact L. Qed.
Lemma app_suite suite sd shared th th_sf x h klen : In (suite, (h, klen)) suite_table ->
  application_keys C suite sd shared th th_sf x -> cs_suite x = suite.
Proof.
  intros I (x2 & th_cf & v & x3 & H1 & H2 & L). destruct (handshake_keys_full _ _ _ _ _ _ _ _ Hs I H1) as (_ & E1 & _ & E3 & _).
  unfold derive_master_secrets in H2. rewrite E3 in H2. change (negb (2 =? 2)) with false in H2. cbv iota zeta in H2.
  destruct (derive_ap _ _ _ _ _) as [s|e]; [|discriminate].
  destruct (install_both _ _ _ _ x2) as [[[]|e] x4] eqn:Ei; [|discriminate].
  apply install_both_keys in Ei. injection H2; intros <- _. destruct L as (-> & _). destruct Ei as (Ei & _). cbn. rewrite Ei. exact E1.
Qed.
Lemma late_limit c x : late c -> c_cipher c = Some x -> usage_limit (cs_suite x) <> None.
Proof.
  unfold late. intros L Ex. destruct (c_state c); try (destruct L; fail).
  - destruct L as (k & ee & cd & vd & sd & junk & z & K & _ & _ & _ & _ & _ & _ & Ez & Hk & U & _).
    eapply keyed_suite; [exists z; split; [exact Ez | split; [exact Hk | exact U]] | exact K | exact Ex].
  - destruct L as (k & ee & cd & vd & sd & fd & j1 & j2 & z & K & _ & _ & _ & _ & _ & _ & Ez & Ak & U & _). pose proof K as (_ & _ & Sh & _).
    destruct (suite_hash_of _ _ Sh) as [_ [klen Is]]. rewrite Ex in Ez. injection Ez; intros ->.
    rewrite (app_suite _ _ _ _ _ _ _ _ Is Ak). exact U.
Qed.
Lemma late_room c : ready c -> late c -> few c -> room c.
Proof. intros [_ Ct] L F. apply few_room; [exact Ct | exact F|]. intros y. apply late_limit. exact L. Qed.
Lemma fail_log code c : few (snd (fail C (Some code) c)) -> few c.
Proof.
  unfold fail, bind. pose proof (sending_content C (KAlert FATAL code) c) as Sd.
  destruct (send_content C (KAlert FATAL code) c) as [r c1]. cbn [snd] in Sd. intro F. eapply sending_few; [exact Sd|]. destruct r; exact F.
Qed.

Lemma soft_fail code c : code < 256 -> ready c -> soft c -> live (snd (fail C (Some code) c)).
Proof.
  intros L R [D|[Z|[K|[S Rm]]]].
  - apply live_done, done_fail. exact D.
  - destruct (fail_keeps C code c) as [F|(oc & lg & o & O & ->)]; [apply live_done; rewrite F; reflexivity|].
    unfold live. pose proof Z as ((f & S) & _). cbn [c_state after_send cset_out cset_log cset_hs cset_tr cset_cipher]. rewrite S. left. exact Z.
  - destruct (fail_keeps C code c) as [F|(oc & lg & o & O & E)]; [apply live_done; rewrite F; reflexivity|].
    destruct (done (c_state (snd (fail C (Some code) c)))) eqn:D; [apply live_done; exact D|].
    assert (Cs : can_send (c_state c) = true) by (unfold late in K; destruct (c_state c); try reflexivity; destruct K).
    assert (NF : ~ few (snd (fail C (Some code) c))).
    { intro F. apply fail_log in F. pose proof (alert_fails C code c As (proj1 R) (late_room _ R K F) Cs L) as X. rewrite X in D. discriminate D. }
    rewrite E in *. clear E D. set (c2 := cset_out o (cset_log lg (cset_hs (c_hs c) (cset_tr (c_tr c) c)))) in *.
    change (after_send c oc (c_tr c) (c_hs c) lg o) with (cset_cipher oc c2) in *.
    unfold late in K. unfold live. change (c_state (cset_cipher oc c2)) with (c_state c).
    destruct (c_state c); try (destruct K; fail).
    + apply (fin_moves False); [apply write_moves; exact O | exact NF | exact K].
    + apply (conn_moves False); [apply write_moves; exact O | exact NF | exact K].
  - apply live_done. rewrite (alert_fails C code c As (proj1 R) Rm S L). reflexivity.
Qed.
Lemma live_init c : ready c -> live c -> live (snd (initiate_connection C c)).
Proof.
  intros R L. unfold initiate_connection. rewrite bind_get.
  destruct (c_state c) eqn:S; try (unfold raise; exact L); try (unfold live in L; rewrite S in L; destruct L; fail).
  unfold live in *. rewrite S in L. unfold set_state, modify. cbn [snd c_state cset_state]. right. exact L.
Qed.
Lemma base_live k c : live c -> wp (base_process k) c Q.
Proof. intro L. apply wp_base; [exact L | exact I | intro; apply live_soft; exact L]. Qed.

(* --- sending under the handshake keys ------------------------------------- *)
Lemma wpb_mid k tail i m h ty (f : unit -> M unit) c : m <= 199 -> (3 <= i <= 7)%nat -> ready c -> mid k tail i m c -> msg_type h = Some ty ->
  (forall d j c', ready c' -> mid k (tail ++ [(Server, ty, d)]) j (m + 1) c' -> ser_content C (KHandshake h) = Ok d ->
     server_slot i ty = Some j -> wp (f tt) c' Q) ->
  wp (bind (send_content C (KHandshake h)) f) c Q.
Proof.
  intros Lm Hi R M Mt F. pose proof M as (K & St & Eh & Et & Ky & En & Eg & (fl & S) & Lg).
  apply wpb_send. intros r oc t hs lg o O Sd Sn.
  pose proof (st_send C _ (ready_stable C) (KHandshake h) c R) as R'. rewrite Sn in R'. cbn [snd] in R'.
  pose proof (send_log_hs C h c (proj1 R)) as L'. rewrite Sn in L'. cbn [snd] in L'.
  assert (Ky' : keyed k (after_send c oc t hs lg o)).
  { destruct Ky as (x & Ex & Hk & U). destruct (write_moves _ _ O x Ex) as (y & -> & Sy). exists y. split; [reflexivity|].
    split; [eapply hk_same; eassumption | exact U]. }
  assert (Sf : soft (after_send c oc t hs lg o)).
  { right; right; right. split; [cbn; rewrite S; reflexivity|]. apply few_room; [apply R' | unfold few; unfold logn in *; lia|].
    intros x Ex. eapply keyed_suite; [exact Ky' | exact K | exact Ex]. }
  destruct r as [[]|e]; [|exact Sf].
  destruct Sd as [(Bad & _)|(ty' & d & Mt' & Es & [[Tu ->]|(e & _ & _ & Bad)])]; [destruct (Bad eq_refl) | | discriminate Bad].
  rewrite Mt in Mt'. injection Mt'; intros <-. clear Mt'. rewrite (cfg_side (c_config c)) in * by apply St. rewrite Et in Tu.
  assert (Nt : ty <> SERVER_HELLO) by (eapply (server_slots_over d ty _ i (Ok tt) t); [lia | exact Tu | reflexivity]).
  apply server_slots in Tu; [|lia]. destruct Tu as (j & Sl & ->).
  apply (F d j); [exact R' | | exact Es | exact Sl].
  split; [exact K|]. split; [exact St|]. split; [cbn; rewrite Eh, <- app_assoc; reflexivity|]. split; [|].
  { cbn [c_tr after_send cset_out cset_log cset_hs cset_tr feed map fst snd]. do 3 f_equal. unfold T. rewrite app_assoc.
    rewrite (heard_plain C (y_h k) (y_h k) true (W k ++ tail)) by (apply is_retry_type; exact Nt). reflexivity. }
  split; [exact Ky'|]. split; [exact En|]. split; [exact Eg|]. split; [exists fl; exact S | lia].
Qed.
Lemma mid_digest k tail i m c x : mid k tail i m c -> tr_digest C (c_tr c) = x -> x = Ok (H k tail).
Proof. intros (_ & _ & _ & E & _) <-. rewrite E. reflexivity. Qed.

Definition crs_of (crs : list hmsg) : Prop := require_peer_auth g = false -> crs = [].
Definition finish_flight : M unit :=
  server_send_certificate C ;;
  do h <- digest C;
  do f <- ask_cipher (fun x => sign_finish C h x);
  send_content C (KHandshake (HFinished f)) ;;
  do h <- digest C;
  do c <- get;
  if require_peer_auth (c_config c) then raise XType else set_state (ServerWaitFinished h).
Lemma list_presents c n l : c_nc c = Some n -> cfgeq (c_config c) -> server_certificate_list C c = Ok l -> presents g n l.
Proof.
  intros En Cf. assert (Eg : g_public (c_config c) = g_public g /\ g_chain (c_config c) = g_chain g).
  { destruct Cf as [->|(s & gr & sg & ->)]; split; reflexivity. }
  destruct Eg as [E1 E2]. unfold server_certificate_list. rewrite En, E1, E2. unfold presents.
  assert (R : n_sct n = Some CT_RAW_PUBLIC_KEY \/
     n_sct n <> Some CT_RAW_PUBLIC_KEY /\ match n_sct n with Some t => t =? CT_RAW_PUBLIC_KEY | None => false end = false).
  { destruct (n_sct n) as [t|]; [|right; split; [discriminate | reflexivity]]. destruct (t =? CT_RAW_PUBLIC_KEY) eqn:E.
    - apply N.eqb_eq in E. subst t. left. reflexivity.
    - right. split; [|reflexivity]. intro X. assert (t = CT_RAW_PUBLIC_KEY) as -> by congruence. rewrite N.eqb_refl in E. discriminate. }
  destruct R as [R|[R R']].
  - rewrite R, N.eqb_refl. destruct (g_public g) as [key|]; [|discriminate]. intro E. injection E; intros <-. left. split; [reflexivity|]. eauto.
  - rewrite R'. destruct (g_chain g) as [chain|]; [|discriminate]. cbv zeta. destruct (staple C c n chain) as [x|e] eqn:Es; [|discriminate]. cbn [rbind].
    intro E. assert (l = add_to_leaf x (map (fun cert => mkEntry CT_X509 cert []) chain)) as -> by congruence. clear E.
    right. split; [exact R|]. exists chain. split; [reflexivity|].
    assert (Ex : x = [] \/ exists der, x = [EOcspStatus der]).
    { revert Es. unfold staple. destruct (n_want_ocsp n) as [[]|]; try (intro E; left; congruence).
      destruct (c_ocsp c); try (intro E; left; congruence). destruct chain as [|a [|b r]]; try (intro E; left; congruence).
      destruct (cr_ocsp_url C a) as [u|]; [|discriminate]. cbn [rbind]. destruct (cr_make_ocsp_req C a b) as [q|]; [|discriminate]. cbn [rbind].
      destruct (cr_ocsp_fetch C u q) as [der|]; [|discriminate]. cbn [rbind]. destruct (validate_ocsp C b q der).
      - intro E. right. exists der. congruence.
      - destruct (is_value_error _); [intro E; left; congruence | discriminate]. }
    assert (Fm : forall m : list bytes, Forall (fun e => en_type e = CT_X509 /\ (en_exts e = [] \/ exists der, en_exts e = [EOcspStatus der])) (map (fun cert => mkEntry CT_X509 cert []) m)).
    { intro m. apply Forall_map, Forall_forall. cbn. auto. }
    assert (Mm : forall m : list bytes, map en_data (map (fun cert => mkEntry CT_X509 cert []) m) = m).
    { intro m. rewrite map_map. apply map_id. }
    destruct chain as [|a r]; cbn [map add_to_leaf]; [split; [reflexivity | constructor]|]. cbn [en_data en_type en_exts app].
    rewrite Mm. split; [reflexivity|]. constructor; [|apply Fm]. cbn. auto.
Qed.
Lemma wp_flight k ee crs i c : (i = 4 \/ i = 5)%nat -> crs_of crs -> ready c -> mid k (EE ee :: crs) i 2 c ->
  ser_content C (KHandshake (HEncExt (ext_dict (y_enc k)))) = Ok ee -> wp finish_flight c Q.
Proof.
  intros Hi Cr R M Se. unfold finish_flight, server_send_certificate.
  assert (Sf : soft c) by (eapply mid_soft; [|exact R | exact M]; lia).
  wstep. wstep. wstep. wstep; [|exact Sf].
  match goal with E : server_certificate_list _ _ = Ok ?x |- _ => rename x into l; rename E into El end.
  assert (Pl : presents g (y_nc k) l).
  { pose proof M as (_ & (_ & _ & _ & Cf) & _ & _ & _ & En & _). eapply list_presents; eassumption. }
  clear El.
  wstep. eapply (wpb_mid k _ i 2); [lia | lia | exact R | exact M | reflexivity|].
  intros cd j c1 R1 M1 Sc Sl. assert (j = 6%nat) by (destruct Hi as [-> | ->]; cbn in Sl; injection Sl; auto). subst j. clear Sl.
  assert (Sf1 : soft c1) by (eapply mid_soft; [|exact R1 | exact M1]; lia).
  wstep. wstep; [|exact Sf1]. match goal with E : tr_digest _ _ = Ok ?z |- _ => apply (mid_digest _ _ _ _ _ _ M1) in E; injection E; intros -> end.
  wstep. wstep. wstep. pose proof M1 as (_ & St1 & _ & _ & _ & _ & Eg1 & _ & _).
  wstep; [|exact Sf1]. match goal with E : sig_of _ = Ok ?z |- _ => unfold sig_of in E; rewrite Eg1 in E; injection E; intros <- end.
  rewrite (cfg_private (c_config c1)) by apply St1.
  wstep. destruct (g_private g) as [key|] eqn:Ek; [|wstep; exact Sf1]. wstep.
  wstep. wstep; [|exact Sf1]. match goal with E : cr_sign _ _ _ _ = Ok ?z |- _ => rename z into sig; rename E into Sg end.
  eapply (wpb_mid k _ 6 3); [lia | lia | exact R1 | exact M1 | reflexivity|].
  intros vd j c2 R2 M2 Sv Sl. cbn in Sl. injection Sl; intros <-. clear Sl. clear R1 M1 Sf1 St1 Eg1.
  assert (Sf2 : soft c2) by (eapply mid_soft; [|exact R2 | exact M2]; lia).
  pose proof M2 as (Kok & St2 & _ & _ & (x & Ex & Hk & U) & _). pose proof Kok as (_ & _ & Sh & _). destruct (suite_hash_of _ _ Sh) as [Hof [klen Is]].
  destruct (handshake_keys_full C _ _ _ _ _ _ _ Hs Is (hk_keys _ _ _ _ _ _ Hk)) as ((_ & _ & Cfin & Sfin) & Csu & Csd & Cst & _).
  wstep; [|exact Sf2]. match goal with E : tr_digest _ _ = Ok ?z |- _ => apply (mid_digest _ _ _ _ _ _ M2) in E; injection E; intros -> end.
  wstep; [exact Sf2 | | exact Sf2].
  match goal with E : c_cipher c2 = Some ?y |- _ => rewrite Ex in E; injection E; intros <- end.
  match goal with E : sign_finish _ _ _ = Ok ?u |- _ => unfold sign_finish in E; rewrite Csd, Sfin, Csu, Hof in E; cbn [fin_key rbind] in E; injection E; intros <- end.
  eapply (wpb_mid k _ 7 4); [lia | lia | exact R2 | exact M2 | reflexivity|].
  intros sd j c3 R3 M3 Sd Sl. cbn in Sl. injection Sl; intros <-. clear Sl.
  assert (Sf3 : soft c3) by (eapply mid_soft; [|exact R3 | exact M3]; lia).
  wstep; [|exact Sf3]. match goal with E : tr_digest _ _ = Ok ?z |- _ => apply (mid_digest _ _ _ _ _ _ M3) in E; injection E; intros -> end.
  wstep. pose proof M3 as (_ & St3 & Eh3 & Et3 & (y & Ey & Hky & _) & En3 & _). rewrite (cfg_auth (c_config c3)) by apply St3.
  destruct (require_peer_auth g) eqn:Ra; [wstep; exact Sf3|]. rewrite (Cr Ra) in *. cbn [app] in *.
  wrun. cbn [Q]. unfold live. cbn [c_state cset_state].
  exists k, ee, cd, vd, sd, [], y. split; [exact Kok|]. split; [exact St3|]. split; [exact Ra|]. split; [exact En3|].
  split.
  { split; [exact Se|]. split; [eauto|]. split; [|exact Sd]. exists key, sig. split; [exact Ek|]. split; [|exact Sv].
    unfold signed_content. unfold certificate_verify_server in Sg. rewrite <- !app_assoc in Sg. exact Sg. }
  split; [rewrite app_nil_r; exact Eh3|]. split; [reflexivity|]. split; [exact Ey|]. split; [exact Hky|]. split; [exact U|].
  intros _. split; [reflexivity | exact Et3].
Qed.

(* --- a ClientHello --------------------------------------------------------- *)
Definition hailed (first : bool) d random sid suites exts suite h w0 (c : conn) : Prop :=
  stat c /\ c_log c = [] /\ c_state c = ServerWaitClientHello first /\ says C None d (HClientHello random sid suites exts) /\
  suite_hash suite = Some h /\ c_hs c = w0 /\ c_tr c = mkTr [(h, heard C h h true w0)] 2 /\
  c_cipher c = Some (cs_new 0 0 suite Server) /\ c_cunique c = Some random /\ (exists n, c_nc c = Some n /\ n_suite n = Some suite) /\
  prefers (fun x => In x suites) (g_suites (c_config c)) suite /\
  if first then w0 = [(Client, CLIENT_HELLO, d)] /\ c_config c = g
  else exists d0 dr group sg, w0 = [(Client, CLIENT_HELLO, d0); (Server, SERVER_HELLO, dr); (Client, CLIENT_HELLO, d)] /\
    asks_again C dr suite /\
    picks C (g_suites g) (g_groups g) (g_sigalgs g) (g_chain g) d0 random suite group sg /\ c_config c = restrict g suite group [sg].
Lemma hailed_plain first d random sid suites exts suite h w0 c : hailed first d random sid suites exts suite h w0 c -> enc_on c = false.
Proof. intros (_ & _ & _ & _ & _ & _ & _ & E & _). unfold enc_on. rewrite E. reflexivity. Qed.
Lemma tr_hrr d l : tr_update d Server SERVER_HELLO (mkTr l 0) = (Ok tt, mkTr (feed d l) 1).
Proof. reflexivity. Qed.
(* a retry *)
Lemma wp_retry first d random sid suites exts suite h w0 c0 c n n' clear enc :
  hailed first d random sid suites exts suite h w0 c0 -> ready c -> negR c0 c -> c_nc c0 = Some n ->
  neg_ok C exts c0 c n n' (clear, enc, None) -> wp (server_send_hrr C first sid clear) c Q.
Proof.
  intros Hl R [Ec _] En0 (versions & groups & algs & cert & rest & group & sg & Nk).
  pose proof (hailed_plain _ _ _ _ _ _ _ _ _ _ Hl) as Ex.
  destruct Hl as (St & Lg & S & Sy & Sh & Eh & Et & Ek & Eu & (n1 & En & Ns) & Pf & Fc).
  destruct Nk as (K1 & K2 & K3 & K4 & K5 & K6 & K7 & K8 & K9 & K10 & K11 & _).
  rewrite En0 in En. injection En; intros <-. clear En. rewrite Ns in K4.
  assert (Cs : can_send (c_state c) = true) by (rewrite Ec; cbn; rewrite S; reflexivity).
  assert (Ex' : enc_on c = false) by (rewrite Ec; exact Ex).
  unfold server_send_hrr. destruct first; cbn [negb]; [|wstep; apply plain_soft; assumption].
  destruct Fc as [-> Eg].
  assert (Ec' : c_cipher c = Some (cs_new 0 0 suite Server)) by (rewrite Ec; exact Ek).
  assert (Et' : c_tr c = mkTr [(h, heard C h h true [(Client, CLIENT_HELLO, d)])] 2) by (rewrite Ec; exact Et).
  assert (Eg' : c_config c = g) by (rewrite Ec; exact Eg).
  assert (Eh' : c_hs c = [(Client, CLIENT_HELLO, d)]) by (rewrite Ec; exact Eh).
  assert (Lg' : c_log c = []) by (rewrite Ec; exact Lg).
  assert (Eu' : c_cunique c = Some random) by (rewrite Ec; exact Eu).
  assert (St' : stat c) by (rewrite Ec; exact St).
  wstep. wstep. set (c1 := cset_state _ c). assert (R1 : ready c1) by (exact (st_state C _ (ready_stable C) c _ R)).
  unfold suite_of. change (c_cipher c1) with (c_cipher c). rewrite Ec'. wstep; [|discriminate].
  match goal with E : Ok _ = Ok ?a |- _ => injection E; intros <- end. cbn [cs_suite cs_new].
  unfold sig_of. change (c_sig c1) with (c_sig c). rewrite K2. wstep; [|discriminate].
  match goal with E : Ok _ = Ok ?a |- _ => injection E; intros <- end.
  change (c_nc c1) with (c_nc c). rewrite K1. wstep. rewrite K3. wstep. wstep. change (c_config c1) with (c_config c).
  pose proof (st_config C _ (ready_stable C) c1 suite group [sg] R1) as R2. change (c_config c1) with (c_config c) in R2.
  rewrite Eg' in *. set (c2 := cset_config _ c1) in *.
  wstep; [|match goal with E : tr_digest _ ?t = Err _ |- _ => change t with (c_tr c) in E; rewrite Et' in E; discriminate E end].
  match goal with E : tr_digest _ _ = Ok ?x |- _ => change (c_tr c2) with (c_tr c) in E; rewrite Et' in E; injection E; intros <- end.
  set (th := cr_hash C h _). rewrite Hg.
  pose proof (st_dance C _ (ready_stable C) Server th c2 R2) as R3.
  wstep; [|match goal with E : tr_dance _ _ ?t = Err _ |- _ => change t with (c_tr c) in E; rewrite Et' in E; discriminate E end].
  match goal with E : tr_dance _ _ ?t = Ok ?u |- _ => change t with (c_tr c) in E; rewrite Et' in E; cbn [tr_dance t_hashes] in E; injection E; intros <- end.
  unfold tr_method, on_tr in R3. change (c_tr c2) with (c_tr c) in R3. rewrite Et' in R3. cbn [tr_dance t_hashes snd] in R3.
  set (c3 := cset_tr _ c2) in *.
  assert (Ex3 : enc_on c3 = false) by exact Ex'. assert (Cs3 : can_send (c_state c3) = true) by reflexivity.
  apply wpb_send. intros r oc t hs lg o O Sd Sn.
  change (c_cipher c3) with (c_cipher c) in O. rewrite Ec' in O. destruct oc as [y|]; [|destruct O]. apply new_write in O. subst y.
  pose proof (send_log_plain C _ c3 Ex3 : c_log (snd (send_content C (KHandshake (HServerHello true hrr_random sid suite (ext_dict clear))) c3)) = _) as L4.
  rewrite Sn in L4. cbn [snd] in L4. change (c_log c3) with (c_log c) in L4. rewrite Lg' in L4.
  destruct r as [[]|e]; [|apply plain_soft; reflexivity].
  destruct Sd as [(Bad & _)|(ty & dr & Mt & Es & [[Tu ->]|(e & _ & _ & Bad)])]; [destruct (Bad eq_refl) | | discriminate Bad].
  injection Mt; intros <-. clear Mt. change (g_side (c_config c3)) with (g_side g) in *. rewrite Hg in *.
  change (c_tr c3) with (mkTr [(h, message_hash h th)] 0) in Tu. rewrite tr_hrr in Tu. injection Tu; intros <-. clear Tu.
  change (c_hs c3) with (c_hs c) in *. rewrite Eh' in *. cbn [app] in *.
  assert (Rt : is_retry (Server, SERVER_HELLO, dr) = true) by (rewrite (ser_sh_random _ _ _ _ _ _ _ (eq_refl : blen hrr_random = 32) Es); reflexivity).
  set (c4 := after_send _ _ _ _ _ _) in *. assert (Ex4 : enc_on c4 = false) by reflexivity.
  apply wp_unret. apply wpb_send. intros r oc t hs lg' o' O Sd' Sn'. destruct oc as [y|]; [|destruct O]. apply new_write in O. subst y.
  cbn [said] in Sd'. destruct Sd' as [-> ->].
  pose proof (send_log_plain C KCcs c4 Ex4) as L5. rewrite Sn', L4 in L5. cbn [snd] in L5.
  destruct r as [[]|e]; [|apply plain_soft; reflexivity].
  wstep. cbn [Q]. unfold live. change (c_state (after_send c4 _ _ _ _ _)) with (ServerWaitClientHello false). right.
  destruct St' as (S1 & S2 & S3 & S4). unfold waiting; split; [|split; [exact L5|]].
  { unfold stat; split; [exact S1|]. split; [exact S2|]. split; [exact S3|]. right. exists suite, group, sg. reflexivity. }
  exists d, dr, random, suite, h, group, sg, n'. split; [exact Sh|]. split; [reflexivity|]. split; [split; [exact Rt | exists sid, (ext_dict clear); exact Es]|].
  split. { exists sid, suites, exts, versions, groups, algs, cert, rest. rewrite Eg in *. repeat (split; [assumption|]). assumption. }
  split; [exact Eu'|]. split; [exact K1|]. split; [congruence|]. split; [reflexivity|]. split; [reflexivity|].
  change (c_tr (after_send c4 _ _ _ _ _)) with (c_tr c4). unfold heard. cbn [fold_left c_hs after_send cset_out cset_log cset_hs cset_tr c4 c_tr].
  unfold heard_step. rewrite Rt. rewrite (is_retry_type (Client, CLIENT_HELLO, d)) by discriminate. reflexivity.
Qed.
Lemma prefers_one (P : N -> Prop) a x : prefers P [a] x -> x = a.
Proof. intro K. apply prefers_in in K. destruct K as [<-|[]]. reflexivity. Qed.
Lemma write_none e x y : cs_w x = dir_none e -> cs_write x y -> y = x.
Proof.
  intros N [E (A & B & D & F)]. rewrite E. destruct x as [a1 a2 a3 a4 a5 a6 w r]. cbn in *. subst w. unfold cs_set_w. cbn in *. f_equal.
  destruct (cs_w y) as [k iv q e']. cbn in *. destruct q; [destruct F|]. subst. reflexivity.
Qed.
Lemma skip_plain x x1 : skip_early_secrets C x = (Ok tt, x1) -> cs_w x1 = cs_w x.
Proof.
  unfold skip_early_secrets. destruct (negb _); [discriminate|]. unfold extract_and_advance. destruct (derive_secret _ _ _ _ _); [|discriminate].
  intro E. injection E; intros <-. reflexivity.
Qed.
Lemma tr_server_hello d l : tr_update d Server SERVER_HELLO (mkTr l 2) = (Ok tt, mkTr (feed d l) 3).
Proof. reflexivity. Qed.
Lemma hello_flight first sid clear enc shared c : 
  wp (server_send_hello C first sid clear enc shared ;;
      do c <- get;
      (if require_peer_auth (c_config c)
       then send_content C (KHandshake (HCertReq [] [ESigAlgs (g_sigalgs (c_config c))]))
       else ret tt) ;; finish_flight) c Q ->
  wp (server_send_hello C first sid clear enc shared ;;
      do c <- get;
      (if require_peer_auth (c_config c)
       then send_content C (KHandshake (HCertReq [] [ESigAlgs (g_sigalgs (c_config c))]))
       else ret tt) ;;
      server_send_certificate C ;;
      do h <- digest C;
      do f <- ask_cipher (fun x => sign_finish C h x);
      send_content C (KHandshake (HFinished f)) ;;
      do h <- digest C;
      do c <- get;
      if require_peer_auth (c_config c) then raise XType else set_state (ServerWaitFinished h)) c Q.
Proof. exact (fun K => K). Qed.
Lemma wp_hello first d random sid suites exts suite h w0 c0 c n n' clear enc shared :
  hailed first d random sid suites exts suite h w0 c0 -> ready c -> negR c0 c -> c_nc c0 = Some n ->
  neg_ok C exts c0 c n n' (clear, enc, Some shared) ->
  wp (server_send_hello C first sid clear enc shared ;;
      do c <- get;
      (if require_peer_auth (c_config c)
       then send_content C (KHandshake (HCertReq [] [ESigAlgs (g_sigalgs (c_config c))]))
       else ret tt) ;; finish_flight) c Q.
Proof.
  intros Hl R [Ec _] En0 (versions & groups & algs & cert & rest & group & sg & Nk).
  pose proof (hailed_plain _ _ _ _ _ _ _ _ _ _ Hl) as Ex.
  destruct Hl as (St & Lg & S & Sy & Sh & Eh & Et & Ek & Eu & (n1 & En & Ns) & Pf & Fc).
  destruct Nk as (K1 & K2 & K3 & K4 & K5 & K6 & K7 & K8 & K9 & K10 & K11 & l & peer & j & pub & e1 & e2 & e3 & e4 & e5 & Q1 & Q2 & Q3 & Q4 & Q5 & Q6 & Q7 & Q8 & Q9 & Q10 & Q11 & Q12).
  rewrite En0 in En. injection En; intros <-. clear En. rewrite Ns in K4.
  assert (S' : c_state c = ServerWaitClientHello first) by (rewrite Ec; exact S).
  assert (Ec' : c_cipher c = Some (cs_new 0 0 suite Server)) by (rewrite Ec; exact Ek).
  assert (Et' : c_tr c = mkTr [(h, heard C h h true w0)] 2) by (rewrite Ec; exact Et).
  assert (Eh' : c_hs c = w0) by (rewrite Ec; exact Eh).
  assert (Lg' : c_log c = []) by (rewrite Ec; exact Lg).
  assert (St' : stat c) by (rewrite Ec; exact St).
  assert (Gc : c_config c = c_config c0) by (rewrite Ec; reflexivity).
  clear Ec. pose proof St' as (T1 & T2 & T3 & T4). pose proof (cfg_side _ T4) as Gs.
  assert (Rg : c_rng c0 = rng) by apply St.
  (* what was said *)
  assert (Hel : exists m, map token_of w0 = hello_word m /\ (m <= 1)%nat /\ hellos C g w0 d suite group sg).
  { destruct first.
    - destruct Fc as [-> Eg]. exists 0%nat. split; [reflexivity|]. split; [lia|]. left. exists random. split; [reflexivity|].
      exists sid, suites, exts, versions, groups, algs, cert, rest. rewrite Eg in *. repeat (split; [assumption|]). assumption.
    - destruct Fc as (d0 & dr & group0 & sg0 & -> & Rt & Pk & Eg). rewrite Eg in *. cbn [g_suites g_groups g_sigalgs g_chain restrict] in *.
      assert (group = group0) by (eapply prefers_one; exact K8). assert (sg = sg0) by (eapply prefers_one; exact K11). subst group0 sg0.
      exists 1%nat. split; [cbn [map token_of m_side m_type fst snd]; change (SERVER_HELLO =? 2) with true; cbv iota; rewrite (proj1 Rt); reflexivity|].
      split; [lia|]. right. exists d0, dr, random. split; [reflexivity|]. split; [exact Rt|]. split; [exact Pk|].
      exists sid, suites, exts, versions, groups, algs, cert, rest. repeat (split; [assumption|]). assumption. }
  destruct Hel as (m & Wt & Lm & Hel).
  assert (Ss : settles C g d n' enc).
  { exists random, sid, suites, exts, e1, e2, e3, e4, e5. split; [exact Sy|]. split; [exact Q6|].
    assert (Cf : cfgeq (c_config c0)) by (rewrite <- Gc; exact T4).
    destruct Cf as [E|(s & gr & sg' & E)]; rewrite E in *; split; try assumption; split; try assumption; split; try assumption; split; try assumption; split; assumption. }
  unfold server_send_hello. wstep.
  pose proof (st_skip C _ (ready_stable C) c R) as R1.
  apply wpb_on_cipher; [intro E; congruence|]. intros x r x1 E1 H1.
  rewrite Ec' in E1. injection E1; intros <-. clear E1.
  destruct (skip_total C (cs_new 0 0 suite Server) Hs Hh eq_refl) as (x1' & H1' & Cst & Csu).
  rewrite H1' in H1. injection H1; intros <- <-. clear H1.
  unfold on_cipher in R1. rewrite bind_get, Ec', H1' in R1. cbn [snd bind modify] in R1.
  set (c1 := cset_cipher _ c) in *.
  assert (Wn : cs_w x1' = dir_none 0) by (rewrite (skip_plain _ _ H1'); reflexivity).
  assert (Ex1 : enc_on c1 = false) by (unfold enc_on, must_encrypt; cbn; rewrite Wn; reflexivity).
  assert (Cs1 : can_send (c_state c1) = true) by (change (c_state c1) with (c_state c); rewrite S'; reflexivity).
  assert (Sf1 : soft c1) by (apply plain_soft; assumption).
  wstep. wstep. wstep. unfold suite_of. change (c_cipher c1) with (Some x1'). wstep; [|discriminate].
  match goal with E : Ok _ = Ok ?a |- _ => injection E; intros <- end. rewrite Csu. change (cs_suite (cs_new 0 0 suite Server)) with suite.
  change (c_sunique c1) with (c_sunique c). rewrite T3. wstep. wstep.
  wstep. apply wpb_send. intros r oc t hs lg o O Sd Sn.
  change (c_cipher c1) with (Some x1') in O. destruct oc as [x2|]; [|destruct O]. apply (write_none _ _ _ Wn) in O. subst x2.
  pose proof (st_send C _ (ready_stable C) (KHandshake (HServerHello false unique sid suite (ext_dict clear))) c1 R1) as R2. rewrite Sn in R2. cbn [snd] in R2.
  pose proof (send_log_plain C (KHandshake (HServerHello false unique sid suite (ext_dict clear))) c1 Ex1) as L2.
  rewrite Sn in L2. cbn [snd] in L2. change (c_log c1) with (c_log c) in L2. rewrite Lg' in L2.
  destruct r as [[]|e]; [|apply plain_soft; [exact Ex1 | exact Cs1]].
  destruct Sd as [(Bad & _)|(ty & d1 & Mt & Es & [[Tu ->]|(e & _ & _ & Bad)])]; [destruct (Bad eq_refl) | | discriminate Bad].
  injection Mt; intros <-. clear Mt. change (g_side (c_config c1)) with (g_side (c_config c)) in *. rewrite Gs in *.
  change (c_tr c1) with (c_tr c) in Tu. rewrite Et', tr_server_hello in Tu. injection Tu; intros <-. clear Tu.
  change (c_hs c1) with (c_hs c) in *. rewrite Eh' in *.
  assert (Rt : is_retry (Server, SERVER_HELLO, d1) = false).
  { rewrite (ser_sh_random _ _ _ _ _ _ _ Hu Es). destruct (beqb unique retry_random) eqn:E; [|reflexivity]. apply beqb_eq in E. destruct (Hn E). }
  set (c2 := after_send c1 _ _ _ _ _) in *.
  (* the change cipher spec *)
  wstep. eapply wpb_mono with (P := fun r c3 => ready c3 /\ c_log c3 = [] /\ c_hs c3 = c_hs c2 /\ c_tr c3 = c_tr c2 /\ c_cipher c3 = Some x1' /\
     c_nc c3 = Some n' /\ c_sig c3 = Some sg /\ c_state c3 = ServerWaitClientHello first /\ stat c3).
  { assert (Fin : forall c3, ready c3 -> c_log c3 = [] -> c_hs c3 = c_hs c2 -> c_tr c3 = c_tr c2 -> c_cipher c3 = Some x1' -> c_nc c3 = c_nc c ->
       c_sig c3 = c_sig c -> c_state c3 = c_state c -> (stat c -> stat c3) -> ready c3 /\ c_log c3 = [] /\ c_hs c3 = c_hs c2 /\ c_tr c3 = c_tr c2 /\ c_cipher c3 = Some x1' /\
       c_nc c3 = Some n' /\ c_sig c3 = Some sg /\ c_state c3 = ServerWaitClientHello first /\ stat c3).
    { intros c3 F1 F2 F3 F4 F5 F6 F7 F8 F9. rewrite F6, F7, F8. auto 12. }
    destruct first; [|wstep; apply Fin; try reflexivity; try assumption; exact (fun z => z)].
    apply wp_unret. apply wpb_send. intros r oc t hs lg' o' O Sd' Sn'. change (c_cipher c2) with (Some x1') in O.
    destruct oc as [x2|]; [|destruct O]. apply (write_none _ _ _ Wn) in O. subst x2. cbn [said] in Sd'. destruct Sd' as [-> ->].
    pose proof (st_send C _ (ready_stable C) KCcs c2 R2) as R3. rewrite Sn' in R3. cbn [snd] in R3.
    pose proof (send_log_plain C KCcs c2 Ex1) as L3. rewrite Sn', L2 in L3. cbn [snd] in L3.
    destruct r as [[]|e]; [wstep|]; (apply Fin; try reflexivity; try assumption; exact (fun z => z)). }
  intros r c3 (R3 & L3 & Eh3 & Et3 & Ek3 & En3 & Eg3 & S3 & St3).
  change (c_hs c2) with (w0 ++ [(Server, SERVER_HELLO, d1)]) in Eh3.
  change (c_tr c2) with (mkTr [(h, heard C h h true w0 ++ d1)] 3) in Et3.
  assert (Cs3 : can_send (c_state c3) = true) by (rewrite S3; reflexivity).
  assert (Ex3 : enc_on c3 = false) by (unfold enc_on, must_encrypt; rewrite Ek3, Wn; reflexivity).
  destruct r as [[]|e]; [|apply plain_soft; assumption].
  clear dependent c2. clear dependent c1.
  wstep. wstep; [|match goal with E : tr_digest _ _ = Err _ |- _ => rewrite Et3 in E; discriminate E end].
  match goal with E : tr_digest _ _ = Ok ?x |- _ => rewrite Et3 in E; injection E; intros <- end.
  set (th := cr_hash C h _).
  assert (Lth : blen th <= 255) by (unfold th; rewrite Hh; destruct h; discriminate).
  wstep.
  pose proof (st_hsk C _ (ready_stable C) shared th c3 R3) as R4.
  apply wpb_on_cipher; [congruence|]. intros x r x2 E1 Hd. rewrite Ek3 in E1. injection E1; intros <-. clear E1.
  unfold on_cipher in R4. rewrite bind_get, Ek3, Hd in R4.
  destruct (derive_hs_step C shared th x1' Hs Hh Lth Cst) as (r' & x2' & H2 & Er & Cst2 & Csu2). rewrite Hd in H2. injection H2; intros <- <-. clear H2.
  rewrite Csu in *. change (cs_suite (cs_new 0 0 suite Server)) with suite in *.
  destruct (usage_limit suite) eqn:Eul; subst r.
  2:{ right; left. unfold zombie. cbn [c_state c_tr c_hs c_config cset_cipher]. rewrite Et3, Eh3. split; [exists first; exact S3|].
      split; [apply cfg_side, St3|]. split; [reflexivity|]. exists m. split; [exact Lm|]. rewrite map_app.
      change (map token_of w0 ++ [token_of (Server, SERVER_HELLO, d1)] = hello_word m ++ [TSH]). rewrite Wt. f_equal. f_equal.
      unfold token_of, m_side, m_type; cbn [fst snd]. change (SERVER_HELLO =? 2) with true. cbv iota. rewrite Rt. reflexivity. }
  cbn [snd bind modify] in R4. set (c4 := cset_cipher _ c3) in *.
  pose (k := mkS m w0 d d1 suite h group sg pub shared n' enc).
  assert (Eth : T k [] = heard C h h true w0 ++ d1).
  { unfold T, W. cbn [y_h y_w0 y_d1 k]. rewrite app_nil_r. rewrite heard_plain by exact Rt. reflexivity. }
  assert (M : mid k [] 3 0 c4).
  { split.
    { split; [exact Wt|]. split; [exact Lm|]. split; [exact Sh|]. split; [exact Rt|]. split; [exact Hel|].
      split. { exists random, sid, suites, exts, l, peer, j. rewrite Rg in *. repeat (split; [assumption|]). assumption. }
      split; [exact Ss|]. split; [exact K4|]. split; [exact K3|]. exists sid. rewrite Q1 in Es. exact Es. }
    split; [exact St3|]. split; [cbn [c_hs c4 cset_cipher]; rewrite Eh3, app_nil_r; reflexivity|].
    split; [change (c_tr c4) with (c_tr c3); rewrite Et3, Eth; reflexivity|].
    split. { exists x2. split; [reflexivity|]. split; [|cbn [y_suite k]; rewrite Eul; discriminate].
      exists x1', x2. split; [exact H1'|]. split; [|repeat split]. unfold H. rewrite Eth. exact Hd. }
    split; [exact En3|]. split; [exact Eg3|]. split; [exists first; exact S3|]. unfold logn. change (c_log c4) with (c_log c3). rewrite L3. reflexivity. }
  assert (Ye : y_enc k = enc) by reflexivity. rewrite <- Ye. clearbody k c4.
  eapply (wpb_mid k [] 3 0); [lia | lia | exact R4 | exact M | reflexivity|].
  intros ee jj c5 R5 M5 Se Sl. cbn in Sl. injection Sl; intros <-. clear Sl.
  wstep. rewrite (cfg_auth (c_config c5)) by apply M5.
  destruct (require_peer_auth g) eqn:Ra.
  - eapply (wpb_mid k _ 4 1); [lia | lia | exact R5 | exact M5 | reflexivity|].
    intros cr jj c6 R6 M6 _ Sl. cbn in Sl. injection Sl; intros <-. clear Sl.
    eapply (wp_flight k ee [CR cr] 5); [auto | unfold crs_of; congruence | exact R6 | exact M6 | exact Se].
  - wstep. eapply (wp_flight k ee [] 4); [auto | intro; reflexivity | exact R5 | | exact Se].
    destruct M5 as (A1 & A2 & A3 & A4 & A5 & A6 & A7 & A8 & A9). repeat (split; [assumption|]). lia.
Qed.
Lemma tr_wait_ch d ty l t : tr_update d Client ty (mkTr l 1) = (Ok tt, t) -> ty = CLIENT_HELLO /\ t = mkTr (feed d l) 2.
Proof.
  unfold tr_update. cbn -[N.eqb feed]. destruct (ty =? CLIENT_HELLO) eqn:E; cbn -[N.eqb feed]; intro K; [|discriminate].
  apply N.eqb_eq in E. injection K; intros <-. split; [exact E | reflexivity].
Qed.
Lemma tr_dead d ty l r t : tr_update d Client ty (mkTr l 3) = (r, t) -> t = mkTr l 3 /\ exists e, r = Err e.
Proof. cbn. intro K. injection K; intros <- <-. split; [reflexivity | eauto]. Qed.
Lemma hand_wait_ch first ct d c : ready c -> c_state c = ServerWaitClientHello first -> live c -> wp (handle_content C ct d) c Q.
Proof.
  intros R S L. pose proof L as L0. unfold live in L. rewrite S in L. destruct L as [Z|Wt].
  - pose proof Z as (_ & Gs & Hi & At). destruct (c_tr c) as [hs i] eqn:Et. cbn [t_i] in Hi. subst i.
    apply wp_handle.
    + intro. right; left. exact Z.
    + intros k Pk Nk. unfold process. wstep. rewrite S. unfold process_wait_ch. destruct k; try (apply base_live; exact L0). destruct (Nk _ eq_refl).
    + intros h ty t Pk Mt Tu. rewrite Gs, Et in Tu. apply tr_dead in Tu as (_ & e & E). discriminate E.
    + intros h ty e t Pk Mt Tu. rewrite Gs, Et in Tu. apply tr_dead in Tu as (-> & _). rewrite <- Et.
      right; left. destruct c; exact Z.
  - pose proof (waiting_plain _ _ Wt) as Ex.
    assert (Cs : can_send (c_state c) = true) by (rewrite S; reflexivity).
    assert (Gs : g_side (c_config c) = Server) by (apply cfg_side, Wt).
    assert (Ti : exists l, c_tr c = mkTr l 1).
    { destruct Wt as (_ & _ & B). destruct first.
      - destruct B as (_ & B & _). eauto.
      - destruct B as (d0 & dr & random & suite & h & group & sg & n & _ & _ & _ & _ & _ & _ & _ & _ & _ & B). eauto. }
    destruct Ti as [l Et].
    apply wp_handle.
    + intro. apply plain_soft; assumption.
    + intros k Pk Nk. unfold process. wstep. rewrite S. unfold process_wait_ch. destruct k; try (apply base_live; exact L0). destruct (Nk _ eq_refl).
    + intros h ty t Pk Mt Tu. rewrite Gs in *. cbn [other_side] in *. rewrite Et in Tu. apply tr_wait_ch in Tu as [-> ->].
      pose proof (st_transcribe C _ (ready_stable C) d Client CLIENT_HELLO c R) as R1.
      unfold transcribe, on_tr, bind in R1. rewrite Et, tr_client_hello in R1. cbn [snd modify] in R1.
      set (c1 := cset_hs _ _) in *. change (cset_hs (c_hs (cset_tr (mkTr (feed d l) 2) c) ++ [(Client, CLIENT_HELLO, d)]) (cset_tr (mkTr (feed d l) 2) c)) with c1 in R1.
      assert (Sf : soft c1) by (apply plain_soft; assumption).
      unfold process. wstep. change (c_state c1) with (c_state c). rewrite S. unfold process_wait_ch.
      destruct h as [random sid suites exts| | | | | | |]; try (apply wp_base_hs; intro; exact Sf).
      assert (Sy : says C None d (HClientHello random sid suites exts)) by (eapply parse_content_pct; [exact Pk | reflexivity]).
      wstep.
      eapply wpb_mono with (P := fun r c2 => match r with Ok _ => ready c2 /\ exists suite h w0, hailed first d random sid suites exts suite h w0 c2
                                                       | Err _ => soft c2 end).
      { destruct first; cbn [negb].
        - apply wp_intro. intros r c2 Er.
          pose proof (stable_server_setup C _ (ready_stable C) random suites c1 R1) as R2. rewrite Er in R2. cbn [snd] in R2.
          assert (K : match r with Ok _ => exists suite h w0, hailed true d random sid suites exts suite h w0 c2 | Err _ => soft c2 end).
          2:{ destruct r; [split; assumption | exact K]. }
          clear R2. revert r c2 Er. apply wp_eq. unfold server_setup.
          destruct Wt as (St & Lg & Eh & Etr & En & Ek & Eg). rewrite Etr in Et. injection Et; intros <-. clear Et.
          wstep. wstep. change (c_config (cset_nc _ c1)) with (c_config c). rewrite Eg.
          destruct (first_common _ _) as [suite|] eqn:Fc; [|wstep; apply plain_soft; [exact Ex | exact Cs]]. apply first_common_prefers in Fc.
          wstep; [apply plain_soft; [exact Ex | exact Cs]|]. match goal with E : c_nc (cset_nc _ _) = Some ?a |- _ => injection E; intros <- end.
          wstep. destruct (suite_hash suite) as [h|] eqn:Esh; [|wstep; apply plain_soft; [exact Ex | exact Cs]].
          wstep. wstep. wstep; [|apply plain_soft; [reflexivity | exact Cs]].
          match goal with E : tr_post_init _ _ = Ok ?t |- _ => unfold tr_post_init in E; cbn [c_tr cset_cipher cset_nc cset_cunique] in E;
            change (c_tr c1) with (mkTr (feed d (map (fun h => (h, [] : bytes)) hl)) 2) in E; cbn [t_hashes t_i] in E; rewrite feed_map in E;
            destruct (find _ _) as [p|] eqn:Ef; [|discriminate]; apply find_map_hash in Ef; subst p; injection E; intros <- end.
          wstep. exists suite, h, [(Client, CLIENT_HELLO, d)].
          split; [exact St|]. split; [exact Lg|]. split; [exact S|]. split; [exact Sy|]. split; [exact Esh|].
          split; [change (c_hs c ++ [(Client, CLIENT_HELLO, d)] = [(Client, CLIENT_HELLO, d)]); rewrite Eh; reflexivity|].
          split; [cbn [c_tr cset_tr app]; do 3 f_equal; unfold heard; cbn [fold_left]; unfold heard_step; rewrite is_retry_type by discriminate; reflexivity|].
          split. { cbn [c_cipher cset_tr cset_cipher]. unfold epoch_w, epoch_r, klog. cbn [c_cipher cset_cunique cset_nc]. change (c_cipher c1) with (c_cipher c). rewrite Ek. reflexivity. }
          split; [reflexivity|]. split; [eexists; split; reflexivity|].
          split; [change (prefers (fun x => In x suites) (g_suites (c_config c)) suite); rewrite Eg; exact Fc|].
          split; [reflexivity | exact Eg].
        - destruct Wt as (St & Lg & d0 & dr & random0 & suite & h & group & sg & n & Sh & Eh & Rt & Pk0 & Eu & En & Ns & Ek & Eg & Etr).
          rewrite Etr in Et. injection Et; intros <-. clear Et.
          change (c_config c1) with (c_config c). rewrite Eg. cbn [g_suites restrict].
          destruct (first_common _ _) as [s|] eqn:Fc; [|wstep; exact Sf]. apply first_common_prefers in Fc. pose proof (prefers_one _ _ _ Fc) as E. subst s.
          change (c_cunique c1) with (c_cunique c). rewrite Eu. destruct (beqb random random0) eqn:Eb; [|wstep; exact Sf]. apply beqb_eq in Eb. subst random0.
          wstep. split; [exact R1|]. exists suite, h, (c_hs c ++ [(Client, CLIENT_HELLO, d)]).
          split; [exact St|]. split; [exact Lg|]. split; [exact S|]. split; [exact Sy|]. split; [exact Sh|]. split; [reflexivity|].
          split. { change (c_tr c1) with (mkTr (feed d [(h, heard C h h true (c_hs c))]) 2). cbn [feed map fst snd]. do 3 f_equal.
            rewrite heard_plain by (apply is_retry_type; discriminate). reflexivity. }
          split; [exact Ek|]. split; [exact Eu|]. split; [exists n; split; [exact En | exact Ns]|].
          split; [change (c_config c1) with (c_config c); rewrite Eg; exact Fc|].
          exists d0, dr, group, sg. split; [rewrite Eh; reflexivity|]. split; [exact Rt|]. split; [exact Pk0 | exact Eg]. }
      intros r c2 K. destruct r as [[]|e]; [|exact K]. destruct K as (R2 & suite & h & w0 & Hl).
      pose proof Hl as (_ & _ & S2 & _ & _ & _ & _ & _ & _ & (n & En & _) & _).
      eapply wpb_mono with (P := fun r c3 => ready c3 /\ negR c2 c3 /\ match r with Ok out => exists n', neg_ok C exts c2 c3 n n' out | Err _ => True end).
      { apply wp_intro. intros r c3 Er. split.
        - pose proof (stable_server_negociate C _ (ready_stable C) exts c2 R2) as R3. rewrite Er in R3. exact R3.
        - revert r c3 Er. apply wp_eq. apply neg_server. exact En. }
      intros r c3 (R3 & Ng & K).
      destruct r as [[[clear enc] shared]|e].
      2:{ apply plain_soft; destruct Ng as [E _]; rewrite E; [exact (hailed_plain _ _ _ _ _ _ _ _ _ _ Hl) | cbn; rewrite S2; reflexivity]. }
      destruct K as [n' Nk]. cbv beta iota. destruct shared as [shared|].
      * apply hello_flight. eapply wp_hello; eassumption.
      * eapply wp_retry; eassumption.
    + intros. apply plain_soft; [exact Ex | exact Cs].
Qed.

(* --- the client's Finished -------------------------------------------------- *)
Lemma late_soft c : late c -> soft c.
Proof. intro K. right; right; left. exact K. Qed.
Lemma few_hs (c : conn) t hs : few (cset_hs hs (cset_tr t c)) = few c.
Proof. reflexivity. Qed.
Lemma hand_wait_finished sfh ct d c : c_state c = ServerWaitFinished sfh -> live c -> wp (handle_content C ct d) c Q.
Proof.
  intros S L. pose proof L as L0. unfold live in L. rewrite S in L.
  pose proof L as (k & ee & cd & vd & sd & junk & x & K1 & K2 & K3 & K4 & K5 & K6 & K7 & K8 & K9 & K10 & K11).
  assert (Gs : g_side (c_config c) = Server) by (apply cfg_side, K2).
  assert (Lt : forall t j, late (cset_hs (c_hs c ++ j) (cset_tr t c))).
  { intros t j. unfold late. cbn [c_state cset_hs cset_tr]. rewrite S. exists k, ee, cd, vd, sd, (junk ++ j), x.
    repeat (split; [assumption|]). split; [cbn [c_hs cset_hs]; rewrite K6, <- !app_assoc; reflexivity|].
    repeat (split; [assumption|]). intros []. }
  assert (Lt0 : forall t, late (cset_tr t c)).
  { intro t. specialize (Lt t []). rewrite app_nil_r in Lt. destruct c; exact Lt. }
  apply wp_handle.
  - intro. apply late_soft. destruct c; exact (Lt0 _).
  - intros kk _ Nk. eapply wp_ext with (m' := base_process kk); [|apply base_live; exact L0].
    unfold process. rewrite bind_get, S. destruct kk; try reflexivity. destruct (Nk _ eq_refl).
  - intros h ty t Pk Mt Tu. rewrite Gs in *. cbn [other_side] in *.
    pose proof (late_soft _ (Lt t [(Client, ty, d)])) as SF. set (c1 := cset_hs _ _) in *.
    unfold process. wstep. change (c_state c1) with (c_state c). rewrite S. unfold process_server_finished.
    destruct h as [| | | | | | v |]; try (apply wp_base_hs; intro; exact SF).
    injection Mt; intros <-.
    pose proof K1 as (_ & _ & Sh & _). destruct (suite_hash_of _ _ Sh) as [Hof [klen Is]].
    destruct (handshake_keys_full C _ _ _ _ _ _ _ Hs Is (hk_keys _ _ _ _ _ _ K9)) as ((_ & _ & Cfin & Sfin) & Csu & Csd & Cst & _).
    wstep; [exact SF | | exact SF].
    match goal with E : c_cipher c1 = Some ?y |- _ => change (c_cipher c1) with (c_cipher c) in E; rewrite K8 in E; injection E; intros <- end.
    match goal with E : on_value_error _ _ = Ok ?u |- _ => apply on_value_ok in E; unfold verify_finish in E; rewrite Csd, Cfin, Csu, Hof in E; cbn [fin_key rbind] in E;
      match type of E with context [beqb ?a ?b] => destruct (beqb a b) eqn:Ev; [|discriminate E] end end.
    apply beqb_eq in Ev.
    wstep; [|exact SF].
    match goal with E : tr_digest _ _ = Ok ?z |- _ => rename z into cf; assert (Lcf : blen cf <= 255)
      by (unfold tr_digest in E; destruct (t_hashes _) as [|[hh dd] ?]; [discriminate E|]; injection E; intros <-; rewrite Hh; apply digest_size_small) end.
    apply wpb_on_cipher; [intro E; change (c_cipher c1) with (c_cipher c) in E; congruence|]. intros y' r y2 E1 E2.
    change (c_cipher c1) with (c_cipher c) in E1. rewrite K8 in E1. injection E1; intros <-. clear E1.
    destruct (derive_ap_step C sfh cf x Hs) as (vv & y2' & E3).
    { rewrite K7. unfold H. rewrite Hh. apply digest_size_small. } { exact Lcf. } { exact Cst. } { rewrite Csu. exact K10. }
    rewrite E2 in E3. injection E3; intros -> ->. clear E3.
    wrun. cbn [Q]. unfold live. cbn [c_state cset_state].
    exists k, ee, cd, vd, sd, d, junk, [], y2'.
    split; [exact K1|]. split; [exact K2|]. split; [exact K3|]. split; [exact K4|]. split; [exact K5|].
    split. { change (c_hs c ++ [(Client, FINISHED, d)] = W k ++ [EE ee; Cert cd; CV vd; SFin sd] ++ junk ++ [CFin d] ++ []). rewrite K6, <- !app_assoc. reflexivity. }
    split; [exists (match peer_cert_type c with Some q => q | None => None end)|].
    { unfold says. eapply parse_content_pct; [|reflexivity]. rewrite <- K7, Ev. exact Pk. }
    split; [reflexivity|]. split.
    { exists x, cf, vv, y2'. split; [exact (hk_keys _ _ _ _ _ _ K9)|]. split; [rewrite <- K7; exact E2 | repeat split]. }
    split; [exact K10|]. intro F. destruct (K11 F) as [-> Et]. split; [reflexivity|]. split; [reflexivity|].
    change (t = mkTr [(y_h k, T k [EE ee; Cert cd; CV vd; SFin sd; CFin d])] 12).
    rewrite Et, tr_client_finished in Tu. injection Tu; intros <-. cbn [feed map fst snd]. do 3 f_equal. unfold T.
    change [EE ee; Cert cd; CV vd; SFin sd; CFin d] with ([EE ee; Cert cd; CV vd; SFin sd] ++ [CFin d]). rewrite app_assoc.
    rewrite (heard_plain _ _ _ _ (W k ++ [EE ee; Cert cd; CV vd; SFin sd])) by (apply is_retry_type; discriminate). reflexivity.
  - intros h ty e t Pk Mt Tu. apply late_soft. apply Lt0.
Qed.
Lemma hand_connected ct d c : c_state c = Connected -> live c -> wp (handle_content C ct d) c Q.
Proof.
  intros S L. pose proof L as L0. unfold live in L. rewrite S in L.
  pose proof L as (k & ee & cd & vd & sd & fd & j1 & j2 & x & K1 & K2 & K3 & K4 & K5 & K6 & K7 & K8 & K9 & K10 & K11).
  assert (Gs : g_side (c_config c) = Server) by (apply cfg_side, K2).
  assert (Lt : forall t j, late (cset_hs (c_hs c ++ j) (cset_tr t c))).
  { intros t j. unfold late. cbn [c_state cset_hs cset_tr]. rewrite S. exists k, ee, cd, vd, sd, fd, j1, (j2 ++ j), x.
    repeat (split; [assumption|]). split; [cbn [c_hs cset_hs]; rewrite K6, <- !app_assoc; reflexivity|].
    repeat (split; [assumption|]). intros []. }
  assert (Lt0 : forall t, late (cset_tr t c)).
  { intro t. specialize (Lt t []). rewrite app_nil_r in Lt. destruct c; exact Lt. }
  apply wp_handle.
  - intro. apply late_soft. destruct c; exact (Lt0 _).
  - intros kk _ Nk. unfold process. wstep. rewrite S. destruct kk; try (apply base_live; exact L0). wrun. cbn [Q]. unfold live. cbn [c_state cset_app]. rewrite S. exact L.
  - intros h ty t Pk Mt Tu. unfold process. wstep. cbn [c_state cset_hs cset_tr]. rewrite S. apply wp_base_hs. intro. apply late_soft, Lt.
  - intros h ty e t Pk Mt Tu. apply late_soft, Lt0.
Qed.
Lemma hand_start ct d c : c_state c = ServerStart -> live c -> wp (handle_content C ct d) c Q.
Proof.
  intros S L. pose proof L as L0. unfold live in L. rewrite S in L. pose proof (waiting_plain _ _ L) as Ex.
  assert (Cs : can_send (c_state c) = true) by (rewrite S; reflexivity).
  apply wp_handle.
  - intro. apply plain_soft; assumption.
  - intros kk _ Nk. unfold process. wstep. rewrite S. apply base_live. exact L0.
  - intros h ty t Pk Mt Tu. unfold process. wstep. cbn [c_state cset_hs cset_tr]. rewrite S. apply wp_base_hs. intro. apply plain_soft; assumption.
  - intros. apply plain_soft; assumption.
Qed.
Lemma live_hand ct d c : ready c -> live c -> wp (handle_content C ct d) c Q.
Proof.
  intros R L. destruct (done (c_state c)) eqn:D.
  { unfold wp, Q. pose proof (done_handle C ct d c D) as D'. destruct (fst (handle_content C ct d c)); [apply live_done; exact D' | left; exact D']. }
  destruct (c_state c) eqn:S; try discriminate D; try (unfold live in L; rewrite S in L; destruct L; fail).
  - eapply hand_start; eassumption.
  - eapply hand_wait_ch; eassumption.
  - eapply hand_wait_finished; eassumption.
  - eapply hand_connected; eassumption.
Qed.
Lemma live_send d c : live c -> live (snd (send_data C d c)).
Proof.
  intro L. destruct (can_send_app (c_state c)) eqn:Ca.
  2:{ unfold send_data, send_content. rewrite bind_get. cbn [content_type]. change (CT_APPDATA =? CT_APPDATA) with true. rewrite Ca. exact L. }
  pose proof (state_send C (KAppData d) c) as S'. fold (send_data C d) in S'.
  destruct (done (c_state c)) eqn:D; [apply live_done; congruence|].
  pose proof (send_said C (KAppData d) c) as Sd. pose proof (sending_content C (KAppData d) c) as Sc. unfold send_data in *.
  destruct (send_content C (KAppData d) c) as [r c']. cbn [snd] in *.
  assert (Fw : few c' -> few c) by (apply sending_few; exact Sc).
  pose proof (cut_after_send _ _ Sc) as E. destruct Sc as (_ & O & _). destruct (Sd r c' eq_refl) as [Et Eh]. rewrite Et, Eh in E.
  set (c2 := cset_out (c_out c') (cset_log (c_log c') (cset_hs (c_hs c) (cset_tr (c_tr c) c)))) in *.
  change (after_send c (c_cipher c') (c_tr c) (c_hs c) (c_log c') (c_out c')) with (cset_cipher (c_cipher c') c2) in E.
  unfold live in *. rewrite S'. destruct (c_state c) eqn:S; try discriminate; try (destruct L; fail).
  - assert (Fw' : few (cset_cipher (c_cipher c') c2) -> few c) by (rewrite <- E; exact Fw). rewrite E.
    apply (fin_moves (few c)); [apply write_moves; exact O | exact Fw' | destruct c; exact L].
  - assert (Fw' : few (cset_cipher (c_cipher c') c2) -> few c) by (rewrite <- E; exact Fw). rewrite E.
    apply (conn_moves (few c)); [apply write_moves; exact O | exact Fw' | destruct c; exact L].
Qed.
Lemma server_run ops c : ready c -> live c -> ready (run C ops c) /\ live (run C ops c).
Proof.
  intros R L. apply (goodE_run C ready (ready_stable C)) with (J := soft); try (intros; assumption).
  - exact live_read.
  - exact live_soft.
  - intros code c0 Lc R0. exact (soft_fail code c0 Lc R0).
  - intros ct d c0 R0 L0. apply live_hand; assumption.
  - intros d c0 _ L0. apply live_send. exact L0.
  - intros c0 R0 L0. apply live_init; assumption.
  - intros c0 _ _. apply live_done, done_close_r.
  - intros c0 _ _. apply live_done, done_close_s.
  - split; assumption.
Qed.
End server.

Lemma tr_new_all flip suites t : tr_new flip suites = Ok t ->
  exists hl, t = mkTr (map (fun h => (h, [])) hl) 1 /\ forall s, In s suites -> exists h, suite_hash s = Some h /\ In h hl.
Proof.
  unfold tr_new. intro E. apply rbind_ok in E as (l & El & E). destruct (is_nil l); [discriminate|]. injection E; intros <-.
  eexists. split; [reflexivity|]. assert (K : forall s, In s suites -> exists h, suite_hash s = Some h /\ In h l).
  2:{ intros s Is. destruct (K s Is) as (h & E1 & E2). exists h. split; [exact E1|]. destruct flip; [apply -> in_rev|]; exact E2. }
  clear E. revert l El. induction suites as [|a suites IH]; intros l El s Is; [destruct Is|]. cbn [fold_right] in El.
  apply rbind_ok in El as (l' & El' & E). specialize (IH l' El'). destruct (suite_hash a) as [h|] eqn:Ea; [|discriminate].
  assert (Kh : In h l /\ incl l' l).
  { destruct (existsb (hashalg_eqb h) l') eqn:Eh; injection E; intros <-.
    - split; [|intros z Z; exact Z]. apply existsb_exists in Eh as (z & Z & Ez). destruct h, z; try discriminate; exact Z.
    - split; [left; reflexivity | intros z Z; right; exact Z]. }
  destruct Is as [Eq|Is]; [subst a; exists h; split; [exact Ea | exact (proj1 Kh)]|]. destruct (IH s Is) as (h' & E1 & E2). exists h'. split; [exact E1 | exact (proj2 Kh _ E2)].
Qed.
Lemma server_live' C g c : aead_sized C -> hmac_sized C -> hash_sized C -> g_side g = Server -> started C g c ->
  exists ocsp rng unique hl, blen unique = 32 /\ unique <> retry_random /\ ready c /\ live C g ocsp rng unique hl c /\
    forall s, In s (g_suites g) -> exists h, suite_hash s = Some h /\ In h hl.
Proof.
  intros As Hs Hh Hg (c0 & ops & K & (u & Eu & Lu & Nu) & ->). pose proof (created_ready _ _ K) as R. apply created_cases in K.
  destruct K as [(Sd & _) | (_ & ocsp & unique & rng & t & -> & flip & Et)]; [congruence|].
  apply tr_new_all in Et as (hl & -> & Al). cbn in Eu. injection Eu; intros ->.
  exists ocsp, rng, u, hl. destruct (server_run C g ocsp rng u hl As Hs Hh Hg Lu Nu ops _ R) as [R' L'].
  { unfold live. cbn. repeat split. left. reflexivity. }
  repeat (split; [assumption|]). exact Al.
Qed.
Lemma server_live C g c : aead_sized C -> hmac_sized C -> hash_sized C -> g_side g = Server -> started C g c ->
  exists ocsp rng unique hl, blen unique = 32 /\ unique <> retry_random /\ ready c /\ live C g ocsp rng unique hl c.
Proof.
  intros As Hs Hh Hg R. destruct (server_live' C g c As Hs Hh Hg R) as (a & b & d & e & H1 & H2 & H3 & H4 & _). exists a, b, d, e. auto.
Qed.
