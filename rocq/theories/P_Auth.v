(* What both sides need to follow a handshake. *)
From Verif Require Import Base P_Base Iana Crypto Config Serial Ext Msg Hkdf Cipher Kex Sig Ocsp Transcript Conn
  S_Hist S_Conn S_State S_Send S_Nonce S_Alert S_Utils S_Keys S_Auth
  P_Monad P_Frame P_Hist P_Send P_Wp P_State P_Speak P_Alert P_Keys P_Tr P_Wire.
Require Import Coq.Relations.Relation_Operators.

(* --- closed or failed ----------------------------------------------------- *)
Definition done (s : state) : bool := match s with Closed _ _ | Failed => true | _ => false end.
Definition pdone (p : phase) : bool := match p with PClosed | PFailed => true | _ => false end.
Lemma done_phase s : pdone (phase_of s) = done s.
Proof. destruct s; reflexivity. Qed.
Lemma path_done p q : path p q -> pdone p = true -> pdone q = true.
Proof.
  intros H. induction H as [a b E | | a b d _ IH1 _ IH2]; [|auto|auto].
  destruct E; cbn; congruence.
Qed.
Lemma done_path c c' : path (phase_of (c_state c)) (phase_of (c_state c')) -> done (c_state c) = true -> done (c_state c') = true.
Proof. rewrite <- !done_phase. apply path_done. Qed.
Lemma done_handle C ct d c : done (c_state c) = true -> done (c_state (snd (handle_content C ct d c))) = true.
Proof. apply done_path. apply (p_handle C path path_trans path_edge); [intros _; split; apply rt_step; constructor | apply rt_refl]. Qed.
Lemma done_fail C a c : done (c_state c) = true -> done (c_state (snd (fail C a c))) = true.
Proof. apply done_path. apply (p_fail C path path_trans path_edge). apply rt_refl. Qed.
Lemma done_initiate C c : done (c_state c) = true -> done (c_state (snd (initiate_connection C c))) = true.
Proof. apply done_path. apply (p_initiate C path path_trans path_edge). apply rt_refl. Qed.
Lemma state_send C k c : c_state (snd (send_content C k c)) = c_state c.
Proof. apply samest_send. Qed.
Lemma done_close_r C c : done (c_state (snd (close_receiving_end C c))) = true.
Proof.
  unfold close_receiving_end. rewrite bind_get. destruct (is_post_handshake c); cbn [negb]; [|reflexivity].
  destruct (c_state c); reflexivity.
Qed.
Lemma done_close_s C c : done (c_state (snd (close_sending_end C c))) = true.
Proof.
  unfold close_sending_end. rewrite bind_get.
  assert (K : forall b, done (c_state b) = true -> done (c_state (snd ((do c <- get; (if can_send (c_state c)
      then send_content C (KAlert WARNING CLOSE_NOTIFY) ;;
           modify (fun c => match c_state c with Closed r _ => cset_state (Closed r false) c | _ => c end)
      else ret tt)) b))) = true).
  { intros b Hb. rewrite bind_get. destruct (can_send (c_state b)); [|exact Hb].
    pose proof (state_send C (KAlert WARNING CLOSE_NOTIFY) b) as K. unfold bind.
    destruct (send_content C _ b) as [[?|?] b1]; cbn [snd] in *; [|rewrite K; exact Hb]. unfold modify; cbn [snd].
    destruct (c_state b1) eqn:Sb; try reflexivity; rewrite Sb, K; exact Hb. }
  unfold bind at 1. destruct (c_state c) eqn:Sa; unfold ret, set_state, modify; apply K; try reflexivity; rewrite Sa; reflexivity.
Qed.

(* --- what the alert needs ------------------------------------------------- *)
Definition able (c : conn) : Prop := mfl_good c /\ ivI c.
Lemma able_stable C : stable C (fun c c' => able c -> able c').
Proof.
  pose proof (mflR_stable C) as H1. pose proof (ivR_stable C) as H2. split.
  - split; auto.
  - intros c s g l [M V]. split; [exact (st_config C _ H1 c s g l M) | exact (st_config C _ H2 c s g l V)].
  - intros c s [M V]. split; [exact (st_nc_new C _ H1 c s M) | exact (st_nc_new C _ H2 c s V)].
  - intros c n f E F [M V]. split; [exact (st_nc_upd C _ H1 c n f E F M) | exact (st_nc_upd C _ H2 c n f E F V)].
  - intros exts ca [M V]. split; [exact (st_cmfl C _ H1 exts ca M) | exact (st_cmfl C _ H2 exts ca V)].
  - intros exts ca [M V]. split; [exact (st_smfl C _ H1 exts ca M) | exact (st_smfl C _ H2 exts ca V)].
  - intros c v [M V]. split; [exact (st_sig C _ H1 c v M) | exact (st_sig C _ H2 c v V)].
  - intros c v [M V]. split; [exact (st_cunique C _ H1 c v M) | exact (st_cunique C _ H2 c v V)].
  - intros c v [M V]. split; [exact (st_sunique C _ H1 c v M) | exact (st_sunique C _ H2 c v V)].
  - intros c v [M V]. split; [exact (st_rngi C _ H1 c v M) | exact (st_rngi C _ H2 c v V)].
  - intros c v [M V]. split; [exact (st_state C _ H1 c v M) | exact (st_state C _ H2 c v V)].
  - intros d sd ty ca [M V]. split; [exact (st_transcribe C _ H1 d sd ty ca M) | exact (st_transcribe C _ H2 d sd ty ca V)].
  - intros h ca [M V]. split; [exact (st_post C _ H1 h ca M) | exact (st_post C _ H2 h ca V)].
  - intros sd h ca [M V]. split; [exact (st_dance C _ H1 sd h ca M) | exact (st_dance C _ H2 sd h ca V)].
  - intros s sd ca [M V]. split; [exact (st_cs_new C _ H1 s sd ca M) | exact (st_cs_new C _ H2 s sd ca V)].
  - intros  ca [M V]. split; [exact (st_skip C _ H1  ca M) | exact (st_skip C _ H2  ca V)].
  - intros a b ca [M V]. split; [exact (st_hsk C _ H1 a b ca M) | exact (st_hsk C _ H2 a b ca V)].
  - intros a b ca [M V]. split; [exact (st_msk C _ H1 a b ca M) | exact (st_msk C _ H2 a b ca V)].
  - intros d a ca [M V]. split; [exact (st_decrypt C _ H1 d a ca M) | exact (st_decrypt C _ H2 d a ca V)].
  - intros k ca [M V]. split; [exact (st_send C _ H1 k ca M) | exact (st_send C _ H2 k ca V)].
Qed.
Lemma room_plain c : enc_on c = false -> room c.
Proof. intros H x _ E. congruence. Qed.
Lemma room_write c c' : olift cs_write (c_cipher c) (c_cipher c') -> room c' -> room c.
Proof.
  intros W R x Ex En. rewrite Ex in W. destruct (c_cipher c') as [y|] eqn:Ey; [|destruct W].
  pose proof W as W0. destruct W as [E [_ [_ [_ L]]]]. assert (En' : enc_on c' = true).
  { erewrite enc_write; [exact En|]. rewrite Ex, Ey. exact W0. }
  destruct (R y Ey En') as (lim & I & Q). exists lim. split; [rewrite E in I; exact I|].
  intros q Eq. rewrite Eq in L. destruct (d_seq (cs_w y)) as [q'|]; [|destruct L]. specialize (Q q' eq_refl). cbn in L. lia.
Qed.
Lemma room_read c c' : olift cs_read (c_cipher c) (c_cipher c') -> room c' -> room c.
Proof.
  intros W R x Ex En. rewrite Ex in W. destruct (c_cipher c') as [y|] eqn:Ey; [|destruct W].
  pose proof W as W0. destruct W as [E _]. assert (En' : enc_on c' = true).
  { erewrite enc_read; [exact En|]. rewrite Ex, Ey. exact W0. }
  destruct (R y Ey En') as (lim & I & Q). exists lim. rewrite E in I, Q. split; [exact I | exact Q].
Qed.
Lemma room_read' c c' : olift cs_read (c_cipher c) (c_cipher c') -> room c -> room c'.
Proof.
  intros W R y Ey En. rewrite Ey in W. destruct (c_cipher c) as [x|] eqn:Ex; [|destruct W].
  assert (En' : enc_on c = true).
  { erewrite <- enc_read; [exact En|]. rewrite Ex, Ey. exact W. }
  destruct W as [E _].
  destruct (R x Ex En') as (lim & I & Q). exists lim. rewrite E. split; [exact I | exact Q].
Qed.
Lemma alert_fails C code c : aead_sized C -> able c -> room c -> can_send (c_state c) = true -> code < 256 ->
  c_state (snd (fail C (Some code) c)) = Failed.
Proof.
  intros As [M V] R S L. destruct (alert_goes C code c As (mfl_good_max _ M) V R S L) as (c' & E & F & _).
  rewrite E. exact F.
Qed.
(* whether the alert goes or not *)
Lemma fail_keeps C code c : let c' := snd (fail C (Some code) c) in
  c_state c' = Failed \/
  exists oc lg o, olift cs_write (c_cipher c) oc /\ c' = after_send c oc (c_tr c) (c_hs c) lg o.
Proof.
  cbv zeta. unfold fail, bind. pose proof (sending_content C (KAlert FATAL code) c) as Sd.
  destruct (send_content C (KAlert FATAL code) c) as [r c1] eqn:E. cbn [snd] in Sd.
  pose proof (cut_after_send c c1 Sd) as Cut. pose proof (send_said _ _ _ _ _ E) as [S1 S2]. destruct Sd as (_ & Sd & _).
  destruct r as [?|e]; [left; reflexivity|]. right. rewrite S1, S2 in Cut. cbn [snd]. eauto 6.
Qed.
Lemma small_frag_goes C ct data c : aead_sized C -> able c -> room c -> blen data <= 400 ->
  exists r c1, send_fragments C ct (max_frag c) [data] c = (Ok r, c1).
Proof.
  intros As [M Iv] Rm L. pose proof (mfl_good_max _ M) as V. pose proof (valid_mfl_range _ V) as Vr.
  cbn [send_fragments]. rewrite bind_get. destruct (enc_on c) eqn:En.
  - pose proof En as En'. apply enc_on_inv in En'. destruct En' as (x & Ex & Em). pose proof (tag_small (cs_suite x)).
    destruct (encrypt_goes C c x ct data As V Iv Rm Ex En) as (s & c1 & E1 & E2 & E3 & E4); [lia|].
    do 2 eexists. unfold bind at 1. unfold bind at 1. rewrite E1. unfold lift. rewrite record_bytes_eq by exact E4. reflexivity.
  - do 2 eexists. unfold bind at 1, lift. rewrite record_bytes_eq by lia. reflexivity.
Qed.
Lemma small_limit c n : mfl_good c -> n <= 400 -> n <=? fragment_limit c = true.
Proof.
  intros M L. pose proof (valid_mfl_range _ (mfl_good_max _ M)) as Vr. apply N.leb_le.
  unfold fragment_limit, tag_len, enc_on. destruct (c_cipher c) as [x|]; [|lia].
  pose proof (tag_small (cs_suite x)). destruct (must_encrypt x); lia.
Qed.
Lemma small_goes C h ty data t c : aead_sized C -> able c -> room c -> can_send (c_state c) = true ->
  msg_type h = Some ty -> ser_content C (KHandshake h) = Ok data -> blen data <= 400 ->
  tr_update data (g_side (c_config c)) ty (c_tr c) = (Ok tt, t) ->
  exists c', send_content C (KHandshake h) c = (Ok tt, c').
Proof.
  intros As A Rm Cs Et Es L Eu. unfold send_content. rewrite bind_get. cbn [content_type].
  change (CT_HANDSHAKE =? CT_APPDATA) with false. cbn [andb]. rewrite Cs. cbn [negb]. rewrite Es.
  change (bind (lift (Ok data)) ?k c) with (k data c). cbv beta. rewrite Et.
  unfold transcribe. rewrite bind_assoc. unfold bind at 1. unfold on_tr. rewrite Eu. rewrite bind_modify, bind_get.
  set (c1 := cset_hs _ (cset_tr t c)). assert (A1 : able c1) by exact A. assert (R1 : room c1) by exact Rm.
  unfold fragments_of. rewrite (small_limit c1 _ (proj1 A1) L).
  change (bind (lift (Ok [data])) ?k c1) with (k [data] c1). cbv beta.
  destruct (small_frag_goes C CT_HANDSHAKE data c1 As A1 R1 L) as (r & c2 & E). unfold bind. rewrite E. unfold modify. eauto.
Qed.

(* --- handling a content --------------------------------------------------- *)
Lemma content_hs_ct C p ct d h : parse_content C p ct d = Ok (KHandshake h) -> ct = CT_HANDSHAKE.
Proof.
  unfold parse_content. cbv zeta. intro H.
  match type of H with match ?x with _ => _ end = _ => destruct x as [k|e] eqn:E; [|destruct (is_buffer_error e); discriminate] end.
  injection H; intros ->. apply rbind_ok in E as [[k s1] [E E1]]. apply rbind_ok in E1 as [[] [_ E1]]. injection E1; intros ->.
  destruct (ct =? CT_CCS); [|destruct (ct =? CT_ALERT); [|destruct (ct =? CT_HANDSHAKE) eqn:Eh; [apply N.eqb_eq; exact Eh|]]].
  - unfold parse_ccs in E. apply rbind_ok in E as [[b s2] [_ E]]. destruct (beqb b [x01]); discriminate.
  - unfold parse_alert in E. do 2 (apply rbind_ok in E as [[? ?] [_ E]]). discriminate.
  - destruct (ct =? CT_APPDATA); [discriminate|]. destruct (ct =? CT_HEARTBEAT).
    + unfold parse_heartbeat in E. do 2 (apply rbind_ok in E as [[? ?] [_ E]]). destruct (read_all _) as [pd s5].
      destruct (_ <? _); [discriminate|]. destruct (_ <? _); discriminate.
    + destruct (ct =? CT_INVALID); discriminate.
Qed.
Lemma wp_handle C ct d c (Q : res unit -> conn -> Prop) :
  (forall e, Q (Err e) c) ->
  (forall k, parse_content C (peer_cert_type c) ct d = Ok k -> (forall h, k <> KHandshake h) -> wp (process C k) c Q) ->
  (forall h ty t, parse_content C (peer_cert_type c) CT_HANDSHAKE d = Ok (KHandshake h) -> msg_type h = Some ty ->
     tr_update d (other_side (g_side (c_config c))) ty (c_tr c) = (Ok tt, t) ->
     wp (process C (KHandshake h)) (cset_hs (c_hs c ++ [(other_side (g_side (c_config c)), ty, d)]) (cset_tr t c)) Q) ->
  (forall h ty e t, parse_content C (peer_cert_type c) CT_HANDSHAKE d = Ok (KHandshake h) -> msg_type h = Some ty ->
     tr_update d (other_side (g_side (c_config c))) ty (c_tr c) = (Err e, t) -> Q (Err e) (cset_tr t c)) ->
  wp (handle_content C ct d) c Q.
Proof.
  intros H1 H2 H3 H4. unfold handle_content. wstep. wstep; [|apply H1].
  match goal with E : parse_content _ _ _ _ = Ok ?k |- _ => rename E into Ep; destruct k as [| |h| |] end;
    try (wstep; apply H2; [exact Ep | discriminate]).
  pose proof (content_hs_ct _ _ _ _ _ Ep) as Ec.
  subst ct. wstep; [|wstep; apply H1]. wstep; [apply H3; assumption | eapply H4; eassumption].
Qed.
Lemma wp_base k c (Q : res unit -> conn -> Prop) : Q (Ok tt) c -> Q (Ok tt) (cset_state (Closed true true) c) ->
  (forall e, Q (Err e) c) -> wp (base_process k) c Q.
Proof. intros H1 H2 H3. unfold base_process. wrun; try apply H3; assumption. Qed.
Lemma wp_base_hs h c (Q : res unit -> conn -> Prop) : (forall e, Q (Err e) c) -> wp (base_process (KHandshake h)) c Q.
Proof. intros H. unfold base_process. wrun. apply H. Qed.

(* --- handshake keys ------------------------------------------------------- *)
Definition hk (C : crypto) (suite : N) (sd : side) (shared th : bytes) (x : cs) : Prop :=
  exists x1 x2, skip_early_secrets C (cs_new 0 0 suite sd) = (Ok tt, x1) /\
    derive_handshake_secrets C shared th x1 = (Ok tt, x2) /\ same_keys x2 x.
Lemma hk_keys C suite sd shared th x : hk C suite sd shared th x -> handshake_keys C suite sd shared th x.
Proof. intros (x1 & x2 & H). exists 0, 0, x1, x2. exact H. Qed.
Lemma hk_same C suite sd shared th x y : same_keys x y -> hk C suite sd shared th x -> hk C suite sd shared th y.
Proof. intros S (x1 & x2 & A & B & D). exists x1, x2. split; [exact A|]. split; [exact B|]. eapply same_keys_trans; eassumption. Qed.
Lemma read_same x y : cs_read x y -> same_keys x y.
Proof. intros [E (A & B & D & _)]. unfold same_keys. rewrite E. cbn. cbn in *. intuition congruence. Qed.
Lemma write_same x y : cs_write x y -> same_keys x y.
Proof. intros [E (A & B & D & _)]. unfold same_keys. rewrite E. cbn. cbn in *. intuition congruence. Qed.
Lemma app_same C suite sd shared th th_sf x y : same_keys x y -> application_keys C suite sd shared th th_sf x -> application_keys C suite sd shared th th_sf y.
Proof. intros S (x2 & t & v & x3 & A & B & D). exists x2, t, v, x3. split; [exact A|]. split; [exact B|]. eapply same_keys_trans; eassumption. Qed.
Lemma new_read we re s sd y : cs_read (cs_new we re s sd) y -> y = cs_new we re s sd.
Proof.
  intros [E (A & B & D & F)]. rewrite E. unfold cs_set_r, cs_new. cbn in *. f_equal.
  destruct (cs_r y) as [k iv q e]. cbn in *. destruct q; [destruct F|]. subst. reflexivity.
Qed.
Lemma new_write we re s sd y : cs_write (cs_new we re s sd) y -> y = cs_new we re s sd.
Proof.
  intros [E (A & B & D & F)]. rewrite E. unfold cs_set_w, cs_new. cbn in *. f_equal.
  destruct (cs_w y) as [k iv q e]. cbn in *. destruct q; [destruct F|]. subst. reflexivity.
Qed.
(* nothing was sent with the handshake keys *)
Definition fresh (x : cs) : Prop :=
  exists lim q, In (cs_suite x, lim) limit_table /\ d_seq (cs_w x) = Some q /\ q_next q = 0.
Lemma fresh_room c x : c_cipher c = Some x -> fresh x -> room c.
Proof.
  intros Ex (lim & q & I & Eq & E0) y Ey _. rewrite Ex in Ey. injection Ey; intros <-. exists lim. split; [exact I|].
  intros q' Eq'. rewrite Eq in Eq'. injection Eq'; intros <-. rewrite E0.
  cbn [In limit_table] in I. intuition; match goal with E : (_, _) = _ |- _ => injection E; intros; subst; reflexivity end.
Qed.
Lemma fresh_read x y : cs_read x y -> fresh x -> fresh y.
Proof. intros [E _] (lim & q & I & Q). exists lim, q. rewrite E. split; [exact I | exact Q]. Qed.
Lemma usage_limit_table s lim : usage_limit s = Some lim -> In (s, lim) limit_table.
Proof.
  unfold usage_limit. intro H. destruct (_ || _) eqn:E.
  - injection H; intros <-. apply orb_prop in E. destruct E as [E|E]; apply N.eqb_eq in E; subst s; cbn; auto.
  - destruct (s =? TLS_CHACHA20_POLY1305_SHA256) eqn:E2; [|discriminate]. apply N.eqb_eq in E2. subst s. injection H; intros <-. cbn; auto.
Qed.
Lemma derive_fresh C shared th x x' : derive_handshake_secrets C shared th x = (Ok tt, x') -> fresh x' /\ usage_limit (cs_suite x') <> None.
Proof.
  unfold derive_handshake_secrets, extract_and_advance. destruct (negb _); [discriminate|].
  destruct (derive_secret _ _ _ _ _); [|discriminate]. destruct (derive_hs _ _ _ _) as [s|]; [|discriminate].
  unfold install_both, install. cbn [cs_side cs_suite cs_set_fin cs_advance].
  destruct (usage_limit (cs_suite x)) as [lim|] eqn:U; [|destruct (cs_side x); discriminate].
  intro H. assert (E : x' = snd (Ok tt : res unit, x')) by reflexivity. rewrite <- H in E. subst x'.
  split.
  - exists lim, (seq_new lim). destruct (cs_side x); cbn; (split; [apply usage_limit_table; exact U | split; reflexivity]).
  - destruct (cs_side x); cbn; rewrite U; discriminate.
Qed.
Lemma suite_hash_of s h : suite_hash s = Some h -> hash_of s = h /\ exists klen, In (s, (h, klen)) suite_table.
Proof.
  unfold suite_hash, hash_of. intro H.
  repeat match type of H with context [s =? ?b] => let E := fresh "E" in destruct (s =? b) eqn:E; [apply N.eqb_eq in E; subst s | clear E] end; try discriminate H;
  injection H; intros <-; (split; [reflexivity|]); eexists; cbn; auto 8.
Qed.

(* --- sending in the clear ------------------------------------------------- *)
Lemma plain_frags_go C ct mfl : forall l c, enc_on c = false -> Forall (fun f => blen f < 65536) l ->
  exists r, send_fragments C ct mfl l c = (Ok r, c).
Proof.
  induction l as [|f l IH]; intros c Ex F; cbn [send_fragments]; [eexists; reflexivity|].
  inversion F as [|? ? F1 F2]; subst. rewrite bind_get, Ex. rewrite record_bytes_eq by exact F1.
  destruct (IH c Ex F2) as [r E]. unfold bind at 1. unfold lift at 1. unfold bind. rewrite E. eexists; reflexivity.
Qed.
Lemma plain_goes C h ty data t c : able c -> enc_on c = false -> can_send (c_state c) = true ->
  msg_type h = Some ty -> ser_content C (KHandshake h) = Ok data ->
  tr_update data (g_side (c_config c)) ty (c_tr c) = (Ok tt, t) ->
  exists c', send_content C (KHandshake h) c = (Ok tt, c').
Proof.
  intros A Ex Cs Et Es Eu. unfold send_content. rewrite bind_get. cbn [content_type].
  change (CT_HANDSHAKE =? CT_APPDATA) with false. cbn [andb]. rewrite Cs. cbn [negb]. rewrite Es.
  change (bind (lift (Ok data)) ?k c) with (k data c). cbv beta. rewrite Et.
  unfold transcribe. rewrite bind_assoc. unfold bind at 1. unfold on_tr. rewrite Eu. rewrite bind_modify, bind_get.
  set (c1 := cset_hs _ (cset_tr t c)). assert (A1 : able c1) by exact A. assert (E1 : enc_on c1 = false) by exact Ex.
  pose proof (valid_mfl_range _ (mfl_good_max _ (proj1 A1))) as Vr.
  assert (L : 0 < fragment_limit c1 <= 16384) by (unfold fragment_limit; rewrite E1; lia).
  destruct (fragments_of (fragment_limit c1) (can_fragment (KHandshake h)) data) as [fl|e] eqn:Ef.
  2:{ unfold fragments_of in Ef. destruct (_ <=? _); discriminate. }
  apply fragments_of_spec in Ef; [|lia]. destruct Ef as (_ & F & _).
  change (bind (lift (Ok fl)) ?k c1) with (k fl c1). cbv beta.
  destruct (plain_frags_go C CT_HANDSHAKE (max_frag c1) fl c1 E1) as (r & E).
  { eapply Forall_impl; [|exact F]. cbv beta. intros; lia. }
  change (content_type (KHandshake h)) with CT_HANDSHAKE. unfold bind. rewrite E. unfold modify. eauto.
Qed.
(* a first or second ClientHello is sent whole or not at all *)
Lemma hello_send C random sid suites exts c l r oc t hs lg o : let h := HClientHello random sid suites exts in
  able c -> enc_on c = false -> can_send (c_state c) = true -> g_side (c_config c) = Client -> c_tr c = mkTr l 1 ->
  said C (KHandshake h) c r t hs -> send_content C (KHandshake h) c = (r, after_send c oc t hs lg o) ->
  match r with
  | Ok _ => exists d, ser_content C (KHandshake h) = Ok d /\ t = mkTr (feed d l) 2 /\ hs = c_hs c ++ [(Client, CLIENT_HELLO, d)]
  | Err _ => t = c_tr c /\ hs = c_hs c
  end.
Proof.
  intros h A Ex Cs Gs Et Sd Sn. destruct Sd as [(E1 & E2 & E3)|(ty & data & M & Sr & K)].
  - destruct r as [[]|]; [destruct (E1 eq_refl) | auto].
  - injection M; intros <-. rewrite Gs, Et, tr_client_hello in K.
    destruct K as [[K1 K2]|(e & K & _)]; [|discriminate].
    destruct (plain_goes C h CLIENT_HELLO data t c A Ex Cs eq_refl Sr) as [c' E].
    { rewrite Gs, Et, tr_client_hello. exact K1. }
    rewrite E in Sn. injection Sn; intros _ <-. exists data. injection K1; intros <-. auto.
Qed.
Lemma fresh_limit x : fresh x -> usage_limit (cs_suite x) <> None.
Proof.
  intros (lim & q & Il & _). cbn [In limit_table] in Il.
  destruct Il as [E|[E|[E|[]]]]; pose proof (f_equal fst E) as E1; cbn [fst] in E1; rewrite <- E1; discriminate.
Qed.

(* what the order of the transcript allows *)
Definition at_slotn (n i : nat) (l : list token) : Prop :=
  match i with
  | 3%nat => l = hello_word n ++ [TSH]
  | 4%nat => l = hello_word n ++ [TSH; TEE]
  | 5%nat => l = hello_word n ++ [TSH; TEE] \/ l = hello_word n ++ [TSH; TEE; TCR]
  | 6%nat => exists cr, l = hello_word n ++ [TSH; TEE] ++ (if cr : bool then [TCR] else []) ++ [TCert]
  | 7%nat => exists cr, l = hello_word n ++ [TSH; TEE] ++ (if cr : bool then [TCR] else []) ++ [TCert; TCV]
  | _ => exists cr, l = hello_word n ++ [TSH; TEE] ++ (if cr : bool then [TCR] else []) ++ [TCert; TCV; TSFin]
  end.
Definition at_slot (i : nat) (l : list token) : Prop := exists n, at_slotn n i l.
Lemma at_slotn_update n i l hs d ty r t : (3 <= i <= 11)%nat -> at_slotn n i l -> tr_update d Server ty (mkTr hs i) = (r, t) ->
  (3 <= t_i t <= 11)%nat /\
  match r with
  | Ok _ => ty <> SERVER_HELLO /\ at_slotn n (t_i t) (l ++ [token_of (Server, ty, d)])
  | Err _ => at_slotn n (t_i t) l
  end.
Proof.
  intros Hi A H. destruct (server_slots_over _ _ _ _ _ _ Hi H) as [B1 B2]. split; [exact B1|].
  assert (Ci : i = 3%nat \/ i = 4%nat \/ i = 5%nat \/ i = 6%nat \/ i = 7%nat \/ i = 8%nat \/ i = 9%nat \/ i = 10%nat \/ i = 11%nat) by lia.
  unfold at_slotn in *. unfold tr_update in H.
  destruct Ci as [-> | [-> | [-> | [-> | [-> | [-> | [-> | [-> | ->]]]]]]]]; cbn -[N.eqb hello_word] in H.
  all: repeat (match type of H with context [?a =? ?b] =>
         first [match goal with E : (a =? b) = _ |- _ => rewrite E in H end | destruct (a =? b) eqn:?] end;
         cbn -[N.eqb hello_word] in H; try discriminate).
  all: match type of H with (?a, ?b) = _ => assert (r = a /\ t = b) as [-> ->] by (inversion H; split; reflexivity) end; cbn [t_i] in *.
  all: try (exact A).
  all: try match goal with E : (?v =? _) = true |- _ => apply N.eqb_eq in E; subst v end.
  all: try (split; [discriminate|]; cbn [token_of m_side m_type fst snd]; rewrite ?app_assoc_reverse).
  all: try (left; exact A).
  - rewrite A, <- app_assoc. reflexivity.
  - right. rewrite A, <- app_assoc. reflexivity.
  - exists false. rewrite A, <- app_assoc. reflexivity.
  - destruct A as [A|A]; [exists false | exists true]; rewrite A, <- app_assoc; reflexivity.
  - destruct A as [cr A]. exists cr. rewrite A, <- !app_assoc. reflexivity.
  - destruct A as [cr A]. exists cr. rewrite A, <- !app_assoc. reflexivity.
Qed.

Lemma at_slot_update i l hs d ty r t : (3 <= i <= 11)%nat -> at_slot i l -> tr_update d Server ty (mkTr hs i) = (r, t) ->
  (3 <= t_i t <= 11)%nat /\
  match r with
  | Ok _ => ty <> SERVER_HELLO /\ at_slot (t_i t) (l ++ [token_of (Server, ty, d)])
  | Err _ => at_slot (t_i t) l
  end.
Proof.
  intros Hi [n A] H. destruct (at_slotn_update n _ _ _ _ _ _ _ Hi A H) as [B1 B2]. split; [exact B1|].
  destruct r; [split; [apply B2 | exists n; apply B2] | exists n; exact B2].
Qed.
Lemma assocN_one (A : Type) g0 (p : A) grp v : assocN grp [(g0, p)] = Some v -> grp = g0 /\ v = p.
Proof. cbn. destruct (grp =? g0) eqn:E; [|discriminate]. apply N.eqb_eq in E. intro H; injection H; auto. Qed.
Lemma memN_in x l : memN x l = true -> In x l.
Proof. unfold memN. intro H. apply existsb_exists in H as (y & I & E). apply N.eqb_eq in E. subst. exact I. Qed.
Lemma on_value_ok A (m : res A) e a : on_value_error m e = Ok a -> m = Ok a.
Proof. destruct m; cbn; [auto|]. destruct (is_value_error _); discriminate. Qed.

Lemma hello_word_S n : hello_word (S n) = hello_word n ++ [THRR; TCH].
Proof.
  unfold hello_word. change (TCH :: concat (repeat [THRR; TCH] n)) with ([TCH] ++ concat (repeat [THRR; TCH] n)).
  change (TCH :: concat (repeat [THRR; TCH] (S n))) with ([TCH] ++ concat (repeat [THRR; TCH] (S n))). rewrite <- app_assoc. f_equal.
  induction n as [|n IH]; [reflexivity|]. cbn [repeat concat] in *. rewrite IH at 1. rewrite <- app_assoc. reflexivity.
Qed.
Lemma memB_in x l : memB x l = true -> In x l.
Proof. unfold memB. intro E. apply existsb_exists in E as (y & I1 & E). apply beqb_eq in E. subst. exact I1. Qed.
Lemma ser_finished_total C v : blen v <= 255 ->
  exists data, ser_content C (KHandshake (HFinished v)) = Ok data /\ blen data <= 400.
Proof.
  intro L. unfold ser_content, ser_hs. cbn [ser_hs_body rbind msg_type].
  rewrite to_bytes_lt by reflexivity. cbn [rbind]. rewrite put_var_lt by (change (256 ^ N.of_nat 3) with 16777216; lia). cbn [rbind].
  eexists. split; [reflexivity|]. rewrite !blen_app, !blen_be_bytes. lia.
Qed.
Lemma digest_size_small h : digest_size h <= 255.
Proof. destruct h; discriminate. Qed.
Lemma created_able g c : created g c -> able c.
Proof.
  intro K. split; [eapply created_mfl; exact K|]. apply created_cases in K.
  destruct K as [(_ & host & ocsp & unique & rng & t & -> & _) | (_ & ocsp & unique & rng & t & -> & _)]; exact I.
Qed.
