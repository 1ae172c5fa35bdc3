(* Every history of calls of a cipher object. *)
From Verif Require Import Base P_Base Iana Crypto Hkdf Cipher S_Utils P_Hkdf S_Keys P_Keys S_Hist S_Nonce Early S_Early P_Alert P_Early.
Local Open Scope string_scope.
Local Open Scope list_scope.
Local Open Scope N_scope.

Section hist.
Variable C : crypto.
Hypothesis Hs : hmac_sized C.
Hypothesis Hh : hash_sized C.
Variables (suite : N) (h : hashalg) (klen lim : N).
Hypothesis It : In (suite, (h, klen)) suite_table.
Hypothesis Il : In (suite, lim) limit_table.
Notation salt_of := (P_Early.salt_of C h).
Notation fresh_dir := (P_Early.fresh_dir C h klen lim).
Notation key := (traffic_key C h klen).
Notation ivn s := (of_bytes (traffic_iv C h s)).
Notation written := (S_Early.written C h).

Lemma lim_le : lim <= 2 ^ 64.
Proof using Il. cbn [In limit_table] in Il. destruct Il as [E|[E|[E|[]]]]; injection E; intros <- _; lbl. Qed.
Lemma nonce_lt s n : n < lim -> N.lxor (ivn s) n < 256 ^ N.of_nat 12.
Proof using Hs It Il.
  intro L. change (256 ^ N.of_nat 12) with (2 ^ 96). apply lxor_lt.
  - change (2 ^ 96) with (256 ^ 12). exact (iv_lt C Hs suite h klen It s).
  - pose proof lim_le. change (2 ^ 64) with 18446744073709551616 in *. change (2 ^ 96) with 79228162514264337593543950336. lia.
Qed.
Lemma nonce_inj s n m : n < lim -> m < lim -> be_bytes 12 (N.lxor (ivn s) n) = be_bytes 12 (N.lxor (ivn s) m) -> n = m.
Proof using Hs It Il.
  intros A B E. apply (f_equal of_bytes) in E. rewrite !of_be_bytes in E by (apply nonce_lt; assumption).
  apply (f_equal (N.lxor (ivn s))) in E. rewrite <- !N.lxor_assoc, N.lxor_nilpotent, !N.lxor_0_l in E. exact E.
Qed.

(* one direction, which uses the secrets [ws] one after the other *)
Definition dirI (ws : list bytes) (d : dir) : Prop :=
  match rev ws with
  | [] => d_key d = None
  | s :: _ => exists q, d_key d = Some (key s) /\ d_iv d = Some (ivn s) /\ d_seq d = Some q /\ q_limit q = lim /\ q_next q <= lim
  end.
Lemma dirI_app ws s d : dirI (ws ++ [s]) (fresh_dir s d).
Proof using. unfold dirI. rewrite rev_app_distr. cbn. eexists. repeat split. cbn. lia. Qed.
Definition reached (d : dir) : N := match d_seq d with Some q => q_next q | None => 0 end.
Definition sealI (ws : list bytes) (d : dir) (log : list sealing) : Prop :=
  forall s, In s log -> se_suite s = suite /\ In (se_key s) (map key ws) /\
    (forall w, hd_error (rev ws) = Some w -> NoDup (map key ws) -> se_key s = key w ->
       exists n, n < reached d /\ n < lim /\ se_nonce s = be_bytes 12 (N.lxor (ivn w) n)).
Lemma sealI_app ws s d log : sealI ws d log -> sealI (ws ++ [s]) (fresh_dir s d) log.
Proof using.
  intros H x I. destruct (H x I) as (A & B & _). split; [exact A|]. rewrite map_app. cbn [map]. split; [apply in_or_app; auto|].
  intros w E ND K. rewrite rev_app_distr in E. injection E; intros <-. rewrite K in B.
  apply NoDup_remove_2 in ND. rewrite app_nil_r in ND. contradiction.
Qed.
Lemma NoDup_init {A} (l : list A) x : NoDup (l ++ [x]) -> NoDup l.
Proof using. intro H. apply NoDup_remove_1 in H. rewrite app_nil_r in H. exact H. Qed.

(* reading and writing *)
Lemma nonce_goes ws d : dirI ws d ->
  match rev ws with
  | [] => True
  | s :: _ => next_nonce d = if reached d <? lim then (Ok (be_bytes 12 (N.lxor (ivn s) (reached d))),
                mkDir (d_key d) (d_iv d) (Some (mkSeq (reached d + 1) lim)) (d_epoch d)) else (Err XStop, d)
  end.
Proof using Hs It Il.
  unfold dirI, reached. destruct (rev ws) as [|s r]; [auto|]. intros (q & A & B & D & E & F).
  unfold next_nonce. rewrite B, D. unfold seq_next. rewrite E. destruct (q_next q <? lim) eqn:L.
  - apply N.ltb_lt in L. rewrite to_bytes_lt by (apply nonce_lt; exact L). reflexivity.
  - destruct d, q. cbn in *. subst. reflexivity.
Qed.
Lemma nonce_dirI ws d r d' : dirI ws d -> d_key d <> None -> next_nonce d = (r, d') ->
  dirI ws d' /\ reached d <= reached d' /\
  match r with Ok n => exists s, hd_error (rev ws) = Some s /\ reached d < lim /\ n = be_bytes 12 (N.lxor (ivn s) (reached d)) /\ reached d' = reached d + 1 | Err _ => True end.
Proof using Hs It Il.
  intros I K H. pose proof (nonce_goes ws d I) as G. pose proof I as I0. unfold dirI in I. destruct (rev ws) as [|s l] eqn:Er; [congruence|].
  rewrite G in H. destruct I as (q & A & B & D & E & F).
  destruct (reached d <? lim) eqn:L; injection H; intros <- <-.
  - apply N.ltb_lt in L. split; [|split; [unfold reached at 2; cbn; lia|]].
    + unfold dirI. rewrite Er. eexists. cbn. repeat split; try assumption. cbn. lia.
    + exists s. repeat split. exact L.
  - split; [exact I0|]. split; [lia | exact Logic.I].
Qed.
Lemma sealI_grow ws d d' log : reached d <= reached d' -> sealI ws d log -> sealI ws d' log.
Proof using.
  intros L H x I. destruct (H x I) as (A & B & D). split; [exact A|]. split; [exact B|]. intros w E ND K.
  destruct (D w E ND K) as (n & P & Q & R). exists n. split; [lia|]. auto.
Qed.

(* the object *)
Definition phase (sd : side) (p : past) : Prop :=
  let x := p_obj p in
  (cs_state x = 0 /\ p_keys p = [] /\ cs_salt x = zero_block h) \/
  (cs_state x = 1 /\ exists e, p_keys p = [e] /\ opening e /\ cs_salt x = salt_of (psk_early C h (psk_used h e))) \/
  (cs_state x = 2 /\ exists e shared th ms, p_keys p = e :: KHandshake shared th :: ms /\ opening e /\ Forall ending ms /\
     cs_salt x = salt_of (psk_handshake C h (psk_used h e) shared)).
Definition Inv (sd : side) (p : past) : Prop :=
  cs_suite (p_obj p) = suite /\ cs_side (p_obj p) = sd /\ phase sd p /\
  dirI (written sd (p_keys p)) (cs_w (p_obj p)) /\ dirI (written (other_side sd) (p_keys p)) (cs_r (p_obj p)) /\
  sealI (written sd (p_keys p)) (cs_w (p_obj p)) (p_seals p) /\
  (NoDup (map key (written sd (p_keys p))) -> NoDup (map key_nonce (p_seals p))).

Lemma written_hs sd e shared th : written sd [e; KHandshake shared th] = written sd [e] ++ [psk_hs_traffic C h sd (psk_used h e) shared th].
Proof using. unfold S_Early.written. cbn [flat_map]. rewrite app_nil_r. reflexivity. Qed.
Lemma written_ap sd e shared th ms a b : written sd ((e :: KHandshake shared th :: ms) ++ [KMaster a b]) =
  written sd (e :: KHandshake shared th :: ms) ++ [psk_ap_traffic C h sd (psk_used h e) shared a].
Proof using. cbn [app S_Early.written]. rewrite flat_map_app. cbn [flat_map app]. rewrite <- app_assoc. reflexivity. Qed.

(* what does not touch the keys *)
Lemma Inv_same sd p a x s : Inv sd p -> cs_suite x = cs_suite (p_obj p) -> cs_side x = cs_side (p_obj p) -> cs_state x = cs_state (p_obj p) ->
  cs_salt x = cs_salt (p_obj p) -> dirI (written sd (p_keys p)) (cs_w x) -> dirI (written (other_side sd) (p_keys p)) (cs_r x) ->
  sealI (written sd (p_keys p)) (cs_w x) s -> (NoDup (map key (written sd (p_keys p))) -> NoDup (map key_nonce s)) ->
  Inv sd (mkPast a x (p_keys p) s).
Proof using.
  intros (A & B & P & _) E1 E2 E3 E4 W R S N. unfold Inv, phase in *. cbn [p_obj p_keys p_seals]. rewrite E1, E2, E3, E4.
  split; [exact A|]. split; [exact B|]. split; [exact P|]. auto.
Qed.
Lemma Inv_id sd p a : Inv sd p -> Inv sd (mkPast a (p_obj p) (p_keys p) (p_seals p)).
Proof using. intro H. exact H. Qed.

Lemma Inv_step sd p k : Inv sd p -> sized_call k -> Inv sd (do_call C p k).
Proof using Hs Hh It Il.
  intros I Z. pose proof I as (A & B & P & W & R & S & N). unfold do_call. destruct k; cbn [call_step deriving].
  - (* skip *)
    destruct P as [(E0 & Ek & Ez)|P].
    + rewrite (skip_is C Hs Hh suite h klen It) by assumption. cbn [rbind app].
      rewrite Ek in *. unfold Inv, phase. cbn [p_obj p_keys p_seals cs_advance cs_suite cs_side cs_state cs_salt cs_w cs_r app].
      split; [exact A|]. split; [exact B|]. split; [right; left; rewrite E0; split; [reflexivity|]; exists KSkip; repeat split|].
      destruct sd; exact (conj W (conj R (conj S N))).
    + assert (E0 : cs_state (p_obj p) =? 0 = false) by (destruct P as [(-> & _)|(-> & _)]; reflexivity).
      unfold skip_early_secrets. rewrite E0. cbn [negb rbind app]. exact I.
  - (* early *)
    destruct P as [(E0 & Ek & Ez)|P].
    + destruct (kind_of mode) as [kind|] eqn:Km.
      * rewrite (early_is C Hs Hh suite h klen lim It Il psk mode kind) by assumption. cbn [rbind app].
        assert (M : mode = "external" \/ mode = "resume").
        { unfold kind_of in Km. destruct (String.eqb mode "external") eqn:X1; [left; apply String.eqb_eq; exact X1|].
          destruct (String.eqb mode "resume") eqn:X2; [right; apply String.eqb_eq; exact X2 | discriminate]. }
        rewrite Ek in *. unfold Inv, phase.
        cbn [p_obj p_keys p_seals app]. rewrite B.
        destruct sd; unfold cs_logs, cs_set_w, cs_set_r, cs_advance; cbn [cs_suite cs_side cs_state cs_salt cs_w cs_r cs_cfin cs_sfin cs_klog];
          (split; [exact A|]; split; [exact B|]; split; [right; left; rewrite E0; split; [reflexivity|]; exists (KEarly psk mode th); repeat split; exact M|]).
        -- cbn [S_Early.written other_side app] in *. split; [exact (dirI_app [] _ _)|]. split; [exact R|]. split; [exact (sealI_app [] _ _ _ S)|].
           intros _. apply N. constructor.
        -- cbn [S_Early.written other_side app] in *. split; [exact W|]. split; [exact (dirI_app [] _ _)|]. split; [exact S|]. exact N.
      * unfold derive_early_secrets. rewrite E0. change (negb (0 =? 0)) with false. cbv iota.
        unfold kind_of in Km. destruct (String.eqb mode "external"); [discriminate|]. destruct (String.eqb mode "resume"); [discriminate|].
        cbn [orb negb rbind app]. exact I.
    + assert (E0 : cs_state (p_obj p) =? 0 = false) by (destruct P as [(-> & _)|(-> & _)]; reflexivity).
      unfold derive_early_secrets. rewrite E0. cbn [negb rbind app]. exact I.
  - (* handshake *)
    destruct P as [(E0 & _)|[(E1 & e & Ek & Oe & Ez)|(E2 & _)]].
    + unfold derive_handshake_secrets. rewrite E0. change (negb (0 =? 1)) with true. cbn [rbind app]. exact I.
    + destruct (hs_is C Hs Hh suite h klen lim It Il (psk_used h e) shared th _ A E1 Ez Z) as (fc & fs & log & ->).
      cbn [rbind app]. rewrite Ek in *. cbn [app]. unfold Inv, phase. cbn [p_obj p_keys p_seals cs_suite cs_side cs_state cs_salt cs_w cs_r].
      rewrite !written_hs, B. split; [reflexivity|]. split; [reflexivity|].
      split; [right; right; split; [reflexivity|]; exists e, shared, th, []; repeat split; [exact Oe | constructor]|].
      split; [apply dirI_app|]. split; [apply dirI_app|]. split; [apply sealI_app; exact S|].
      intro ND. apply N. rewrite map_app in ND. exact (NoDup_init _ _ ND).
    + unfold derive_handshake_secrets. rewrite E2. change (negb (2 =? 1)) with true. cbn [rbind app]. exact I.
  - (* master *)
    destruct P as [(E0 & _)|[(E1 & _)|(E2 & e & shared & th & ms & Ek & Oe & Fm & Ez)]].
    + unfold derive_master_secrets. rewrite E0. change (negb (0 =? 2)) with true. cbn [rbind app]. exact I.
    + unfold derive_master_secrets. rewrite E1. change (negb (1 =? 2)) with true. cbn [rbind app]. exact I.
    + destruct Z as [Z1 Z2].
      destruct (ap_is C Hs Hh suite h klen lim It Il (psk_used h e) shared th_sf th_cf _ A E2 Ez Z1 Z2) as (v & fc & fs & log & ->).
      cbn [rbind]. cbn iota. rewrite Ek in *. unfold Inv, phase. cbn [p_obj p_keys p_seals cs_suite cs_side cs_state cs_salt cs_w cs_r].
      rewrite !written_ap, B. split; [reflexivity|]. split; [reflexivity|].
      split; [right; right; split; [reflexivity|]; exists e, shared, th, (ms ++ [KMaster th_sf th_cf]); repeat split;
              [exact Oe | apply Forall_app; split; [exact Fm | repeat constructor] | exact Ez]|].
      split; [apply dirI_app|]. split; [apply dirI_app|]. split; [apply sealI_app; exact S|].
      intro ND. apply N. rewrite map_app in ND. exact (NoDup_init _ _ ND).
  - (* encrypt *)
    unfold encrypt. destruct (d_key (cs_w (p_obj p))) as [kk|] eqn:Kw; [|cbn [rbind app]; exact I].
    destruct (next_nonce (cs_w (p_obj p))) as [r w] eqn:En.
    destruct (nonce_dirI _ _ r w W ltac:(congruence) En) as (W' & G & F).
    destruct r as [n|e]; cbn [rbind app].
    + destruct F as (s & Es & L & En' & Er).
      assert (Kk : kk = key s).
      { unfold dirI in W. destruct (rev (written sd (p_keys p))); [discriminate|]. injection Es; intros ->. destruct W as (q & Wk & _). congruence. }
      assert (S' : sealI (written sd (p_keys p)) w (mkSealing (cs_suite (p_obj p)) (d_epoch (cs_w (p_obj p))) kk n data aad :: p_seals p)).
      { intros x [<-|Ix]; [|exact (sealI_grow _ _ _ _ G S x Ix)].
        cbn [se_suite se_key se_nonce]. split; [exact A|]. split.
        - rewrite Kk. apply in_map. apply in_rev. destruct (rev _); [discriminate|]. injection Es; intros ->. left. reflexivity.
        - intros w0 E0 _ _. rewrite Es in E0. injection E0; intros <-. exists (reached (cs_w (p_obj p))). split; [lia|]. split; [exact L | exact En']. }
      apply (Inv_same sd p); try reflexivity; try assumption.
      intro ND. cbn [map]. constructor; [|apply N; exact ND].
      intro Ix. apply in_map_iff in Ix. destruct Ix as (y & Ey & Iy). unfold key_nonce in Ey. cbn [se_key se_nonce] in Ey.
      injection Ey; intros Y1 Y2. destruct (S y Iy) as (_ & _ & Sy). destruct (Sy s Es ND) as (m & M1 & M2 & M3); [congruence|].
      rewrite Y1, En' in M3. apply nonce_inj in M3; [|exact L | exact M2]. lia.
    + apply (Inv_same sd p); try reflexivity; try assumption. exact (sealI_grow _ _ _ _ G S).
  - (* decrypt *)
    unfold decrypt. destruct (d_key (cs_r (p_obj p))) as [kk|] eqn:Kw; [|cbn [rbind app]; exact I].
    destruct (next_nonce (cs_r (p_obj p))) as [r w] eqn:En.
    destruct (nonce_dirI _ _ r w R ltac:(congruence) En) as (R' & G & F).
    destruct r as [n|e]; cbn [rbind app]; [destruct (cr_open _ _ _ _ _ _); cbn [rbind app]|];
      apply (Inv_same sd p); try reflexivity; assumption.
  - destruct (sign_finish C th (p_obj p)); cbn [rbind app]; exact I.
  - destruct (verify_finish C th other (p_obj p)); cbn [rbind app]; exact I.
  - destruct (should_rekey (p_obj p)); cbn [rbind app]; exact I.
Qed.
Lemma Inv_calls sd l : forall p, Inv sd p -> Forall sized_call l -> Inv sd (fold_left (do_call C) l p).
Proof using Hs Hh It Il.
  induction l as [|k l IH]; intros p I F; [exact I|]. inversion F; subst. cbn [fold_left]. apply IH; [|assumption]. apply Inv_step; assumption.
Qed.
Lemma Inv_new we re sd : Inv sd (mkPast [] (cs_new we re suite sd) [] []).
Proof using It.
  unfold Inv, phase. cbn. rewrite (e_hash suite h klen It). split; [reflexivity|]. split; [reflexivity|]. split; [left; repeat split|].
  split; [reflexivity|]. split; [reflexivity|]. split; [intros x []|]. intros _. constructor.
Qed.
Lemma dirI_latest ws d : dirI ws d -> latest C h klen ws d.
Proof using. unfold dirI, latest. destruct (rev ws); [auto|]. intros (q & A & B & _). split; assumption. Qed.
Lemma history we re sd l : Forall sized_call l ->
  let p := calls C l (cs_new we re suite sd) in
  scheduled (p_keys p) /\ latest C h klen (written sd (p_keys p)) (cs_w (p_obj p)) /\
  latest C h klen (written (other_side sd) (p_keys p)) (cs_r (p_obj p)).
Proof using Hs Hh It Il.
  intro F. cbv zeta. destruct (Inv_calls sd l _ (Inv_new we re sd) F) as (_ & _ & P & W & R & _). unfold calls.
  split; [|split; apply dirI_latest; assumption].
  destruct P as [(_ & -> & _)|[(_ & e & -> & O & _)|(_ & e & sh & th & ms & -> & O & M & _)]]; cbn; auto.
Qed.
Lemma nonces_once we re sd l : Forall sized_call l ->
  let p := calls C l (cs_new we re suite sd) in
  NoDup (map key (written sd (p_keys p))) -> NoDup (map key_nonce (p_seals p)).
Proof using Hs Hh It Il. intro F. cbv zeta. destruct (Inv_calls sd l _ (Inv_new we re sd) F) as (_ & _ & _ & _ & _ & _ & N). exact N. Qed.
Lemma seals_under we re sd l s : Forall sized_call l -> In s (p_seals (calls C l (cs_new we re suite sd))) ->
  exists w, In w (written sd (p_keys (calls C l (cs_new we re suite sd)))) /\ se_key s = key w.
Proof using Hs Hh It Il.
  intros F I. destruct (Inv_calls sd l _ (Inv_new we re sd) F) as (_ & _ & _ & _ & _ & S & _).
  destruct (S s I) as (_ & K & _). apply in_map_iff in K. destruct K as (w & E & W). exists w. auto.
Qed.
End hist.
