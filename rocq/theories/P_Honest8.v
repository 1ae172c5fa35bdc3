From Verif Require Import Base Iana Crypto Config Ext Msg Cipher Kex Sig Ocsp Transcript Conn S_Hist S_Conn S_Send S_Auth S_Server S_Deliver S_Keys S_Utils S_Codec S_Honest P_Base P_Hist P_Tr P_Auth P_Neg P_Refuse P_Codec P_Keys P_Send P_Deliver P_Split P_Honest P_Honest2 P_Honest3 P_Honest4 P_Honest5 P_Honest6 P_Honest7.

Lemma mk_hello_ok C g host group share unique : blen unique = 32 -> g_suites g <> [] ->
  Forall (fun p => Forall (fun c => 32 <= bN c <= 126) p) (g_alpn g) -> host_fine C host -> g_public g = None -> g_trusted_keys g = [] ->
  mk_client_hello unique (g_suites g) (client_extensions C g host None (group, share)) =
    Ok (HClientHello unique [] (g_suites g) (client_extensions C g host None (group, share))).
Proof.
  intros Lu Ns Ha Hh Hp Ht. pose proof (client_extensions_ok C g host None (group, share) Ha Hh) as [K _].
  unfold mk_client_hello. rewrite (ext_dict_nodup _ K), Lu. change (negb (32 =? 32)) with false. cbv iota.
  destruct (g_suites g) eqn:Es; [congruence|]. cbn [is_nil]. rewrite PeanoNat.Nat.eqb_refl. cbn [negb andb].
  rewrite (ce_get C g host group share Hp Ht PRE_SHARED_KEY). reflexivity.
Qed.

Record ready_deal (C : crypto) (d : deal) (lim klen : N) : Prop := {
  rd_agreed : agreed C d;
  rd_table : In (dl_suite d, (dl_h d, klen)) suite_table;
  rd_limit : usage_limit (dl_suite d) = Some lim;
  rd_fs : dl_fs d = cr_hmac C (dl_h d) (finished_key C (dl_h d) (hs_traffic C (dl_h d) Server (dl_z d) (cr_hash C (dl_h d) (m_sh d)))) (cr_hash C (dl_h d) (m_cv d));
  rd_fc : dl_fc d = cr_hmac C (dl_h d) (finished_key C (dl_h d) (hs_traffic C (dl_h d) Client (dl_z d) (cr_hash C (dl_h d) (m_sh d)))) (cr_hash C (dl_h d) (m_sf d)) }.

Lemma alpn_pick gc gs : g_alpn gc = [] \/ g_alpn gs = [] \/ (exists p, In p (g_alpn gc) /\ In p (g_alpn gs)) ->
  exists al, match al with
    | Some p => is_nil (g_alpn gc) = false /\ is_nil (g_alpn gs) = false /\
                find (fun p => memB p (g_alpn gc)) (g_alpn gs) = Some p /\ memB p (g_alpn gc) = true
    | None => is_nil (g_alpn gc) = true \/ is_nil (g_alpn gs) = true
    end.
Proof.
  intros [H|[H|(p & I1 & I2)]]; [exists None; left; rewrite H; reflexivity | exists None; right; rewrite H; reflexivity|].
  destruct (find (fun p => memB p (g_alpn gc)) (g_alpn gs)) as [q|] eqn:F.
  - exists (Some q). pose proof (find_some _ _ F) as [_ Q]. split; [destruct (g_alpn gc); [destruct I1 | reflexivity]|].
    split; [destruct (g_alpn gs); [destruct I2 | reflexivity]|]. split; [reflexivity | exact Q].
  - pose proof (find_none _ _ F p I2) as K. cbn beta in K. apply memB_iff in I1. congruence.
Qed.

Lemma deal_made C gc gs c s : honest_crypto C -> compatible C gc gs c s -> wide_fragments gc -> first_share gc gs -> no_ccm gc gs ->
  exists d lim klen hlc hls, ready_deal C d lim klen /\ dl_gc d = gc /\ dl_gs d = gs /\
    c = c_start d (map (fun h => (h, [])) hlc) /\
    s = mkConn gs None (dl_socsp d) None None None (mkTr (map (fun h => (h, [])) hls) 1) [] [] [] [] None (Some (dl_su d)) ServerStart (dl_srng d) 0 [] [] /\
    hlc <> [] /\ In (dl_h d) hlc /\ In (dl_h d) hls.
Proof.
  intros HC K Mc Sh Nccm. destruct (cp_created _ _ _ _ _ K) as [Cc Cs]. destruct (cp_sides _ _ _ _ _ K) as [Sc Ss].
  destruct (cp_randoms _ _ _ _ _ K) as [(cu & Ecu & Lcu) (su & Esu & Lsu & Nsu)].
  assert (Ms : g_mfl gs = 16384).
  { destruct Cs as (Ck & _). unfold check_config in Ck. apply rbind_ok in Ck as (u & _ & Ck). rewrite Ss in Ck. unfold check_server in Ck.
    destruct (g_mfl gs =? 16384) eqn:E; [apply N.eqb_eq; exact E | discriminate]. }
  pose proof (created_cases _ _ Cc) as Kc. pose proof (created_cases _ _ Cs) as Ks.
  destruct Kc as [(_ & host & cocsp & cu' & crng & tc & Ec & flipc & Etc)|(X & _)]; [|congruence].
  destruct Ks as [(X & _)|(_ & socsp & su' & srng & ts & Es & flips & Ets)]; [congruence|].
  subst c s. cbn [c_cunique c_sunique] in Ecu, Esu. injection Ecu; intros ->. injection Esu; intros ->. clear Ecu Esu.
  destruct (tr_new_has _ _ _ Etc) as (hlc & Nhc & -> & Hhc). destruct (tr_new_has _ _ _ Ets) as (hls & Nhs & -> & Hhs).
  destruct Nccm as (suite & Ps & Is). destruct Sh as (group & Hg & Pg). destruct (cp_group _ _ _ _ _ K) as (group' & Pg' & Dh).
  rewrite (prefers_unique _ _ _ _ _ Pg' Pg) in Dh. destruct (Dh 0 0) as (pa & pb & z & Ka & Kb & Kz & Kz' & Nz & Lpa & Lpb). clear Dh Pg' group'.
  cbn [c_rng c_rngi] in Ka, Kb, Kz, Kz'.
  destruct (cp_codes _ _ _ _ _ K) as (Ln & Cg & Csg). destruct (cp_auth _ _ _ _ _ K) as (Hpub & Htk & Htr & Htks).
  destruct (cp_cert _ _ _ _ _ K) as (leaf & rest & key & st & Ech & Epr & Fl & (sg & Psg & Hsign) & Sta & Lch & Tru). cbn [c_ocsp] in Sta.
  destruct (cp_alpn _ _ _ _ _ K) as (Fa & La & Ha). destruct (cp_host _ _ _ _ _ K) as [Hh Lh]. cbn [c_host] in Hh, Lh.
  destruct (alpn_pick gc gs Ha) as (al & Al).
  pose proof (prefers_ok _ _ _ _ Ps) as Isc. cbn beta in Isc. pose proof (prefers_in _ _ _ _ Ps) as Iss.
  destruct (Hhc suite Isc) as (h & Eh & Ihc). destruct (Hhs suite Iss) as (h' & Eh' & Ihs). assert (h' = h) by congruence. subst h'.
  destruct (prefers_ok _ _ _ _ Psg) as [Isg1 Isg2].
  destruct (scheme_small _ _ Isg1) as (Lsg & Msg & algs & Ealgs & Eal).
  assert (exists klen lim, In (suite, (h, klen)) suite_table /\ usage_limit suite = Some lim) as (klen & lim & It & Ul).
  { cbn [In] in Is. destruct Is as [<-|[<-|[<-|[]]]]; vm_compute in Eh; injection Eh; intros <-; eexists; eexists; (split; [vm_compute; eauto 6 | reflexivity]). }
  pose proof (kx_named _ _ _ _ Ka) as Ng. pose proof (named_small _ Ng) as Lg.
  assert (Fa1 : Forall (fun p => blen p <= 255) (g_alpn gc)) by (eapply Forall_impl; [|exact Fa]; cbn; tauto).
  assert (Fa2 : Forall (fun p => Forall (fun c => 32 <= bN c <= 126) p) (g_alpn gc)) by (eapply Forall_impl; [|exact Fa]; cbn; tauto).
  assert (Fsu : Forall (fun x => x < 65536) (g_suites gc)).
  { apply Forall_forall. intros x Ix. destruct (Hhc x Ix) as (hx & Ehx & _). exact (suite_hash_small _ _ Ehx). }
  assert (Nsuites : g_suites gc <> []) by (intro E; rewrite E in Isc; destruct Isc).
  destruct (client_hello_fits C cu (g_suites gc) (client_extensions C gc host None (group, pa)) Lcu Ln Fsu
    (client_extensions_fit C gc host group pa Cg Csg Fa1 La Hh Lh Hpub Htk Lg Lpa)) as (ch & Ech').
  destruct (server_hello_fits C su suite group pb Lsu (suite_hash_small _ _ Eh) Lg Lpb) as (sh & Esh & Lshl).
  set (th := cr_hash C h (ch ++ sh)).
  assert (Lal : match al with Some p => blen p <= 255 | None => True end).
  { destruct al as [p|]; [|exact I]. destruct Al as (_ & _ & _ & Ip). apply memB_iff in Ip. rewrite Forall_forall in Fa1. exact (Fa1 p Ip). }
  assert (Pal : match al with Some p => Forall (fun c => 32 <= bN c <= 126) p | None => True end).
  { destruct al as [p|]; [|exact I]. destruct Al as (_ & _ & _ & Ip). apply memB_iff in Ip. rewrite Forall_forall in Fa2. exact (Fa2 p Ip). }
  assert (Lhb : heartbeat_mode gs < 256 /\ In (heartbeat_mode gs) [1; 2]) by (unfold heartbeat_mode; destruct (g_echo gs); split; vm_compute; auto).
  destruct Lhb as [Lhb Ihb].
  destruct (enc_exts_fit C al (heartbeat_mode gs) Lal Lhb) as (ee & Eee & Lee).
  destruct (certificate_fits C leaf rest st Lch) as (ce & Ece & Lce).
  destruct (Hsign (certificate_verify_server ++ cr_hash C h (((ch ++ sh) ++ ee) ++ ce))) as (sig & Esig & Lsig & Ever).
  destruct (cert_verify_fits C sg sig Lsg Lsig) as (cv & Ecv & Lcv).
  set (fs := cr_hmac C h (finished_key C h (hs_traffic C h Server z th)) (cr_hash C h ((((ch ++ sh) ++ ee) ++ ce) ++ cv))).
  assert (Lfs : forall k m, blen (cr_hmac C h k m) <= 64) by (intros k m; rewrite (hc_hmac _ HC); destruct h; vm_compute; discriminate).
  destruct (finished_fits C fs (Lfs _ _)) as (sf & Esf & Lsf).
  set (fc := cr_hmac C h (finished_key C h (hs_traffic C h Client z th)) (cr_hash C h (((((ch ++ sh) ++ ee) ++ ce) ++ cv) ++ sf))).
  destruct (finished_fits C fc (Lfs _ _)) as (cf & Ecf & Lcf).
  set (d := mkDeal gc gs host cocsp socsp cu su crng srng suite h group pa pb z leaf rest key st sg sig al fs fc ch sh ee ce cv sf cf).
  exists d, lim, klen, hlc, hls.
  split; [|split; [reflexivity|]; split; [reflexivity|]; split; [reflexivity|]; split; [reflexivity|]; split; [exact Nhc|]; split; [exact Ihc | exact Ihs]].
  assert (Rt : forall p m b, message_ok C p m -> ser_content C (KHandshake m) = Ok b -> parse_content C p CT_HANDSHAKE b = Ok (KHandshake m)).
  { intros p m b O E. exact (content_roundtrip C p (KHandshake m) b O E). }
  constructor; [|exact It | exact Ul | reflexivity | reflexivity].
  constructor; cbn [dl_gc dl_gs dl_host dl_cocsp dl_socsp dl_cu dl_su dl_crng dl_srng dl_suite dl_h dl_group dl_pa dl_pb dl_z dl_leaf dl_rest dl_key dl_st dl_sg dl_sig dl_al dl_fs dl_fc dl_ch dl_sh dl_ee dl_ce dl_cv dl_sf dl_cf d]; try assumption.
  - unfold wide_fragments in Mc. cbn [In] in Mc. destruct Mc as [<-|[<-|[]]]; lia.
  - apply prefers_first. exact Ps.
  - apply memN_iff. exact Isc.
  - apply prefers_first. exact Pg.
  - destruct (g_groups gc) as [|g0 l]; [discriminate|]. injection Hg; intros <-. exists l. reflexivity.
  - exists algs. split; [exact Ealgs|]. subst algs. eapply prefers_find; [|exact Psg]. intro y. rewrite andb_true_iff, !memN_iff. reflexivity.
  - intros c0 n0 E1 E2. exact (staple_ok _ _ _ _ _ _ _ Sta E1 E2).
  - apply mk_hello_ok; assumption.
  - intro p. apply Rt; [|exact Ech']. apply (client_hello_ok C p gc host None (group, pa) cu); try assumption. apply mk_hello_ok; assumption.
  - intro p. apply Rt; [|exact Esh]. apply sh_ok; assumption.
  - intro p. apply Rt; [|exact Eee]. apply ee_ok; assumption.
  - apply Rt; [|exact Ece]. apply ce_ok; assumption.
  - intro p. apply Rt; [|exact Ecv]. exact I.
  - intro p. apply Rt; [|exact Esf]. exact I.
  - intro p. apply Rt; [|exact Ecf]. exact I.
  - intro Rp. apply (check_ok _ _ _ _ _ _ _ _ Tru Sta). unfold require_peer_auth in Rp. rewrite Htk in Rp. cbn in Rp. rewrite orb_false_r in Rp. exact Rp.
  - apply memN_iff. exact Isg2.
  - unfold suite_verify. rewrite Msg. exact Ever.
  - split; [exact Lshl | lia].
  - repeat split; lia.
Qed.
