(* Round trips of extensions and messages. *)
From Verif Require Import Base P_Base Iana Serial S_Serial P_Serial Crypto Ext Msg Config Conn S_Codec.

Lemma reads_limit_at {A} n (body : N -> stream -> res (A * stream)) b x :
  n = blen b ->
  (forall s post, rest s = b ++ post -> s_limits s <> [] -> bounded s (blen b) post -> body (s_pos s + blen b) s = Ok (x, adv s (blen b))) ->
  reads (with_limit n body) b x.
Proof.
  intros -> H s post HR HB. unfold with_limit.
  assert (match s_limits s with [] => false | lim :: _ => lim <? s_pos s + blen b end = false) as E.
  { unfold P_Serial.room in HB. destruct (s_limits s); [reflexivity|]. apply N.ltb_ge. exact HB. }
  rewrite E.
  assert (X := H (mkStream (s_data s) (s_pos s) (s_pos s + blen b :: s_limits s)) post HR ltac:(discriminate) eq_refl).
  cbn [s_pos] in X. cbv zeta. rewrite X.
  cbn. rewrite !N.eqb_refl. reflexivity.
Qed.

(* specialised readers *)
Lemma r_int n v b : to_bytes (S n) v = Ok b -> reads (read_int (N.of_nat (S n))) b v.
Proof. intro H. apply to_bytes_ok in H as (-> & L & _). apply reads_int; [discriminate | exact L]. Qed.
Lemma r_var n d b : put_var (S n) d = Ok b -> reads (read_var (N.of_nat (S n))) b d.
Proof. intro H. apply put_var_ok in H as (-> & L). apply reads_var; [discriminate | exact L]. Qed.
Lemma r_enum n l bad v b : to_bytes (S n) v = Ok b -> In v l -> reads (read_enum (N.of_nat (S n)) l bad) b v.
Proof.
  intros H I s post HR HB. unfold read_enum. rewrite (r_int _ _ _ H s post HR HB). cbn [rbind].
  rewrite (proj2 (memN_In v l) I). reflexivity.
Qed.
Lemma r_ints n m l b : put_ints (S n) (S m) l = Ok b -> reads (read_listint (N.of_nat (S n)) (N.of_nat (S m))) b l.
Proof. intro H. apply reads_listint; [discriminate | discriminate | exact H]. Qed.
Lemma put_var_ne n b r : put_var (S n) b = Ok r -> r <> [].
Proof. intro H. apply put_var_ok in H as (-> & _). cbn [be_bytes]. destruct (be_bytes n _); discriminate. Qed.
Lemma to_bytes_ne n v r : to_bytes (S n) v = Ok r -> r <> [].
Proof. intro H. apply to_bytes_ok in H as (-> & _). cbn [be_bytes]. destruct (be_bytes n _); discriminate. Qed.
Lemma r_listvar n m l x b : join_map (put_var (S m)) l = Ok x -> put_var (S n) x = Ok b ->
  reads (read_listvar (N.of_nat (S n)) (N.of_nat (S m))) b l.
Proof.
  intros H1 H2. apply reads_listvar; [discriminate | discriminate|]. unfold write_listvar. rewrite H1. cbn [rbind].
  unfold put_var in H2. exact H2.
Qed.
Ltac rr L := let X := fresh in pose proof L as X; cbn [N.of_nat Pos.of_succ_nat Pos.succ] in X; rewrite X; clear X.
Ltac inv1 H :=
  match type of H with
  | rbind _ _ = Ok _ => let x := fresh "b" in let E := fresh "E" in apply rbind_ok in H as [x [E H]]
  | Ok _ = Ok _ => injection H; clear H; intro H
  | Err _ = Ok _ => discriminate H
  end.
Ltac invr H := repeat inv1 H.

Lemma list_hosts C h b : plain_host C h -> put_host_name C h = Ok b -> parse_list (parse_server_name C) b = Ok [Some h].
Proof.
  intros (e & E1 & E2 & E3) H. unfold put_host_name in H. invr H. rewrite E1 in E4. injection E4; intros <-. subst b.
  rewrite <- E3 in E0. clear E4.
  assert (R : reads (parse_server_name C) (b0 ++ b1 ++ e) (Some h)).
  { unfold parse_server_name. eapply reads_bind; [apply (r_int 0); exact E|]. cbn [N.eqb negb].
    eapply reads_ext; [intro; reflexivity|].
    intros s post HR HB.
    assert (P : put_var 2 e = Ok (b1 ++ e)) by (unfold put_var; rewrite E0; reflexivity).
    rr (r_var 1 _ _ P s post HR HB). cbn [rbind]. rewrite E2. reflexivity. }
  pose proof (to_bytes_ne _ _ _ E) as Ne.
  pose proof (parse_list_reads (parse_server_name C) [b0 ++ b1 ++ e] [Some h]) as P. cbn [concat] in P. rewrite app_nil_r in P.
  apply P. constructor; [|constructor]. split; [exact R|]. destruct b0; [congruence | discriminate].
Qed.

Lemma shares_reads l b : NoDup (map fst l) ->
  join_map (fun p => let* g := to_bytes 2 (fst p) in let* k := put_var 2 (snd p) in Ok (g ++ k)) l = Ok b ->
  parse_shares (length b) [] (stream_of b) = Ok l.
Proof.
  intros ND H. apply join_map_concat in H as [bs [-> HF]].
  assert (G : forall l bs, Forall2 (fun p y => (let* g := to_bytes 2 (fst p) in let* k := put_var 2 (snd p) in Ok (g ++ k)) = Ok y) l bs ->
    forall fuel seen s, NoDup (map fst l) -> (forall g, In g seen -> ~ In g (map fst l)) ->
    rest s = concat bs -> s_limits s = [] -> (length (concat bs) <= fuel)%nat -> s_pos s <= blen (s_data s) ->
    parse_shares fuel seen s = Ok l).
  { clear. induction 1 as [|[g k] y l bs Hy HF IH]; intros fuel seen s ND Hs HR HL Hf Hp.
    - assert (is_eof s = true) as E.
      { unfold is_eof. apply N.eqb_eq. unfold rest in HR. cbn in HR.
        pose proof (blen_bdrop (s_pos s) (s_data s)) as HH. rewrite HR in HH. change (blen []) with 0 in HH. lia. }
      destruct fuel; cbn; rewrite E; reflexivity.
    - cbn [fst snd] in Hy. apply rbind_ok in Hy as [bg [Eg Hy]]. apply rbind_ok in Hy as [bk [Ek Hy]]. injection Hy; clear Hy; intros <-.
      cbn [concat] in HR, Hf. rewrite app_length in Hf.
      assert (blen (bg ++ bk) > 0) as Hb.
      { rewrite blen_app. pose proof (to_bytes_ne _ _ _ Eg). destruct bg; [congruence|]. rewrite blen_cons. lia. }
      assert (is_eof s = false) as E.
      { unfold is_eof. apply N.eqb_neq. intros E. unfold rest in HR.
        pose proof (blen_bdrop (s_pos s) (s_data s)) as HH. rewrite HR in HH. rewrite (blen_app (bg ++ bk)) in HH. lia. }
      destruct fuel as [|fuel]. { unfold blen in Hb. lia. }
      cbn [parse_shares]. rewrite E.
      assert (R : reads parse_share (bg ++ bk) (g, k)).
      { unfold parse_share. eapply reads_bind; [apply (r_int 1); exact Eg|]. rewrite <- (app_nil_r bk).
        eapply reads_bind; [apply (r_var 1); exact Ek | apply reads_ret]. }
      rewrite (R s (concat bs) HR) by (unfold P_Serial.room; rewrite HL; trivial). cbn [rbind fst].
      cbn [map fst] in ND, Hs. inversion ND as [|? ? Ni ND']; subst.
      assert (memN g seen = false) as ->.
      { apply memN_false. intro I. apply (Hs _ I). left. reflexivity. }
      rewrite (IH fuel (g :: seen) (adv s (blen (bg ++ bk)))).
      + reflexivity.
      + exact ND'.
      + intros g' [<-|I]; [exact Ni|]. intro I'. apply (Hs _ I). right. exact I'.
      + apply rest_adv_app. exact HR.
      + exact HL.
      + unfold blen in Hb. lia.
      + unfold adv, with_pos. cbn. pose proof (blen_bdrop (s_pos s) (s_data s)) as HH.
        unfold rest in HR. rewrite HR in HH. rewrite blen_app in HH. lia. }
  eapply G; [exact HF | exact ND | intros ? [] | reflexivity | reflexivity | lia | cbn; lia].
Qed.

Lemma registry_none ty : ~ In ty (map fst rfc_places) -> registry ty = None.
Proof.
  intro H. unfold registry.
  repeat (match goal with |- (if ?a =? ?b then _ else _) = None => destruct (N.eqb_spec a b) as [->|_]; [exfalso; apply H; vm_compute; tauto|] end).
  reflexivity.
Qed.

(* bodies of the extensions *)
Definition cls_of (e : ext) : ecls :=
  match e with
  | EServerNameReq _ => CServerNameReq | EServerNameResp => CServerNameResp | EMaxFragLen _ => CMaxFragLen
  | EStatusReq _ _ => CStatusReq | EOcspStatus _ => CStatus | ESupportedGroups _ => CSupportedGroups
  | ESigAlgs _ => CSigAlgs | ESigAlgsCert _ => CSigAlgsCert | EHeartbeat _ => CHeartbeatExt | EAlpn _ => CAlpn
  | ESct => CSct | EClientCertTypeReq _ => CClientCertTypeReq | EClientCertTypeResp _ => CClientCertTypeResp
  | EServerCertTypeReq _ => CServerCertTypeReq | EServerCertTypeResp _ => CServerCertTypeResp
  | EPadding _ => CPadding | EPskReq _ _ => CPskReq | EPskResp _ => CPskResp | EEarlyData => CEarlyData
  | ENewSessionEarlyData _ => CNewSessionEarlyData | ESupVersionsReq _ => CSupVersionsReq
  | ESupVersionsResp _ => CSupVersionsResp | ECookie _ => CCookie | EPskModes _ => CPskModes
  | EOidFilters _ => COidFilters | EPostHandshakeAuth => CPostHandshakeAuth | EKeyShareReq _ => CKeyShareReq
  | EKeyShareRetry _ => CKeyShareRetry | EKeyShareResp _ _ => CKeyShareResp | EUnknown _ _ => CUnknownExt
  end.
Lemma registry_home e h l : home e = Some l -> In h l -> exists f, registry (ext_type e) = Some f /\ f h = Some (cls_of e).
Proof.
  destruct e; intro H; try discriminate H; injection H; intros <- I; cbn [In] in I;
  repeat (destruct I as [<-|I]; [eexists; split; vm_compute; reflexivity|]); destruct I.
Qed.

Ltac fin := rewrite <- ?app_nil_r; reflexivity.
Lemma body_roundtrip C e b : sound C e -> ser_ext_body C e = Ok b -> reads_end (parse_ext_body C (ext_type e) (cls_of e)) b e.
Proof.
  intros S H.
  assert (one : forall A (p : stream -> res (A * stream)) (k : A -> ext) b x, reads p b x ->
    reads_end (fun s => let* (x, s1) := p s in Ok (k x, s1)) b (k x)).
  { intros A p k b0 x R. apply reads_reads_end. rewrite <- (app_nil_r b0). eapply reads_bind; [exact R | apply reads_ret]. }
  assert (nil : forall x : ext, reads_end (fun s => Ok (x, s)) [] x) by (intro; apply reads_reads_end, reads_ret).
  destruct e; cbn [ser_ext_body cls_of sound] in *; try discriminate H; try contradiction;
  try (injection H; intros <-; apply nil).
  - (* server name *)
    destruct host as [h|]; invr H.
    + apply reads_reads_end. cbv beta iota delta [parse_ext_body cls_of]. intros s post HR HB. rr (r_var 1 _ _ H s post HR HB). cbn [rbind].
      rewrite (list_hosts C h _ S E). reflexivity.
    + apply reads_reads_end. cbv beta iota delta [parse_ext_body cls_of]. intros s post HR HB. injection E; intros <-. rr (r_var 1 _ _ H s post HR HB). reflexivity.
  - apply (one _ (read_enum 1 [1; 2; 3; 4] ILLEGAL_PARAMETER) EMaxFragLen), (r_enum 0); assumption.
  - (* status request *) invr H. subst b. apply reads_reads_end. cbv beta iota delta [parse_ext_body cls_of].
    eapply reads_bind; [apply (r_enum 0); [exact E | left; reflexivity]|]. cbv beta.
    eapply reads_bind; [eapply (r_listvar 1 1); eassumption|]. cbv beta. rewrite <- (app_nil_r b3).
    eapply reads_bind; [apply (r_var 1); eassumption | apply reads_ret].
  - invr H. subst b. apply reads_reads_end. cbv beta iota delta [parse_ext_body cls_of].
    eapply reads_bind; [apply (r_enum 0); [exact E | left; reflexivity]|]. cbv beta. rewrite <- (app_nil_r b1).
    eapply reads_bind; [apply (r_var 2); eassumption | apply reads_ret].
  - apply (one _ (read_listint 2 2) ESupportedGroups), (r_ints 1 1); assumption.
  - apply (one _ (read_listint 2 2) ESigAlgs), (r_ints 1 1); assumption.
  - apply (one _ (read_listint 2 2) ESigAlgsCert), (r_ints 1 1); assumption.
  - apply (one _ (read_enum 1 [1; 2] ILLEGAL_PARAMETER) EHeartbeat), (r_enum 0); assumption.
  - (* alpn *) invr H. apply reads_reads_end. cbv beta iota delta [parse_ext_body cls_of]. intros s post HR HB.
    rr (r_listvar 1 0 _ _ _ E H s post HR HB). cbn [rbind].
    assert (filter printable l = l) as ->; [|reflexivity].
    clear - S. induction S as [|p l Hp _ IH]; [reflexivity|]. cbn [filter].
    assert (printable p = true) as ->; [|rewrite IH; reflexivity].
    unfold printable. apply forallb_forall. intros c I. rewrite Forall_forall in Hp. specialize (Hp c I).
    apply andb_true_iff. split; apply N.leb_le; lia.
  - (* padding *) injection H; intros <-. cbv beta iota delta [parse_ext_body cls_of]. intros s post HR HB. pose proof (reads_end_all (zeros n) s post HR HB) as R.
    injection R; intro R'. rewrite R'. rewrite blen_zeros. reflexivity.
  - apply (one _ (read_int 2) EPskResp), (r_int 1); assumption.
  - apply (one _ (read_int 4) ENewSessionEarlyData), (r_int 3); assumption.
  - apply (one _ (read_listint 1 2) ESupVersionsReq), (r_ints 0 1); assumption.
  - (* version *) subst v. apply reads_reads_end. cbv beta iota delta [parse_ext_body cls_of]. intros s post HR HB.
    rr (r_enum 1 tls_versions ILLEGAL_PARAMETER TLS_1_3 _ H ltac:(vm_compute; tauto) s post HR HB). reflexivity.
  - apply (one _ (read_var 2) ECookie), (r_var 1); assumption.
  - apply (one _ (read_listint 1 1) EPskModes), (r_ints 0 0); assumption.
  - (* oid filters *) invr H. apply reads_reads_end. cbv beta iota delta [parse_ext_body cls_of]. intros s post HR HB. rr (r_var 1 _ _ H s post HR HB). cbn [rbind].
    assert (parse_list parse_oid_filter b0 = Ok l) as ->; [|reflexivity].
    rewrite <- (map_id l) at 1. eapply parse_list_join; [|exact E]. intros [x y] z _ Hz. cbn [fst snd] in Hz. invr Hz. subst z.
    split; [|pose proof (put_var_ne _ _ _ E0); destruct b1; [congruence | discriminate]].
    unfold parse_oid_filter. eapply reads_bind; [apply (r_var 0); exact E0|]. rewrite <- (app_nil_r b2).
    eapply reads_bind; [apply (r_var 1); exact E1 | apply reads_ret].
  - (* key shares *) invr H. apply reads_reads_end. cbv beta iota delta [parse_ext_body cls_of]. intros s post HR HB. rr (r_var 1 _ _ H s post HR HB). cbn [rbind].
    rewrite (shares_reads l _ S E). reflexivity.
  - apply (one _ (read_enum 2 named_groups ILLEGAL_PARAMETER) EKeyShareRetry), (r_enum 1); assumption.
  - invr H. subst b. apply reads_reads_end. cbv beta iota delta [parse_ext_body cls_of].
    eapply reads_bind; [apply (r_int 1); exact E|]. cbv beta. rewrite <- (app_nil_r b1).
    eapply reads_bind; [apply (r_var 1); exact E0 | apply reads_ret].
  - (* unknown *) injection H; intros <-. cbv beta iota delta [parse_ext_body cls_of]. intros s post HR HB. pose proof (reads_end_all data s post HR HB) as R.
    injection R; intro R'. rewrite R'. reflexivity.
Qed.

Lemma ext_roundtrip C h e b : ext_ok C h e -> ser_ext C e = Ok b -> reads (parse_ext C h) b e /\ b <> [].
Proof.
  intros [S Ho] H. unfold ser_ext in H. invr H. subst b. split.
  2:{ pose proof (to_bytes_ne _ _ _ E0). destruct b1; [congruence | discriminate]. }
  unfold parse_ext. eapply reads_bind; [apply (r_int 1); exact E0|]. cbv beta.
  pose proof (body_roundtrip C e b0 S E) as R.
  assert (X : reads (fun s => let* (len, s2) := read_int 2 s in with_limit len (fun _ => parse_ext_body C (ext_type e) (cls_of e)) s2) b2 e).
  { unfold put_var in E1. invr E1. subst b2. eapply reads_bind; [apply (r_int 1); exact E2|]. cbv beta.
    apply reads_limit. intro. exact R. }
  destruct (home e) as [l|] eqn:Eh.
  - destruct (registry_home e h l Eh Ho) as (f & -> & ->). exact X.
  - destruct e; try discriminate Eh. cbn [ext_type] in *. rewrite (registry_none _ Ho). exact X.
Qed.
Lemma exts_join C h l b : Forall (ext_ok C h) l -> join_map (ser_ext C) l = Ok b -> parse_list (parse_ext C h) b = Ok l.
Proof.
  intros F H. rewrite <- (map_id l) at 1. eapply parse_list_join; [|exact H]. intros x y I Hx.
  rewrite Forall_forall in F. apply ext_roundtrip; [apply F; exact I | exact Hx].
Qed.
Lemma exts_roundtrip C h l x b : Forall (ext_ok C h) l -> join_map (ser_ext C) l = Ok x -> put_var 2 x = Ok b -> reads (parse_exts C h) b l.
Proof. intros F H1 H2. unfold parse_exts. eapply reads_map; [apply (r_var 1); exact H2 | apply exts_join; assumption]. Qed.

Lemma dict_add_new e d : ~ In (ext_type e) (map ext_type d) -> dict_add e d = d ++ [e].
Proof.
  induction d as [|x d IH]; intro H; [reflexivity|]. cbn [dict_add map In] in *.
  destruct (N.eqb_spec (ext_type x) (ext_type e)); [tauto|]. rewrite IH by tauto. reflexivity.
Qed.
Lemma ext_dict_nodup l : NoDup (map ext_type l) -> ext_dict l = l.
Proof.
  intro H. unfold ext_dict.
  assert (G : forall l d, NoDup (map ext_type (d ++ l)) -> fold_left (fun d e => dict_add e d) l d = d ++ l).
  { clear. induction l as [|e l IH]; intros d H; [symmetry; apply app_nil_r|]. cbn [fold_left].
    assert (N0 : ~ In (ext_type e) (map ext_type d)).
    { rewrite map_app in H. cbn [map] in H. apply NoDup_remove_2 in H. intro I. apply H. apply in_or_app. left. exact I. }
    rewrite dict_add_new by exact N0. rewrite IH; [rewrite <- app_assoc; reflexivity|]. rewrite <- app_assoc. exact H. }
  exact (G l [] H).
Qed.
Lemma ext_get_none ty l : (forall e, In e l -> ext_type e <> ty) -> ext_get ty l = None.
Proof.
  induction l as [|x l IH]; intro H; [reflexivity|]. unfold ext_get in *. cbn [find].
  destruct (N.eqb_spec (ext_type x) ty) as [E|_]; [destruct (H x (or_introl eq_refl) E)|]. apply IH. intros e I. apply H. right. exact I.
Qed.
Lemma ext_get_some ty l e : ext_get ty l = Some e -> In e l /\ ext_type e = ty.
Proof. intro H. apply find_some in H as [I E]. apply N.eqb_eq in E. split; assumption. Qed.
Lemma ext_get_in l e : In e l -> opt_bool (ext_get (ext_type e) l) = true.
Proof.
  intro I. unfold ext_get. destruct (find _ l) eqn:E; [reflexivity|]. pose proof (find_none _ _ E _ I) as X. cbn in X. rewrite N.eqb_refl in X. discriminate.
Qed.
Lemma no_psk C l : Forall (ext_ok C NClientHello) l -> ext_get PRE_SHARED_KEY l = None.
Proof.
  intro F. apply ext_get_none. intros e I E. rewrite Forall_forall in F. destruct (F e I) as [S H].
  destruct e; try discriminate E.
  - destruct S.
  - cbn in H. destruct H as [H|[]]; discriminate H.
  - cbn [home] in H. apply H. rewrite E. vm_compute. tauto.
Qed.
Lemma get_sigalgs C h l x : Forall (ext_ok C h) l -> In (ESigAlgs x) l -> opt_bool (ext_get SIGNATURE_ALGORITHMS l) = true.
Proof.
  intros _ I. unfold ext_get. destruct (find _ l) eqn:E; [reflexivity|]. exfalso. pose proof (find_none _ _ E _ I) as X. discriminate X.
Qed.

(* messages *)
Lemma entry_roundtrip C ct e b : entry_ok C ct e -> ser_entry C e = Ok b -> reads (parse_entry C ct) b e /\ b <> [].
Proof.
  intros (Et & El & Nd & F) H. unfold ser_entry in H. invr H. subst b. split.
  2:{ pose proof (put_var_ne _ _ _ E0). destruct b1; [congruence | discriminate]. }
  unfold parse_entry. eapply reads_bind; [apply (r_var 2); exact E0|]. cbv beta.
  intros s post HR HB. rewrite El. cbn [rbind].
  rewrite (exts_roundtrip C NCertificate _ _ _ F E E1 s post HR HB). cbn [rbind].
  rewrite ext_dict_nodup by exact Nd. subst ct. destruct e; reflexivity.
Qed.
Lemma entries_roundtrip C ct l bs : Forall2 (fun e b => reads (parse_entry C ct) b e /\ b <> []) l bs ->
  forall fuel s post, rest s = concat bs ++ post -> bounded s (blen (concat bs)) post -> s_limits s <> [] -> (length (concat bs) <= fuel)%nat ->
  parse_entries fuel C ct (s_pos s + blen (concat bs)) s = Ok (l, adv s (blen (concat bs))).
Proof.
  induction 1 as [|e b l bs [R Ne] F IH]; intros fuel s post HR HB HL Hf.
  - cbn [concat] in *. change (blen []) with 0 in *. rewrite N.add_0_r, adv_0. destruct fuel; cbn; rewrite N.ltb_irrefl; reflexivity.
  - cbn [concat] in *. rewrite app_length in Hf. rewrite <- app_assoc in HR. rewrite blen_app in *.
    assert (0 < blen b) as Lb. { destruct b; [congruence|]. rewrite blen_cons. lia. }
    destruct fuel as [|fuel]. { unfold blen in Lb. lia. }
    cbn [parse_entries]. replace (s_pos s <? s_pos s + (blen b + blen (concat bs))) with true by (symmetry; apply N.ltb_lt; lia).
    rewrite (R s _ HR) by (apply (room_le s (blen b + blen (concat bs))); [eapply bounded_room; exact HB | lia]).
    cbn [rbind].
    pose proof (IH fuel (adv s (blen b)) post) as X. cbn [s_pos adv with_pos] in X.
    rewrite <- N.add_assoc in X. change (mkStream (s_data s) (s_pos s + blen b) (s_limits s)) with (adv s (blen b)) in X.
    rewrite X.
    + cbn [rbind]. change (with_pos s (s_pos s + blen b)) with (adv s (blen b)). rewrite adv_adv. reflexivity.
    + change (with_pos s (s_pos s + blen b)) with (adv s (blen b)). apply rest_adv_app. exact HR.
    + apply bounded_adv. exact HB.
    + exact HL.
    + unfold blen in Lb. lia.
Qed.

Lemma eqb_false_negb a b : a = b -> negb (a =? b) = false.
Proof. intros ->. rewrite N.eqb_refl. reflexivity. Qed.

Lemma hs_roundtrip C pct h b : message_ok C pct h -> ser_hs C h = Ok b -> reads (parse_hs C pct) b h.
Proof.
  intros K H. unfold ser_hs in H. inv1 H. destruct (msg_type h) as [ty|] eqn:Em; [|discriminate H].
  invr H. subst b. unfold parse_hs.
  eapply reads_bind; [apply (r_int 0); exact E0|]. cbv beta.
  unfold put_var in E1. invr E1. subst b2. eapply reads_bind; [apply (r_int 2); exact E2|]. cbv beta zeta.
  destruct h; cbn [msg_type] in Em; try discriminate Em; injection Em; intros <-; cbn [ser_hs_body message_ok] in *.
  - (* client hello *) change (reads (with_limit (blen b0) (fun _ => parse_client_hello C)) b0 (HClientHello random sid suites exts)).
    apply reads_limit. intro. apply reads_reads_end. destruct K as (Lr & Ns & Nd & F). invr E. subst b0.
    unfold parse_client_hello. eapply reads_bind; [apply (r_int 1); exact E3|]. cbn [N.eqb negb]. change (TLS_1_2 =? TLS_1_2) with true. cbn [negb].
    eapply reads_bind; [apply reads_exactly'; symmetry; exact Lr|]. cbv beta.
    eapply reads_bind; [apply (r_var 0); exact E4|]. cbv beta.
    eapply reads_bind; [apply (r_ints 1 1); exact E5|]. cbv beta.
    eapply reads_bind; [apply (r_var 0); exact E6|]. cbv beta. change (beqb [x00] [x00]) with true. cbn [negb].
    intros s post HR HB. rewrite (exts_roundtrip C NClientHello _ _ _ F E1 E7 s post HR HB). cbn [rbind].
    unfold mk_client_hello. rewrite ext_dict_nodup by exact Nd. rewrite eqb_false_negb by exact Lr.
    replace (is_nil suites) with false by (symmetry; apply is_nil_false; exact Ns).
    rewrite PeanoNat.Nat.eqb_refl. cbn [negb andb]. rewrite (no_psk C _ F). reflexivity.
  - (* server hello *) change (reads (with_limit (blen b0) (fun _ => parse_server_hello C)) b0 (HServerHello hrr random sid suite exts)).
    apply reads_limit. intro. apply reads_reads_end. destruct K as (Lr & Hr & Nd & F). invr E. subst b0.
    unfold parse_server_hello. eapply reads_bind; [apply (r_int 1); exact E3|]. cbv beta. change (TLS_1_2 =? TLS_1_2) with true. cbn [negb].
    eapply reads_bind; [apply reads_exactly'; symmetry; exact Lr|]. cbv beta zeta.
    eapply reads_bind; [apply (r_var 0); exact E4|]. cbv beta.
    eapply reads_bind; [apply (r_int 1); exact E5|]. cbv beta.
    eapply reads_bind; [apply (r_int 0); exact E6|]. cbv beta. change (0 =? 0) with true. cbn [negb].
    assert (beqb random hrr_random = hrr) as ->.
    { destruct hrr. - apply beqb_eq, Hr. reflexivity. - apply beqb_neq. intro X. apply Hr in X. discriminate X. }
    intros s post HR HB. rewrite (exts_roundtrip C _ _ _ _ F E1 E7 s post HR HB). cbn [rbind].
    rewrite ext_dict_nodup by exact Nd. reflexivity.
  - (* encrypted extensions *) change (reads (with_limit (blen b0) (fun _ => parse_enc_ext C)) b0 (HEncExt exts)).
    apply reads_limit. intro. apply reads_reads_end. destruct K as (Nd & F). unfold ser_exts in E. invr E.
    unfold parse_enc_ext. intros s post HR HB. rewrite (exts_roundtrip C _ _ _ _ F E1 E s post HR HB). cbn [rbind].
    rewrite ext_dict_nodup by exact Nd. reflexivity.
  - (* certificate request *) change (reads (with_limit (blen b0) (fun _ => parse_cert_request C)) b0 (HCertReq ctx exts)).
    apply reads_limit. intro. apply reads_reads_end. destruct K as ((Nd & F) & l & I). invr E. subst b0.
    unfold parse_cert_request. eapply reads_bind; [apply (r_var 0); exact E3|]. cbv beta.
    intros s post HR HB. rewrite (exts_roundtrip C _ _ _ _ F E1 E4 s post HR HB). cbn [rbind].
    rewrite ext_dict_nodup by exact Nd. rewrite (get_sigalgs C _ _ _ F I). reflexivity.
  - (* certificate *) change (reads (with_limit (blen b0) (fun _ => parse_certificate C pct)) b0 (HCert ctx entries)).
    apply reads_limit. intro. apply reads_reads_end. destruct K as (ct & -> & Hct & F). invr E. subst b0.
    unfold parse_certificate. replace (negb ((ct =? CT_X509) || (ct =? CT_RAW_PUBLIC_KEY))) with false
      by (destruct Hct as [-> | ->]; reflexivity).
    eapply reads_bind; [apply (r_var 0); exact E3|]. cbv beta.
    unfold put_var in E4. apply rbind_ok in E4 as [bl [E5 E4]]. injection E4; intros <-. eapply reads_bind; [apply (r_int 2); exact E5|]. cbv beta.
    assert (R : reads (with_limit (blen b2) (fun limit s => parse_entries (length (s_data s)) C ct limit s)) b2 entries).
    { apply reads_limit_at; [reflexivity|]. intros s post HR HL HB.
      apply join_map_concat in E1 as [bs [-> HF]]. eapply entries_roundtrip; [|exact HR | exact HB | exact HL|].
      - clear - F HF. induction HF as [|x y l bs Hxy HF IH]; constructor.
        + inversion F; subst. apply entry_roundtrip; assumption.
        + inversion F; subst. apply IH. assumption.
      - unfold rest in HR. apply (f_equal (@length byte)) in HR. unfold bdrop in HR. rewrite skipn_length, app_length in HR. lia. }
    intros s post HR HB. rewrite (R s post HR HB). reflexivity.
  - (* certificate verify *) change (reads (with_limit (blen b0) (fun _ => parse_cert_verify)) b0 (HCertVerify alg sig)).
    apply reads_limit. intro. apply reads_reads_end. invr E. subst b0. unfold parse_cert_verify.
    eapply reads_bind; [apply (r_int 1); exact E1|]. cbv beta. rewrite <- (app_nil_r b3).
    eapply reads_bind; [apply (r_var 1); exact E3 | apply reads_ret].
  - (* finished *) change (reads (with_limit (blen b0) (fun _ => parse_finished)) b0 (HFinished verify_data)).
    apply reads_limit. intro. injection E; intros <-. unfold parse_finished. intros s post HR HB.
    pose proof (reads_end_all verify_data s post HR HB) as R. injection R; intro R'. rewrite R'. reflexivity.
Qed.

Lemma content_roundtrip C pct k b : content_ok C pct k -> ser_content C k = Ok b -> parse_content C pct (content_type k) b = Ok k.
Proof.
  intros K H.
  assert (X : forall p, reads p b k -> (let* (c, s1) := p (stream_of b) in let* _ := assert_eof s1 in Ok c) = Ok k).
  { intros p R. rewrite (R (stream_of b) []); [|cbn; rewrite app_nil_r; reflexivity | exact I]. cbn [rbind].
    unfold assert_eof, adv, with_pos, stream_of. cbn [s_pos s_data]. rewrite N.add_0_l, N.eqb_refl. reflexivity. }
  destruct k; cbn [content_ok ser_content content_type] in *; unfold parse_content; cbv zeta.
  - injection H; intros <-. reflexivity.
  - change (CT_ALERT =? CT_CCS) with false. change (CT_ALERT =? CT_ALERT) with true. cbv iota.
    rewrite (X parse_alert); [reflexivity|]. destruct K as [Kl Kd].
    assert (exists bl bd, b = bl ++ bd /\ to_bytes 1 level = Ok bl /\ to_bytes 1 desc = Ok bd) as (bl & bd & -> & El & Ed).
    { exists [Nb level], [Nb desc]. apply to_bytes_ok in H as (-> & _).
      assert (Ll : level < 256) by (destruct Kl as [-> | ->]; reflexivity).
      split; [|split]; [|unfold to_bytes; replace (level <? 256 ^ N.of_nat 1) with true by (symmetry; apply N.ltb_lt; exact Ll)|unfold to_bytes; replace (desc <? 256 ^ N.of_nat 1) with true by (symmetry; apply N.ltb_lt; exact Kd)].
      - cbn [be_bytes app]. rewrite N.div_add_l, N.div_small by lia. rewrite N.add_0_r.
        rewrite (N.mod_small level) by exact Ll. do 2 f_equal.
        rewrite N.add_comm, N.mod_add by lia. rewrite N.mod_small by exact Kd. reflexivity.
      - cbn [be_bytes app]. rewrite N.mod_small by exact Ll. reflexivity.
      - cbn [be_bytes app]. rewrite N.mod_small by exact Kd. reflexivity. }
    unfold parse_alert. eapply reads_bind; [apply (r_enum 0); [exact El | destruct Kl as [-> | ->]; vm_compute; tauto]|]. cbv beta.
    rewrite <- (app_nil_r bd). eapply reads_bind; [apply (r_int 0); exact Ed | apply reads_ret].
  - change (CT_HANDSHAKE =? CT_CCS) with false. change (CT_HANDSHAKE =? CT_ALERT) with false. change (CT_HANDSHAKE =? CT_HANDSHAKE) with true. cbv iota.
    rewrite (X (fun s => let* (h, s1) := parse_hs C pct s in Ok (KHandshake h, s1))); [reflexivity|].
    rewrite <- (app_nil_r b). eapply reads_bind; [apply hs_roundtrip; eassumption | apply reads_ret].
  - injection H; intros <-. cbv [N.eqb Pos.eqb CT_APPDATA CT_CCS CT_ALERT CT_HANDSHAKE]. cbv iota.
    pose proof (reads_end_all data (stream_of data) []) as R. specialize (R ltac:(cbn; rewrite app_nil_r; reflexivity) eq_refl).
    assert (R' : read_all (stream_of data) = (data, adv (stream_of data) (blen data))) by congruence. rewrite R'. cbn [rbind]. unfold assert_eof, adv, with_pos, stream_of. cbn [s_pos s_data]. rewrite N.add_0_l, N.eqb_refl. reflexivity.
  - contradiction.
Qed.

(* the ClientHello of the library *)

Lemma printable_all p : printable p = true -> Forall (fun c => 32 <= bN c <= 126) p.
Proof.
  unfold printable. intro H. rewrite forallb_forall in H. apply Forall_forall. intros c I. specialize (H c I).
  apply andb_true_iff in H as [H1 H2]. apply N.leb_le in H1. apply N.leb_le in H2. lia.
Qed.

Lemma client_extensions_ok C g host cookie share :
  Forall (fun p => Forall (fun c => 32 <= bN c <= 126) p) (g_alpn g) -> host_fine C host ->
  exts_ok C NClientHello (client_extensions C g host cookie share).
Proof.
  intros Ha Hh. unfold client_extensions, exts_ok.
  set (hl := match host with Some (x :: h) => _ | _ => [] end).
  assert (hl = [] \/ exists h, hl = [EServerNameReq (Some h)] /\ plain_host C h) as Hl.
  { unfold hl. destruct host as [[|x h]|]; auto. destruct (cr_is_ip C (x :: h)) eqn:E; [left; reflexivity|].
    right. exists (x :: h). split; [reflexivity|]. apply Hh; [discriminate | exact E]. }
  clearbody hl.
  assert (forall e l, ext_ok C NClientHello e -> Forall (ext_ok C NClientHello) l -> Forall (ext_ok C NClientHello) (e :: l)) as cons by (intros; constructor; assumption).
  assert (G : forall (b : bool) e, ext_ok C NClientHello e -> Forall (ext_ok C NClientHello) (if b then [] else [e])).
  { intros [] e He; [constructor | constructor; [exact He | constructor]]. }
  assert (G' : forall (b : bool) e, ext_ok C NClientHello e -> Forall (ext_ok C NClientHello) (if b then [e] else [])).
  { intros [] e He; [constructor; [exact He | constructor] | constructor]. }
  assert (O : forall e, sound C e -> match home e with Some l => In NClientHello l | None => False end -> ext_ok C NClientHello e).
  { intros e S H. split; [exact S|]. destruct (home e); [exact H | destruct H]. }
  split.
  - destruct Hl as [-> | (h & -> & _)];
    (destruct (is_nil (g_alpn g)), (opt_bool (g_public g)), (is_nil (g_trusted_keys g)), (opt_bool (g_trust g)), cookie as [[|? ?]|];
     cbn [app map ext_type];
     repeat (constructor; [cbn [In]; intro X; repeat (destruct X as [X|X]; [vm_compute in X; discriminate X|]); exact X|]); constructor).
  - apply Forall_app. split.
    { repeat apply cons; [apply O; [exact I | cbn; tauto]..| |constructor].
      apply O; [|cbn; tauto]. cbn [sound In]. destruct (g_echo g); vm_compute; tauto. }
    apply Forall_app. split.
    { destruct Hl as [-> | (h & -> & P)]; [constructor|]. constructor; [|constructor]. apply O; [exact P | cbn; tauto]. }
    apply Forall_app. split. { apply G, O; [exact Ha | cbn; tauto]. }
    apply Forall_app. split. { apply G', O; [exact I | cbn; tauto]. }
    apply Forall_app. split. { apply G, O; [exact I | cbn; tauto]. }
    apply Forall_app. split. { apply G', O; [exact I | cbn; tauto]. }
    apply Forall_app. split. { destruct cookie as [[|? ?]|]; constructor; [|constructor]. apply O; [exact I | cbn; tauto]. }
    constructor; [|constructor]. apply O; [|cbn; tauto]. cbn. constructor; [intros [] | constructor].
Qed.

Lemma client_hello_ok C pct g host cookie share unique ch :
  Forall (fun p => Forall (fun c => 32 <= bN c <= 126) p) (g_alpn g) -> host_fine C host ->
  mk_client_hello unique (g_suites g) (client_extensions C g host cookie share) = Ok ch -> message_ok C pct ch.
Proof.
  intros Ha Hh H. pose proof (client_extensions_ok C g host cookie share Ha Hh) as K.
  unfold mk_client_hello in H. rewrite (ext_dict_nodup _ (proj1 K)) in H.
  destruct (negb (blen unique =? 32)) eqn:E1; [discriminate|]. destruct (is_nil (g_suites g)) eqn:E2; [discriminate|].
  repeat match type of H with (if ?c then _ else _) = _ => destruct c; [discriminate|] end.
  injection H; intros <-. cbn. apply negb_false_iff, N.eqb_eq in E1. apply is_nil_false in E2. auto.
Qed.
