(* The exact verdict of validate_ocsp. *)
From Verif Require Import Base P_Base Iana Crypto Ext Msg Sig Ocsp Config Conn S_Ocsp S_OcspX P_Ocsp.

Lemma scheme_oid o s : In (o, s) oid_schemes -> from_signature_oid o = Ok s /\ memN s signature_suites = true.
Proof.
  unfold oid_schemes. cbn [In]. intro H.
  repeat destruct H as [H|H]; try (injection H; intros <- <-; split; vm_compute; reflexivity). destruct H.
Qed.
Lemma exactly C issuer req res until :
  validate_ocsp C issuer req res = Ok until <-> ocsp_good C issuer req res until /\ same_algorithm C issuer res.
Proof.
  split.
  - intro H. split; [exact (validated C issuer req res until H)|]. intros rs Hrs. revert H. unfold validate_ocsp.
    destruct (cr_load_ocsp_req C req) as [rq|]; [|discriminate]. cbn [rbind]. rewrite Hrs. cbn [rbind].
    repeat match goal with |- (if ?b then _ else _) = _ -> _ => destruct b; [discriminate|] end.
    destruct (rs_next_update rs) as [nu|]; [|discriminate]. destruct (nu <? cr_now C); [discriminate|].
    destruct (rs_sig_oid rs =? cr_cert_sig_oid C issuer) eqn:E1; [|discriminate]. cbn [negb].
    destruct (rs_hash_alg rs =? cr_cert_hash_alg C issuer) eqn:E2; [|discriminate]. intros _.
    apply N.eqb_eq in E1. apply N.eqb_eq in E2. split; assumption.
  - intros ((rq & rs & s & H1 & H2 & H3 & H4 & H5 & H6 & H7 & H8 & H9 & H10 & H11 & H12) & S).
    destruct (S rs H2) as (S1 & S2). destruct (scheme_oid _ _ H11) as (F & M).
    unfold validate_ocsp. rewrite H1, H2. cbn [rbind]. rewrite H3, H4, H5, H6, H7, !beqb_refl, N.eqb_refl. cbn [negb].
    replace (cr_now C <? rs_this_update rs) with false by (symmetry; apply N.ltb_ge; exact H8). rewrite H9.
    replace (until <? cr_now C) with false by (symmetry; apply N.ltb_ge; exact H10).
    rewrite <- S1, <- S2, !N.eqb_refl. cbn [negb]. rewrite F. unfold suite_verify. rewrite M, H12. reflexivity.
Qed.
Lemma rfc_dated C issuer req res : rfc_good C issuer req res -> dated C res -> exists until, ocsp_good C issuer req res until.
Proof.
  intros (rq & rs & s & H1 & H2 & H3 & H4 & H5 & H6 & H7 & H8 & H9 & H10 & H11) D.
  specialize (D rs H2). destruct (rs_next_update rs) as [nu|] eqn:E; [|destruct (D eq_refl)].
  exists nu, rq, rs, s. repeat (split; [first [assumption | apply H9; reflexivity]|]). assumption.
Qed.
Lemma good_rfc C issuer req res until : ocsp_good C issuer req res until -> rfc_good C issuer req res.
Proof.
  intros (rq & rs & s & H1 & H2 & H3 & H4 & H5 & H6 & H7 & H8 & H9 & H10 & H11 & H12).
  exists rq, rs, s. repeat (split; [first [assumption | intros u U; rewrite H9 in U; injection U; intros <-; assumption]|]). assumption.
Qed.
Lemma accepted C issuer req res : rfc_good C issuer req res -> dated C res -> same_algorithm C issuer res ->
  exists until, validate_ocsp C issuer req res = Ok until.
Proof. intros H D S. destruct (rfc_dated _ _ _ _ H D) as (u & G). exists u. apply exactly. split; assumption. Qed.
Lemma only_value C issuer req res e : documented C -> cr_sig_args C = true -> dated C res ->
  validate_ocsp C issuer req res = Err e -> e = XValue.
Proof.
  intros (L1 & L2 & L3) A D. unfold validate_ocsp.
  destruct (cr_load_ocsp_req C req) as [rq|e1] eqn:E1; [|cbn [rbind]; intro X; injection X; intros <-; exact (L1 _ _ E1)]. cbn [rbind].
  destruct (cr_load_ocsp_res C res) as [rs|e2] eqn:E2; [|cbn [rbind]; intro X; injection X; intros <-; exact (L2 _ _ E2)]. cbn [rbind].
  assert (V : forall x : exn, @Err N XValue = Err x -> x = XValue) by (intros x X; injection X; auto).
  repeat match goal with |- (if ?b then _ else _) = _ -> _ => destruct b; [apply V|] end.
  specialize (D rs E2). destruct (rs_next_update rs) as [nu|]; [|destruct (D eq_refl)].
  repeat match goal with |- (if ?b then _ else _) = _ -> _ => destruct b; [apply V|] end.
  destruct (from_signature_oid (rs_sig_oid rs)) as [s|] eqn:E3; [|apply V].
  destruct (scheme_oid _ _ (oid_scheme _ _ E3)) as (_ & M). unfold suite_verify. rewrite M.
  destruct (cr_sig_verify C s _ _ _) as [[]|e4] eqn:E4; [discriminate|]. rewrite (L3 _ _ _ _ _ E4), A. apply V.
Qed.
Lemma stapled C service e i der req :
  documented C -> cr_sig_args C = true -> dated C der ->
  ext_get STATUS_REQUEST (en_exts e) = Some (EOcspStatus der) -> cr_make_ocsp_req C (en_data e) (en_data i) = Ok req ->
  same_algorithm C (en_data i) der ->
  (rfc_good C (en_data i) req der -> verify_status C service e i = Ok tt) /\
  (~ rfc_good C (en_data i) req der -> verify_status C service e i = Err (XAlert BAD_CERTIFICATE)).
Proof.
  intros L A D X R S. unfold verify_status. rewrite X, R. cbn [rbind]. split.
  - intro G. destruct (accepted _ _ _ _ G D S) as (u & ->). reflexivity.
  - intro G. destruct (validate_ocsp C (en_data i) req der) as [u|x] eqn:E.
    + exfalso. apply G. apply exactly in E. exact (good_rfc _ _ _ _ _ (proj1 E)).
    + rewrite (only_value _ _ _ _ _ L A D E). reflexivity.
Qed.
