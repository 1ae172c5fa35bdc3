(* The OCSP checks. *)
From Verif Require Import Base P_Base Iana Crypto Ext Msg Sig Ocsp Config Conn S_Ocsp.

Lemma oid_scheme o s : from_signature_oid o = Ok s -> In (o, s) oid_schemes.
Proof.
  unfold from_signature_oid, oid_schemes.
  repeat match goal with |- context [o =? ?k] => let E := fresh in destruct (o =? k) eqn:E;
    [apply N.eqb_eq in E; subst o; intro X; injection X; intros <-; cbn; tauto|] end.
  discriminate.
Qed.
Lemma validated C issuer req res until : validate_ocsp C issuer req res = Ok until -> ocsp_good C issuer req res until.
Proof.
  unfold validate_ocsp, ocsp_good. destruct (cr_load_ocsp_req C req) as [rq|]; [|discriminate]. cbn [rbind].
  destruct (cr_load_ocsp_res C res) as [rs|]; [|discriminate]. cbn [rbind].
  destruct (rs_successful rs) eqn:E1; [|discriminate]. destruct (rs_good rs) eqn:E2; [|discriminate]. cbn [negb].
  destruct (beqb (rs_name_hash rs) (rq_name_hash rq)) eqn:E3; [|discriminate]. apply beqb_eq in E3.
  destruct (beqb (rs_key_hash rs) (rq_key_hash rq)) eqn:E4; [|discriminate]. apply beqb_eq in E4. cbn [negb].
  destruct (rs_serial rs =? rq_serial rq) eqn:E5; [|discriminate]. apply N.eqb_eq in E5. cbn [negb].
  destruct (cr_now C <? rs_this_update rs) eqn:E6; [discriminate|]. apply N.ltb_ge in E6.
  destruct (rs_next_update rs) as [nu|] eqn:E7; [|discriminate].
  destruct (nu <? cr_now C) eqn:E8; [discriminate|]. apply N.ltb_ge in E8.
  destruct (negb (rs_sig_oid rs =? _)); [discriminate|]. destruct (negb (rs_hash_alg rs =? _)); [discriminate|].
  destruct (from_signature_oid (rs_sig_oid rs)) as [s|] eqn:E9; [|discriminate]. apply oid_scheme in E9.
  unfold suite_verify. destruct (memN s signature_suites); [|discriminate].
  destruct (cr_sig_verify C s _ _ _) as [[]|e] eqn:E10; [|destruct e; try destruct (cr_sig_args C); discriminate].
  intro X; injection X; intros <-. exists rq, rs, s. repeat (split; [first [reflexivity | assumption]|]). exact E10.
Qed.
Lemma value_error_ok {A} (r : res A) e a : on_value_error r e = Ok a -> r = Ok a.
Proof. unfold on_value_error. destruct r as [x|x]; [auto|]. destruct (is_value_error x); discriminate. Qed.
Lemma status_checked C service e i : verify_status C service e i = Ok tt -> status_ok C service e i.
Proof.
  unfold verify_status, status_ok.
  assert (D : (if service then let* url := cr_ocsp_url C (en_data e) in match url with
      | Some (x :: u) =>
        let* req := cr_make_ocsp_req C (en_data e) (en_data i) in
        let* der := cr_ocsp_fetch C (Some (x :: u)) req in
        let* _ := on_value_error (validate_ocsp C (en_data i) req der) (XAlert BAD_CERTIFICATE) in
        Ok tt
      | _ => Ok tt end else Ok tt) = Ok tt -> 
    service = true -> forall url, cr_ocsp_url C (en_data e) = Ok (Some url) -> url <> [] ->
    exists req der until, cr_make_ocsp_req C (en_data e) (en_data i) = Ok req /\ cr_ocsp_fetch C (Some url) req = Ok der /\
      ocsp_good C (en_data i) req der until).
  { intros H -> url U N. rewrite U in H. cbn [rbind] in H. destruct url as [|x u]; [contradiction|].
    destruct (cr_make_ocsp_req C _ _) as [req|] eqn:Er; [|discriminate]. cbn [rbind] in H.
    destruct (cr_ocsp_fetch C _ req) as [der|] eqn:Ed; [|discriminate]. cbn [rbind] in H.
    destruct (on_value_error _ _) as [until|] eqn:Ev; [|discriminate]. apply value_error_ok, validated in Ev. eauto 10. }
  destruct (ext_get STATUS_REQUEST (en_exts e)) as [[]|]; try exact D.
  intro H. destruct (cr_make_ocsp_req C _ _) as [req|] eqn:Er; [|discriminate]. cbn [rbind] in H.
  destruct (on_value_error _ _) as [until|] eqn:Ev; [|discriminate]. apply value_error_ok, validated in Ev. eauto.
Qed.
Lemma statuses_checked C service l : verify_statuses C service l = Ok tt -> statuses_ok C service l.
Proof.
  intros H pre e i post. revert l H. induction pre as [|x pre IH]; intros l H ->.
  - cbn [app verify_statuses] in H. destruct (verify_status C service e i) as [[]|] eqn:E; [|discriminate]. apply status_checked. exact E.
  - apply (IH (pre ++ e :: i :: post)); [|reflexivity]. cbn [app verify_statuses] in H. destruct (pre ++ e :: i :: post); [reflexivity|].
    destruct (verify_status _ _ _ _); [exact H | discriminate].
Qed.
(* the server staples what it checked *)
Lemma staple_checked C c n chain l der : staple C c n chain = Ok l -> In (EOcspStatus der) l ->
  exists subject issuer rest url req until, chain = subject :: issuer :: rest /\ cr_ocsp_url C subject = Ok url /\
    cr_make_ocsp_req C subject issuer = Ok req /\ cr_ocsp_fetch C url req = Ok der /\ ocsp_good C issuer req der until.
Proof.
  unfold staple. destruct (n_want_ocsp n) as [[]|]; try (intro E; injection E; intros <-; intros []).
  destruct (c_ocsp c); [|intro E; injection E; intros <-; intros []].
  destruct chain as [|subject [|issuer rest]]; try (intro E; injection E; intros <-; intros []).
  destruct (cr_ocsp_url C subject) as [url|] eqn:Eu; [|discriminate]. cbn [rbind].
  destruct (cr_make_ocsp_req C subject issuer) as [req|] eqn:Er; [|discriminate]. cbn [rbind].
  destruct (cr_ocsp_fetch C url req) as [d|] eqn:Ed; [|discriminate]. cbn [rbind].
  destruct (validate_ocsp C issuer req d) as [until|e] eqn:Ev.
  - intro E; injection E; intros <-. intros [X|[]]. injection X; intros <-. apply validated in Ev.
    exists subject, issuer, rest, url, req, until. auto.
  - destruct (is_value_error e); [|discriminate]. intro E; injection E; intros <-. intros [].
Qed.
Lemma certificate_checked C c l e der : server_certificate_list C c = Ok l -> In e l -> In (EOcspStatus der) (en_exts e) ->
  exists issuer rest url req until, l = e :: issuer :: rest /\ cr_ocsp_url C (en_data e) = Ok url /\
    cr_make_ocsp_req C (en_data e) (en_data issuer) = Ok req /\ cr_ocsp_fetch C url req = Ok der /\ ocsp_good C (en_data issuer) req der until.
Proof.
  unfold server_certificate_list. destruct (c_nc c) as [n|]; [|discriminate]. destruct (match n_sct n with Some _ => _ | None => _ end).
  { destruct (g_public _); [|discriminate]. intro X; injection X; intros <-. intros [<-|[]] []. }
  destruct (g_chain (c_config c)) as [chain|]; [|discriminate].
  destruct (staple C c n chain) as [x|] eqn:Es; [|discriminate]. cbn [rbind]. intro X; injection X; intros <-. clear X. intros I D.
  destruct chain as [|s chain]; [destruct I|]. cbn [map add_to_leaf en_type en_data en_exts app] in I. destruct I as [<-|I].
  - cbn [en_exts] in D. destruct (staple_checked _ _ _ _ _ _ Es D) as (subject & issuer & rest & url & req & until & Ec & K). injection Ec; intros -> ->.
    exists (mkEntry CT_X509 issuer []), (map (fun cert => mkEntry CT_X509 cert []) rest), url, req, until. split; [reflexivity|]. exact K.
  - apply in_map_iff in I. destruct I as (y & <- & _). destruct D.
Qed.
