From Verif Require Import Base P_Base Iana Crypto Config Ext Msg Ocsp Conn Aia S_Aia.

Lemma url_some l u : get_ocsp_url (Some l) = Ok (Some u) <-> responder l u.
Proof.
  unfold get_ocsp_url, responder. induction l as [|d l IH]; cbn [find].
  - split; [discriminate|]. intros (a & d & b & E & _). destruct a; discriminate E.
  - unfold AD_OCSP in *. destruct (N.eqb_spec (ad_method d) 1) as [E|E]; cbn [option_map].
    + split.
      * intros [= <-]. exists [], d, l. repeat split; [exact E | constructor].
      * intros ([|x a] & d' & b & El & M & L & F); [injection El; intros _ ->; rewrite L; reflexivity|].
        injection El; intros _ ->. inversion F as [|? ? N _]. contradiction.
    + rewrite IH. split.
      * intros (a & d' & b & -> & M & L & F). exists (d :: a), d', b. repeat split; [exact M | exact L | constructor; assumption].
      * intros ([|x a] & d' & b & El & M & L & F); injection El; intros -> ->; [contradiction|]. inversion F; subst. exists a, d', b. repeat split; assumption.
Qed.
Lemma url_none l : get_ocsp_url (Some l) = Ok None <-> no_responder l.
Proof.
  unfold get_ocsp_url, no_responder, AD_OCSP. induction l as [|d l IH]; cbn [find]; [split; [constructor | reflexivity]|].
  destruct (N.eqb_spec (ad_method d) 1) as [E|E]; cbn [option_map].
  - split; [discriminate|]. intro F. inversion F; contradiction.
  - rewrite IH. split; [intro F; constructor; assumption | intro F; inversion F; assumption].
Qed.
Lemma url_cases aia : (aia = None /\ get_ocsp_url aia = Err not_found) \/ exists l, aia = Some l /\
  ((get_ocsp_url aia = Ok None /\ no_responder l) \/ exists u, get_ocsp_url aia = Ok (Some u) /\ responder l u).
Proof.
  destruct aia as [l|]; [right | left; split; reflexivity]. exists l. split; [reflexivity|].
  destruct (get_ocsp_url (Some l)) as [[u|]|] eqn:E; [| |discriminate E].
  - right. exists u. split; [reflexivity | apply url_some; exact E].
  - left. split; [reflexivity | apply url_none; exact E].
Qed.
Lemma value_ok {A} (r : res A) e : (exists a, on_value_error r e = Ok a) <-> exists a, r = Ok a.
Proof.
  unfold on_value_error. destruct r as [x|x]; [split; intros (a & E); eexists; reflexivity|].
  split; intros (a & E); [destruct (is_value_error x); discriminate E | discriminate E].
Qed.
Lemma checked_ok {A} (r : res A) e : (let* _ := on_value_error r e in Ok tt) = Ok tt <-> exists a, r = Ok a.
Proof.
  rewrite <- (value_ok r e). destruct (on_value_error r e) as [a|x]; cbn [rbind]; [split; [intros _; exists a; reflexivity | reflexivity]|].
  split; [discriminate | intros (a & E); discriminate E].
Qed.
Lemma status_exact C aia service e i : verify_status (with_aia aia C) service e i = Ok tt <-> content_with C aia service e i.
Proof.
  assert (V : forall req der, validate_ocsp (with_aia aia C) (en_data i) req der = validate_ocsp C (en_data i) req der) by reflexivity.
  assert (D : (if service then let* url := get_ocsp_url (aia (en_data e)) in match url with
      | Some (x :: u) =>
        let* req := cr_make_ocsp_req C (en_data e) (en_data i) in
        let* der := cr_ocsp_fetch C (Some (x :: u)) req in
        let* _ := on_value_error (validate_ocsp C (en_data i) req der) (XAlert BAD_CERTIFICATE) in
        Ok tt
      | _ => Ok tt end else Ok tt) = Ok tt <->
    (service = false \/ exists l, aia (en_data e) = Some l /\
      (no_responder l \/ responder l [] \/
       exists u der, responder l u /\ answers C u (en_data e) (en_data i) der /\ vouched C (en_data e) (en_data i) der))).
  { destruct service; [|split; [left; reflexivity | reflexivity]].
    destruct (url_cases (aia (en_data e))) as [[E ->]|(l & E & [[-> N]|(u & Eu & R)])]; cbn [rbind].
    - split; [discriminate|]. intros [X|(l & X & _)]; [discriminate X | rewrite E in X; discriminate X].
    - split; [|reflexivity]. intros _. right. exists l. split; [exact E | left; exact N].
    - rewrite Eu. cbn [rbind]. rewrite E in Eu. assert (One : forall v, responder l v -> v = u) by (intros v Rv; apply url_some in Rv; congruence).
      assert (No : ~ no_responder l) by (intro N; apply url_none in N; congruence). destruct u as [|x u].
      + split; [|reflexivity]. intros _. right. exists l. split; [exact E | right; left; exact R].
      + split.
        * intro H. right. exists l. split; [exact E|]. right. right. exists (x :: u).
          destruct (cr_make_ocsp_req C (en_data e) (en_data i)) as [req|] eqn:Er; [|discriminate H]. cbn [rbind] in H.
          destruct (cr_ocsp_fetch C _ req) as [der|] eqn:Ed; [|discriminate H]. cbn [rbind] in H. apply checked_ok in H. destruct H as (until & H).
          exists der. split; [exact R|]. split; [exists req; split; assumption | exists req, until; split; assumption].
        * intros [X|(l' & X & [N|[R'|(v & der & R' & (req & Er & Ed) & (req' & until & Er' & Ev))]])]; [discriminate X| | |];
            (assert (l' = l) as -> by congruence).
          -- contradiction.
          -- apply One in R'. discriminate R'.
          -- apply One in R'. subst v. rewrite Er. cbn [rbind]. match goal with |- context [cr_ocsp_fetch C ?a ?b] => replace (cr_ocsp_fetch C a b) with (Ok der) by (symmetry; exact Ed) end. cbn [rbind]. apply checked_ok. exists until. congruence. }
  unfold verify_status, content_with. cbn [with_aia cr_make_ocsp_req cr_ocsp_url cr_ocsp_fetch]. 
  destruct (ext_get STATUS_REQUEST (en_exts e)) as [[]|]; try exact D. unfold vouched. split.
  - intro H. destruct (cr_make_ocsp_req C (en_data e) (en_data i)) as [req|]; [|discriminate H]. cbn [rbind] in H.
    apply checked_ok in H. destruct H as (until & H). exists req, until. split; [reflexivity | exact H].
  - intros (req & until & -> & H). cbn [rbind]. apply checked_ok. exists until. exact H.
Qed.
Lemma statuses_exact C aia service l : verify_statuses (with_aia aia C) service l = Ok tt <-> forall e i, neighbours l e i -> content_with C aia service e i.
Proof.
  induction l as [|a l IH].
  - split; [|reflexivity]. intros _ e i (pre & post & E). destruct pre; discriminate E.
  - destruct l as [|b l].
    + split; [|reflexivity]. intros _ e i (pre & post & E). destruct pre as [|? [|]]; discriminate E.
    + change (verify_statuses (with_aia aia C) service (a :: b :: l)) with
        (let* _ := verify_status (with_aia aia C) service a b in verify_statuses (with_aia aia C) service (b :: l)).
      split.
      * intro H. destruct (verify_status (with_aia aia C) service a b) as [[]|] eqn:E; [|discriminate H]. cbn [rbind] in H.
        intros e i (pre & post & El). destruct pre as [|x pre]; injection El.
        -- intros _ <- <-. apply status_exact. exact E.
        -- intros El' _. apply IH; [exact H|]. exists pre, post. exact El'.
      * intro H. assert (E : verify_status (with_aia aia C) service a b = Ok tt) by (apply status_exact, H; exists [], l; reflexivity).
        rewrite E. cbn [rbind]. apply IH. intros e i (pre & post & El). apply H. exists (a :: pre), post. cbn [app]. rewrite El. reflexivity.
Qed.

(* a server that staples *)
Lemma list_exact C aia c n chain : c_nc c = Some n -> n_sct n = Some CT_X509 -> g_chain (c_config c) = Some chain ->
  server_certificate_list (with_aia aia C) c =
    let* x := staple (with_aia aia C) c n chain in Ok (add_to_leaf x (map (fun cert => mkEntry CT_X509 cert []) chain)).
Proof. intros E S G. unfold server_certificate_list. rewrite E, S, G. reflexivity. Qed.
Lemma staple_off C c n chain : n_want_ocsp n <> Some true \/ c_ocsp c = false \/ (length chain < 2)%nat -> staple C c n chain = Ok [].
Proof.
  unfold staple. intros [H|[H|H]].
  - destruct (n_want_ocsp n) as [[]|]; [congruence | reflexivity | reflexivity].
  - rewrite H. destruct (n_want_ocsp n) as [[]|]; reflexivity.
  - destruct chain as [|a [|b l]]; [| |cbn in H; lia]; destruct (n_want_ocsp n) as [[]|], (c_ocsp c); reflexivity.
Qed.
Lemma staple_on C aia c n subject issuer rest l u req : n_want_ocsp n = Some true -> c_ocsp c = true ->
  aia subject = Some l -> responder l u -> cr_make_ocsp_req C subject issuer = Ok req ->
  staple (with_aia aia C) c n (subject :: issuer :: rest) =
    let* der := cr_ocsp_fetch C (Some u) req in
    match validate_ocsp C issuer req der with Ok _ => Ok [EOcspStatus der] | Err e => if is_value_error e then Ok [] else Err e end.
Proof.
  intros W S A R Q. unfold staple. rewrite W, S. cbn [with_aia cr_ocsp_url cr_make_ocsp_req cr_ocsp_fetch]. apply url_some in R. rewrite A, R. cbn [rbind].
  rewrite Q. reflexivity.
Qed.
Lemma server_sends C aia c n chain : c_nc c = Some n -> n_sct n = Some CT_X509 -> g_chain (c_config c) = Some chain ->
  n_want_ocsp n <> Some true \/ c_ocsp c = false \/ (length chain < 2)%nat \/
    (exists subject issuer rest l u req der, chain = subject :: issuer :: rest /\ aia subject = Some l /\ responder l u /\
       cr_make_ocsp_req C subject issuer = Ok req /\ cr_ocsp_fetch C (Some u) req = Ok der /\
       forall e, validate_ocsp C issuer req der = Err e -> is_value_error e = true) ->
  exists x, server_certificate_list (with_aia aia C) c = Ok (add_to_leaf x (map (fun cert => mkEntry CT_X509 cert []) chain)) /\
    (x = [] \/ exists subject issuer rest der, chain = subject :: issuer :: rest /\ x = [EOcspStatus der] /\ vouched C subject issuer der).
Proof.
  intros E S G H. rewrite (list_exact C aia c n chain E S G).
  assert (Off : n_want_ocsp n <> Some true \/ c_ocsp c = false \/ (length chain < 2)%nat -> exists x,
    (let* x := staple (with_aia aia C) c n chain in Ok (add_to_leaf x (map (fun cert => mkEntry CT_X509 cert []) chain))) = Ok (add_to_leaf x (map (fun cert => mkEntry CT_X509 cert []) chain)) /\
    (x = [] \/ exists subject issuer rest der, chain = subject :: issuer :: rest /\ x = [EOcspStatus der] /\ vouched C subject issuer der)).
  { intro O. rewrite (staple_off _ _ _ _ O). exists []. split; [reflexivity | left; reflexivity]. }
  destruct H as [H|[H|[H|H]]]; [apply Off; tauto | apply Off; tauto | apply Off; tauto|].
  destruct H as (subject & issuer & rest & l & u & req & der & -> & A & R & Q & F & V).
  destruct (n_want_ocsp n) as [[]|] eqn:W; [|apply Off; left; discriminate | apply Off; left; discriminate].
  destruct (c_ocsp c) eqn:O; [|apply Off; tauto].
  rewrite (staple_on C aia c n subject issuer rest l u req W O A R Q), F. cbn [rbind].
  destruct (validate_ocsp C issuer req der) as [until|e] eqn:Ev.
  - cbn [rbind]. exists [EOcspStatus der]. split; [reflexivity|]. right. exists subject, issuer, rest, der. split; [reflexivity|]. split; [reflexivity|].
    exists req, until. split; assumption.
  - rewrite (V e eq_refl). cbn [rbind]. exists []. split; [reflexivity | left; reflexivity].
Qed.
Lemma server_stops C aia c n subject issuer rest e : c_nc c = Some n -> n_sct n = Some CT_X509 -> g_chain (c_config c) = Some (subject :: issuer :: rest) ->
  n_want_ocsp n = Some true -> c_ocsp c = true ->
  (aia subject = None /\ e = not_found \/
   exists l req, aia subject = Some l /\ cr_make_ocsp_req C subject issuer = Ok req /\
     (no_responder l /\ cr_ocsp_fetch C None req = Err e \/ exists u, responder l u /\ cr_ocsp_fetch C (Some u) req = Err e)) ->
  server_certificate_list (with_aia aia C) c = Err e.
Proof.
  intros E S G W O H. rewrite (list_exact C aia c n _ E S G). unfold staple. rewrite W, O. cbn [with_aia cr_ocsp_url cr_make_ocsp_req cr_ocsp_fetch].
  destruct H as [[A ->]|(l & req & A & Q & [[N F]|(u & R & F)])]; rewrite A; cbn [get_ocsp_url rbind]; [reflexivity| |].
  - apply url_none in N. cbn [get_ocsp_url] in N. injection N; intros ->. rewrite Q. cbn [rbind]. rewrite F. reflexivity.
  - apply url_some in R. cbn [get_ocsp_url] in R. injection R; intros ->. rewrite Q. cbn [rbind]. rewrite F. reflexivity.
Qed.
