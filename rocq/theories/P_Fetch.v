From Coq Require Import ZArith.
From Verif Require Import Base P_Base OcspCache S_Cache S_Fetch P_Cache.

Lemma fetch_exact H url req r : fetch H url req = Ok r <-> askable H url req /\ answers H url req r.
Proof.
  unfold fetch. split.
  - intro E. apply rbind_ok in E as [[scheme netloc] [Es E]].
    destruct (beqb scheme (ascii_bytes "http"%string)) eqn:E1; cbn [negb] in E; [|discriminate]. apply beqb_eq in E1. subst scheme.
    destruct netloc as [|x netloc]; [discriminate|]. destruct req as [|y req]; [discriminate|]. cbn [is_nil] in E.
    apply rbind_ok in E as [reply [Eo E]].
    split; [exists (x :: netloc); split; [exact Es|]; split; discriminate|].
    exists reply. destruct (hr_type reply) as [t|] eqn:Et.
    + destruct (beqb t ocsp_response_type) eqn:E2; cbn [negb] in E; [|discriminate]. apply beqb_eq in E2.
      apply rbind_ok in E as [n [En E]]. destruct (Z.ltb OCSP_MAX_RESPONSE_SIZE n) eqn:E3; [discriminate|]. apply Z.ltb_ge in E3.
      injection E; intros <-. exists n. split; [exact Eo|]. split; [reflexivity|]. split; [exact E3|].
      split; [right; f_equal; exact E2|]. destruct (hr_length reply); [exact En | injection En; auto].
    + rewrite beqb_refl in E. cbn [negb] in E.
      apply rbind_ok in E as [n [En E]]. destruct (Z.ltb OCSP_MAX_RESPONSE_SIZE n) eqn:E3; [discriminate|]. apply Z.ltb_ge in E3.
      injection E; intros <-. exists n. split; [exact Eo|]. split; [reflexivity|]. split; [exact E3|].
      split; [left; reflexivity|]. destruct (hr_length reply); [exact En | injection En; auto].
  - intros ((netloc & Es & Nn & Nr) & reply & n & Eo & -> & L & T & Ln). rewrite Es. cbn [rbind]. rewrite beqb_refl. cbn [negb].
    destruct netloc; [congruence|]. destruct req; [congruence|]. cbn [is_nil]. rewrite Eo. cbn [rbind].
    assert (Ty : match hr_type reply with Some t => t | None => ocsp_response_type end = ocsp_response_type) by (destruct T as [-> | ->]; reflexivity).
    rewrite Ty, beqb_refl. cbn [negb].
    assert (Le : match hr_length reply with Some l => l | None => Ok OCSP_MAX_RESPONSE_SIZE end = Ok n) by (destruct (hr_length reply); [exact Ln | rewrite Ln; reflexivity]).
    rewrite Le. cbn [rbind]. replace (Z.ltb OCSP_MAX_RESPONSE_SIZE n) with false by (symmetry; apply Z.ltb_ge; exact L). reflexivity.
Qed.
Lemma fetch_quiet H url req net : ~ askable H url req -> fetch (mkHttp (ht_split H) net) url req = fetch H url req /\ exists e, fetch H url req = Err e.
Proof.
  intro Na. unfold fetch. cbn [ht_split ht_open]. destruct (ht_split H url) as [[scheme netloc]|e] eqn:Es; cbn [rbind]; [|eauto].
  destruct (beqb scheme (ascii_bytes "http"%string)) eqn:E1; cbn [negb]; [|eauto]. apply beqb_eq in E1. subst scheme.
  destruct netloc as [|x netloc]; cbn [is_nil]; [eauto|]. destruct req as [|y req]; cbn [is_nil]; [eauto|].
  destruct Na. exists (x :: netloc). split; [exact Es|]. split; discriminate.
Qed.
Lemma cached_quiet H1 H2 now url1 url2 q k r until : assocB q (k_map k) = Some (r, until) -> r <> [] -> now < until ->
  request H1 now url1 q k = request H2 now url2 q k.
Proof. intros A N L. unfold request. rewrite A. destruct r; [congruence|]. apply N.ltb_lt in L. rewrite L. reflexivity. Qed.
Lemma assocB_other {V} q x (m : list (bytes * V)) : x <> q -> assocB x (delB q m) = assocB x m.
Proof.
  intro N. induction m as [|[a b] m IH]; [reflexivity|]. unfold delB in *. cbn [filter fst assocB].
  destruct (beqb q a) eqn:E; cbn [negb].
  - apply beqb_eq in E. subst a. rewrite IH. destruct (beqb x q) eqn:E; [apply beqb_eq in E; congruence | reflexivity].
  - cbn [assocB]. rewrite IH. reflexivity.
Qed.
Lemma others_kept H now url q x k : x <> q -> fst (request H now url x (uncache q k)) = fst (request H now url x k).
Proof.
  intro N. unfold request, uncache. cbn [k_map]. rewrite (assocB_other q x _ N).
  destruct (assocB x (k_map k)) as [[[|y r] u]|]; [reflexivity | destruct (now <? u); reflexivity | reflexivity].
Qed.
