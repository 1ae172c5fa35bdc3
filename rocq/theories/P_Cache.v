(* The OCSP cache. *)
From Coq Require Import ZArith.
From Verif Require Import Base P_Base OcspCache S_Cache.

Definition kok (k : kstate) : Prop :=
  NoDup (map fst (k_map k)) /\ incl (map fst (k_map k)) (map snd (k_heap k)) /\ (length (k_heap k) <= 64)%nat.
Lemma delB_keys {V} q (m : list (bytes * V)) x : In x (map fst (delB q m)) <-> In x (map fst m) /\ x <> q.
Proof.
  unfold delB. rewrite !in_map_iff. split.
  - intros ([a b] & <- & I). apply filter_In in I. destruct I as [I N]. cbn in *. split; [exists (a, b); auto|].
    intros ->. rewrite beqb_refl in N. discriminate.
  - intros [([a b] & <- & I) N]. exists (a, b). split; [reflexivity|]. apply filter_In. split; [exact I|]. cbn in *.
    destruct (beqb q a) eqn:E; [|reflexivity]. apply beqb_eq in E. congruence.
Qed.
Lemma delB_nodup {V} q (m : list (bytes * V)) : NoDup (map fst m) -> NoDup (map fst (delB q m)).
Proof.
  induction m as [|[a b] m IH]; intro N; [constructor|]. inversion N; subst. unfold delB in *. cbn [filter map fst] in *.
  destruct (beqb q a) eqn:E; cbn [negb]; [apply IH; assumption|]. cbn. constructor; [|apply IH; assumption].
  intro I. apply (delB_keys q m) in I. tauto.
Qed.
Lemma assocB_del {V} q x (m : list (bytes * V)) v : assocB x (delB q m) = Some v -> x <> q /\ assocB x m = Some v.
Proof.
  induction m as [|[a b] m IH]; cbn; [discriminate|]. destruct (beqb q a) eqn:E; cbn [negb].
  - intro A. destruct (IH A) as [N A']. split; [exact N|]. apply beqb_eq in E. subst a. destruct (beqb x q) eqn:E; [|exact A'].
    apply beqb_eq in E. contradiction.
  - cbn. destruct (beqb x a) eqn:E2; [|exact IH]. intro A. apply beqb_eq in E2. subst a. split; [|exact A]. intros ->. rewrite beqb_refl in E. discriminate.
Qed.
Lemma assocB_in {V} x (m : list (bytes * V)) : assocB x m = None -> ~ In x (map fst m).
Proof.
  induction m as [|[a b] m IH]; cbn; [tauto|]. destruct (beqb x a) eqn:E; [discriminate|]. intros A [->|I]; [rewrite beqb_refl in E; discriminate | exact (IH A I)].
Qed.
Lemma assocB_some {V} x (m : list (bytes * V)) v : assocB x m = Some v -> In x (map fst m).
Proof. induction m as [|[a b] m IH]; cbn; [discriminate|]. destruct (beqb x a) eqn:E; [apply beqb_eq in E; auto | auto]. Qed.
Lemma push_len x h : length (heappush x h) = S (length h).
Proof. induction h as [|y h IH]; [reflexivity|]. cbn. destruct (limit_lt y x); cbn; [rewrite IH|]; reflexivity. Qed.
Lemma push_in x h y : In y (heappush x h) <-> y = x \/ In y h.
Proof.
  induction h as [|z h IH]; cbn; [intuition congruence|]. destruct (limit_lt z x); cbn; [rewrite IH|]; intuition congruence.
Qed.
Lemma uncache_ok q k : kok k -> kok (uncache q k).
Proof.
  intros (N & I & L). split; [apply delB_nodup, N|]. split; [|exact L]. intros x K. apply delB_keys in K. apply I, K.
Qed.
Lemma evict_ok fuel k : kok k -> (length (k_heap k) <= fuel)%nat ->
  exists k', evict fuel k = Ok k' /\ kok k' /\ (length (k_heap k') < 64)%nat /\
    forall x v, assocB x (k_map k') = Some v -> assocB x (k_map k) = Some v.
Proof.
  revert k. induction fuel as [|fuel IH]; intros k K L; cbn [evict]; unfold CACHE_ENTRIES.
  - destruct (k_heap k) as [|a h] eqn:E; [|cbn in L; lia]. exists k. split; [reflexivity|]. split; [exact K|]. rewrite E. cbn. split; [lia | auto].
  - destruct (N.of_nat (length (k_heap k)) <? 64) eqn:B.
    + apply N.ltb_lt in B. exists k. split; [reflexivity|]. split; [exact K|]. split; [lia | auto].
    + apply N.ltb_ge in B. destruct (k_heap k) as [|[u q] h] eqn:E; [cbn in B; lia|].
      destruct K as (K1 & K2 & K3). destruct (IH (uncache q (mkK (k_map k) h))) as (k' & F & Kk & L' & A).
      * split; [apply delB_nodup; exact K1|]. split.
        { intros x I. cbn in I. apply delB_keys in I. destruct I as [I X]. apply K2 in I. rewrite E in I. cbn in I. destruct I; [congruence | assumption]. }
        { cbn. rewrite E in K3. cbn in K3. lia. }
      * cbn in *. lia.
      * exists k'. split; [exact F|]. split; [exact Kk|]. split; [exact L'|]. intros x v X. apply A in X. cbn in X. apply assocB_del in X. apply X.
Qed.
Lemma cache_ok until q r k : kok k -> exists k', cache until q r k = Ok k' /\ kok k' /\
  forall x v, assocB x (k_map k') = Some v -> assocB x (k_map k) = Some v \/ (x = q /\ v = (r, until)).
Proof.
  intro K. unfold cache. destruct (assocB q (k_map k)) as [v0|] eqn:A; cbn [opt_bool].
  - exists k. split; [reflexivity|]. auto.
  - destruct (evict_ok (length (k_heap k)) k K (le_n _)) as (k1 & F & (N & I & L) & L' & A1). rewrite F. cbn [rbind]. eexists. split; [reflexivity|]. split.
    + split; cbn.
      * constructor; [|exact N]. intro X. destruct (assocB q (k_map k1)) as [v|] eqn:B; [|apply assocB_in in B; contradiction].
        apply A1 in B. congruence.
      * split; [|rewrite push_len; lia]. intros x [<-|X].
        { apply in_map_iff. exists (until, q). split; [reflexivity|]. apply push_in. auto. }
        { apply I in X. apply in_map_iff in X. destruct X as (y & <- & Y). apply in_map_iff. exists y. split; [reflexivity|]. apply push_in. auto. }
    + cbn. intros x v. destruct (beqb x q) eqn:E; [|auto]. apply beqb_eq in E. intro X. injection X; intros <-. auto.
Qed.
Lemma request_ok H now url q k : kok k -> kok (snd (request H now url q k)) /\
  forall x v, assocB x (k_map (snd (request H now url q k))) = Some v -> assocB x (k_map k) = Some v.
Proof.
  intro K. unfold request. destruct (assocB q (k_map k)) as [[[|y r] u]|]; try (split; [exact K | auto]).
  destruct (now <? u); [split; [exact K | auto]|]. cbn. split; [apply uncache_ok, K|]. intros x v X. apply assocB_del in X. apply X.
Qed.
Lemma kstep_ok o k : kok k -> exists k', kstep o k = Ok k' /\ kok k' /\
  forall x r u, assocB x (k_map k') = Some (r, u) -> o <> KUncache x /\ (assocB x (k_map k) = Some (r, u) \/ o = KCache u x r).
Proof.
  intro K. destruct o as [H now url q|u q r|q]; cbn [kstep].
  - destruct (request_ok H now url q k K) as [K' A]. eexists. split; [reflexivity|]. split; [exact K'|]. intros x r u X. split; [discriminate|]. left. apply A. exact X.
  - destruct (cache_ok u q r k K) as (k' & E & K' & A). exists k'. split; [exact E|]. split; [exact K'|]. intros x r' u' X. split; [discriminate|].
    apply A in X. destruct X as [X|[-> X]]; [auto|]. injection X; intros -> ->. auto.
  - eexists. split; [reflexivity|]. split; [apply uncache_ok, K|]. intros x r u X. cbn in X. apply assocB_del in X. destruct X as [N X].
    split; [congruence | auto].
Qed.
Lemma k_empty_ok : kok k_empty.
Proof. split; [constructor|]. split; [intros x []|]. cbn. lia. Qed.
Lemma krun_snoc ops o k : krun (ops ++ [o]) k = (let* k1 := krun ops k in kstep o k1).
Proof.
  revert k. induction ops as [|p ops IH]; intro k; cbn.
  - destruct (kstep o k); reflexivity.
  - destruct (kstep p k) as [k1|]; [apply IH | reflexivity].
Qed.
Lemma krun_ok ops : exists k, krun ops k_empty = Ok k /\ kok k /\
  forall x r u, assocB x (k_map k) = Some (r, u) -> given ops x r u.
Proof.
  induction ops as [|o ops IH] using rev_ind.
  - exists k_empty. split; [reflexivity|]. split; [exact k_empty_ok|]. intros x r u X. discriminate X.
  - destruct IH as (k & E & K & A). destruct (kstep_ok o k K) as (k' & E' & K' & A'). exists k'. rewrite krun_snoc, E. split; [exact E'|]. split; [exact K'|].
    intros x r u X. destruct (A' x r u X) as [N [Y| ->]].
    + destruct (A x r u Y) as (pre & post & -> & NI). exists pre, (post ++ [o]). split; [rewrite <- app_assoc; reflexivity|].
      intro I. apply in_app_iff in I. destruct I as [I|[->|[]]]; [exact (NI I) | congruence].
    + exists ops, []. split; [reflexivity | intros []].
Qed.
Lemma cache_bounded ops : exists k, krun ops k_empty = Ok k /\ (entries k <= 64)%nat /\ (length (k_heap k) <= 64)%nat.
Proof.
  destruct (krun_ok ops) as (k & E & (N & I & L) & _). exists k. split; [exact E|]. split; [|exact L]. unfold entries.
  pose proof (NoDup_incl_length N I) as X. rewrite !map_length in X. lia.
Qed.
Lemma fetch_down H url q r : fetch H url q = Ok r -> downloaded H url q r /\
  exists reply n, ht_open H url q = Ok reply /\ r = hr_read reply n /\ (n <= 20480)%Z.
Proof.
  unfold fetch, downloaded. destruct (ht_split H url) as [[sc nl]|]; [|discriminate]. cbn [rbind].
  destruct (negb _); [discriminate|]. destruct (is_nil nl); [discriminate|]. destruct (is_nil q); [discriminate|].
  destruct (ht_open H url q) as [rp|]; [|discriminate]. cbn [rbind].
  destruct (negb _); [discriminate|]. destruct (match hr_length rp with Some l => l | None => _ end) as [n|]; [|discriminate]. cbn [rbind].
  destruct (Z.ltb OCSP_MAX_RESPONSE_SIZE n) eqn:L; [discriminate|]. apply Z.ltb_ge in L. intro X; injection X; intros <-.
  split; exists rp, n; auto.
Qed.
Lemma request_fresh ops H now url q k r k' : krun ops k_empty = Ok k -> request H now url q k = (Ok r, k') ->
  downloaded H url q r \/ exists until, given ops q r until /\ now < until.
Proof.
  intros E R. destruct (krun_ok ops) as (k0 & E0 & _ & A). assert (k0 = k) by congruence. subst k0. unfold request in R.
  destruct (assocB q (k_map k)) as [[[|y s] u]|] eqn:X.
  - injection R; intros _ F. left. apply fetch_down in F. apply F.
  - destruct (now <? u) eqn:L; injection R; intros _ F.
    + right. exists u. subst r. split; [apply A; exact X | apply N.ltb_lt; exact L].
    + left. apply fetch_down in F. apply F.
  - injection R; intros _ F. left. apply fetch_down in F. apply F.
Qed.
(* what was just cached is served as long as it is valid, without the network *)
Lemma request_served until q r k k' H now url : assocB q (k_map k) = None -> cache until q r k = Ok k' -> r <> [] -> now < until ->
  request H now url q k' = (Ok r, k').
Proof.
  intros A E N L. unfold cache in E. rewrite A in E. cbn [opt_bool] in E. destruct (evict _ _) as [k1|]; [|discriminate]. cbn [rbind] in E. injection E; intros <-.
  unfold request. cbn [k_map assocB]. rewrite beqb_refl. destruct r as [|y r]; [contradiction|]. apply N.ltb_lt in L. rewrite L. reflexivity.
Qed.
Lemma request_after_uncache ops H now url q k r k' : krun (ops ++ [KUncache q]) k_empty = Ok k -> request H now url q k = (Ok r, k') ->
  downloaded H url q r.
Proof.
  intros E R. destruct (request_fresh _ _ _ _ _ _ _ _ E R) as [D|(u & (pre & post & P & N) & _)]; [exact D|]. exfalso.
  apply N. destruct (exists_last (l := post)) as (post' & o & ->).
  - intros ->. apply app_inj_tail in P. destruct P as [_ P]. discriminate.
  - change (pre ++ KCache u q r :: post' ++ [o]) with (pre ++ (KCache u q r :: post') ++ [o]) in P. rewrite app_assoc in P. apply app_inj_tail in P. destruct P as [_ <-]. apply in_app_iff. right. left. reflexivity.
Qed.
(* a size that is not positive comes from the header *)
Lemma fetch_size H url q r : fetch H url q = Ok r ->
  exists reply n, ht_open H url q = Ok reply /\ r = hr_read reply n /\ (n <= 20480)%Z /\ ((n < 0)%Z -> hr_length reply = Some (Ok n)).
Proof.
  unfold fetch. destruct (ht_split H url) as [[sc nl]|]; [|discriminate]. cbn [rbind].
  destruct (negb _); [discriminate|]. destruct (is_nil nl); [discriminate|]. destruct (is_nil q); [discriminate|].
  destruct (ht_open H url q) as [rp|]; [|discriminate]. cbn [rbind].
  destruct (negb _); [discriminate|]. destruct (match hr_length rp with Some l => l | None => _ end) as [n|] eqn:E; [|discriminate]. cbn [rbind].
  destruct (Z.ltb OCSP_MAX_RESPONSE_SIZE n) eqn:L; [discriminate|]. apply Z.ltb_ge in L. intro X; injection X; intros <-.
  exists rp, n. repeat split; [exact L|]. intro M. destruct (hr_length rp) as [l|]; [rewrite E; reflexivity|].
  injection E; intros <-. discriminate M.
Qed.
Lemma request_size H now url q k r k' : (forall r' u, assocB q (k_map k) = Some (r', u) -> r' = [] \/ u <= now) ->
  request H now url q k = (Ok r, k') ->
  exists reply n, ht_open H url q = Ok reply /\ r = hr_read reply n /\ (n <= 20480)%Z /\ ((n < 0)%Z -> hr_length reply = Some (Ok n)).
Proof.
  intros N R. unfold request in R. destruct (assocB q (k_map k)) as [[[|y s] u]|] eqn:E.
  - injection R; intros _ F. exact (fetch_size _ _ _ _ F).
  - destruct (N _ _ eq_refl) as [X|X]; [discriminate|]. apply N.ltb_ge in X. rewrite X in R.
    injection R; intros _ F. exact (fetch_size _ _ _ _ F).
  - injection R; intros _ F. exact (fetch_size _ _ _ _ F).
Qed.
Lemma request_bounded H now url q k r k' : (forall r' u, assocB q (k_map k) = Some (r', u) -> r' = [] \/ u <= now) ->
  (forall reply n, ht_open H url q = Ok reply -> (0 <= n)%Z -> blen (hr_read reply n) <= Z.to_N n) ->
  (forall reply n, ht_open H url q = Ok reply -> hr_length reply = Some (Ok n) -> (0 <= n)%Z) ->
  request H now url q k = (Ok r, k') -> blen r <= 20480.
Proof.
  intros N P G R. destruct (request_size _ _ _ _ _ _ _ N R) as (rp & n & O & -> & L & M).
  assert (0 <= n)%Z as Z by (destruct (Z.ltb n 0) eqn:E; [apply Z.ltb_lt in E; exact (G _ _ O (M E)) | apply Z.ltb_ge in E; exact E]).
  specialize (P _ _ O Z). lia.
Qed.
