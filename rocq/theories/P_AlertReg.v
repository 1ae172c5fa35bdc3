(* C78: proofs. *)
From Coq Require Import PeanoNat FinFun.
From Verif Require Import Base P_Base Serial Iana Ext Msg Conn AlertReg S_AlertReg P_Monad.

(* the class every registry has for a description, if it has one *)
Definition known (d : N) : option aclass := a_get d a_import.
Definition regular (g : areg) : Prop :=
  (forall d, memN d alert_descriptions = true -> a_get d g = known d) /\
  (forall d c, memN d alert_descriptions = false -> a_get d g = Some c -> a_desc c = d /\ a_fatal c = false) /\
  NoDup (map fst g) /\ (forall d, In d (map fst g) -> d < 256).

Lemma a_get_set d d' v g : a_get d (a_set d' v g) = if d =? d' then Some v else a_get d g.
Proof.
  induction g as [|[k w] g IH]; cbn [a_set a_get]; [reflexivity|].
  destruct (d' =? k) eqn:E; cbn [a_get].
  - apply N.eqb_eq in E. subst k. destruct (d =? d'); reflexivity.
  - rewrite IH. destruct (d =? k) eqn:F; [|reflexivity]. apply N.eqb_eq in F. subst k.
    rewrite N.eqb_sym in E. rewrite E. reflexivity.
Qed.
Lemma a_keys_set d v g : forall x, In x (map fst (a_set d v g)) -> x = d \/ In x (map fst g).
Proof.
  induction g as [|[k w] g IH]; cbn [a_set map fst]; intros x H.
  - destruct H as [<-|[]]. auto.
  - destruct (d =? k); cbn [map fst] in *; [right; exact H|]. destruct H as [<-|H]; [right; left; reflexivity|].
    destruct (IH x H) as [->|I]; [left; reflexivity | right; right; exact I].
Qed.
Lemma a_nodup_set d v g : NoDup (map fst g) -> NoDup (map fst (a_set d v g)).
Proof.
  induction g as [|[k w] g IH]; cbn [a_set map fst]; intro H; [constructor; [intros []|constructor]|].
  inversion H as [|? ? A B]; subst. destruct (d =? k) eqn:E; cbn [map fst]; [constructor; assumption|].
  constructor; [|apply IH; exact B]. intro I. apply a_keys_set in I. destruct I as [->|I]; [rewrite N.eqb_refl in E; discriminate | exact (A I)].
Qed.

Lemma known_unknown d : memN d alert_descriptions = false -> known d = None.
Proof.
  intro H. unfold known. destruct (a_get d a_import) as [c|] eqn:E; [|reflexivity]. exfalso.
  assert (In d (map fst a_import)).
  { clear H. revert E. generalize a_import. intro g. induction g as [|[k w] g IH]; cbn; [discriminate|].
    destruct (d =? k) eqn:F; [apply N.eqb_eq in F; auto | auto]. }
  assert (map fst a_import = alert_descriptions) as X by (vm_compute; reflexivity). rewrite X in H0.
  apply memN_In in H0 || apply (proj2 (memN_iff _ _)) in H0. congruence.
Qed.
Lemma known_desc d : memN d alert_descriptions = true ->
  exists c, known d = Some c /\ a_desc c = d /\ a_member c = true /\ a_fatal c = negb ((d =? CLOSE_NOTIFY) || (d =? USER_CANCELED)).
Proof.
  intro H. apply memN_In in H. cbn in H.
  repeat (destruct H as [H|H]; [subst d; eexists; repeat split; reflexivity|]). destruct H.
Qed.
Lemma regular_import : regular a_import.
Proof.
  split; [reflexivity|]. split.
  - intros d c H E. fold (known d) in E. rewrite (known_unknown d H) in E. discriminate.
  - assert (map fst a_import = alert_descriptions) as X by (vm_compute; reflexivity). rewrite X. split.
    + unfold alert_descriptions. repeat (constructor; [cbn; intuition discriminate|]). constructor.
    + intros d I. cbn in I. repeat (destruct I as [I|I]; [subst d; reflexivity|]). destruct I.
Qed.

Lemma read_exactly_ok n s b s1 : read_exactly n s = Ok (b, s1) -> blen b = n.
Proof.
  unfold read_exactly. destruct (n =? 0) eqn:E; [apply N.eqb_eq in E; intro H; injection H as <- _; symmetry; exact E|].
  destruct (read_n n s) as [[got s2]|]; [|discriminate]. cbn [rbind].
  destruct (blen got =? n) eqn:F; [apply N.eqb_eq in F; intro H; injection H as <- _; exact F|].
  destruct got as [|x got]; [discriminate|]. destruct (read_n _ s2) as [[got2 s3]|]; [|discriminate]. cbn [rbind].
  destruct got2 as [|y got2]; [discriminate|]. destruct (_ + _ =? n) eqn:G; [|discriminate].
  apply N.eqb_eq in G. intro H. injection H as <- _. rewrite <- G. change (x :: got ++ y :: got2) with ((x :: got) ++ (y :: got2)). apply blen_app.
Qed.
Lemma read_byte s d s1 : read_int 1 s = Ok (d, s1) -> d < 256.
Proof.
  unfold read_int. cbn [N.eqb Pos.eqb]. destruct (read_exactly 1 s) as [[b s2]|] eqn:E; [|discriminate]. cbn [rbind].
  intro H. injection H as <- _. apply read_exactly_ok in E.
  pose proof (of_bytes_lt b) as L. rewrite E in L. exact L.
Qed.

(* what an alert means *)
Definition decide (level d : N) : verdict :=
  if d =? CLOSE_NOTIFY then VClosed
  else if level =? WARNING then if memN d alert_descriptions then VIgnored else VRaised XAttr
  else if memN d alert_descriptions && negb (d =? USER_CANCELED) then VRaised (XAlert d) else VRaised XType.
Definition heard (s : stream) : res (N * N) :=
  let* (level, s1) := read_enum 1 [WARNING; FATAL] ILLEGAL_PARAMETER s in
  let* (d, s2) := read_int 1 s1 in Ok (level, d).
Definition meaning (s : stream) : verdict := match heard s with Err e => VRaised e | Ok (l, d) => decide l d end.

(* the alert held by a thread *)
Definition holds (s : stream) (a : alert) (g : areg) : Prop :=
  heard s = Ok (al_level a, a_desc (al_class a)) /\
  a_member (al_class a) = memN (a_desc (al_class a)) alert_descriptions /\
  (memN (a_desc (al_class a)) alert_descriptions = false -> a_get (a_desc (al_class a)) g <> None).

Lemma parse_keeps s g r g' : parse_alert_reg s g = (r, g') -> forall d, a_get d g <> None -> a_get d g' <> None.
Proof.
  unfold parse_alert_reg. destruct (read_enum _ _ _ s) as [[level s1]|e]; [|intro H; injection H as <- <-; auto].
  destruct (read_int 1 s1) as [[d s2]|e]; [|intro H; injection H as <- <-; auto].
  destruct (memN d alert_descriptions).
  - destruct (a_get d g); intro H; injection H as <- <-; auto.
  - intro H; injection H as <- <-. intros x Hx. unfold a_register. cbn [a_desc]. rewrite a_get_set. destruct (x =? d); [discriminate | exact Hx].
Qed.
Lemma regular_parse s g r g' : regular g -> parse_alert_reg s g = (r, g') -> regular g' /\
  match r with Ok (a, _) => holds s a g' | Err e => heard s = Err e end.
Proof.
  intros R. unfold parse_alert_reg, holds, heard.
  destruct (read_enum _ _ _ s) as [[level s1]|e]; [|intro H; injection H as <- <-; split; [exact R | reflexivity]]. cbn [rbind].
  destruct (read_int 1 s1) as [[d s2]|e] eqn:E1; [|intro H; injection H as <- <-; split; [exact R | reflexivity]]. cbn [rbind].
  destruct (memN d alert_descriptions) eqn:M.
  - destruct (known_desc d M) as (c & K1 & K2 & K3 & _). rewrite (proj1 R d M), K1.
    intro H; injection H as <- <-. split; [exact R|]. cbn [al_class al_level]. rewrite K2, K3, M. split; [reflexivity|]. split; [reflexivity | discriminate].
  - intro H; injection H as <- <-. destruct R as (A & B & D & E). split.
    + unfold a_register. cbn [a_desc]. split; [|split; [|split]].
      * intros x Mx. rewrite a_get_set. destruct (x =? d) eqn:F; [apply N.eqb_eq in F; congruence | auto].
      * intros x c Mx. rewrite a_get_set. destruct (x =? d) eqn:F; [|auto].
        apply N.eqb_eq in F. subst x. intro H. injection H as <-. auto.
      * apply a_nodup_set. exact D.
      * intros x I. apply a_keys_set in I. destruct I as [->|I]; [exact (read_byte _ _ _ E1) | auto].
    + cbn [al_class al_level a_desc a_member]. split; [reflexivity|]. split; [symmetry; exact M|]. intros _.
      unfold a_register. cbn [a_desc]. rewrite a_get_set, N.eqb_refl. discriminate.
Qed.
Lemma process_meaning s a g : regular g -> holds s a g -> process_alert_reg a g = meaning s.
Proof.
  intros (A & B & _) (H1 & H2 & H3). unfold meaning. rewrite H1. unfold process_alert_reg, decide. rewrite H2.
  set (d := a_desc (al_class a)) in *. destruct (d =? CLOSE_NOTIFY) eqn:Ec; [reflexivity|].
  destruct (al_level a =? WARNING); [reflexivity|].
  destruct (memN d alert_descriptions) eqn:M.
  - destruct (known_desc d M) as (c & K1 & K2 & K3 & K4). rewrite (A d M), K1, K4, K2, Ec. cbn [orb andb].
    destruct (d =? USER_CANCELED); reflexivity.
  - cbn [andb]. destruct (a_get d g) as [c|] eqn:G; [|exfalso; exact (H3 eq_refl eq_refl)].
    rewrite (proj2 (B d c M G)). reflexivity.
Qed.

Definition winv (w : aworld) : Prop :=
  regular (a_reg w) /\ (forall i s a, In (i, (s, a)) (a_held w) -> holds s a (a_reg w)) /\
  (forall i s v, In (AHap i s v) (a_past w) -> v = meaning s).
Lemma a_find_in i l x : a_find i l = Some x -> In (i, x) l.
Proof.
  induction l as [|[j y] l IH]; cbn; [discriminate|]. destruct (Nat.eqb i j) eqn:E; [|auto].
  apply Nat.eqb_eq in E. subst j. intro H. injection H as <-. auto.
Qed.
Lemma winv_do e w : winv w -> winv (ado e w).
Proof.
  intros (R & H & P). destruct e as [i s|i]; cbn [ado].
  - destruct (a_find i (a_held w)); [split; auto|].
    destruct (parse_alert_reg s (a_reg w)) as [r g] eqn:E. pose proof (regular_parse s _ r g R E) as [R' X].
    pose proof (parse_keeps s _ r g E) as K.
    assert (Hk : forall j t b, In (j, (t, b)) (a_held w) -> holds t b g).
    { intros j t b I. destruct (H j t b I) as (A & B & D). split; [exact A|]. split; [exact B|]. intro M. apply K. apply D. exact M. }
    destruct r as [[a s2]|x]; (split; [exact R'|]; split; cbn [a_held a_past a_reg]).
    + intros j t b [I|I]; [injection I as <- <- <-; exact X | exact (Hk j t b I)].
    + exact P.
    + exact Hk.
    + intros j t v [I|I]; [injection I as <- <- <-; unfold meaning; rewrite X; reflexivity | exact (P j t v I)].
  - destruct (a_find i (a_held w)) as [[s a]|] eqn:F; [|split; auto]. apply a_find_in in F.
    split; [exact R|]. split; cbn [a_held a_past a_reg].
    + intros j t b I. apply filter_In in I. exact (H j t b (proj1 I)).
    + intros j t v [I|I]; [injection I as <- <- <-; apply process_meaning; [exact R | exact (H i s a F)] | exact (P j t v I)].
Qed.
Lemma winv_run l : forall w, winv w -> winv (arun l w).
Proof. induction l as [|e l IH]; intros w H; [exact H|]. cbn [arun]. apply IH. apply winv_do. exact H. Qed.
Lemma winv_start : winv a_start.
Proof. split; [exact regular_import|]. split; [intros ? ? ? []|intros ? ? ? []]. Qed.

Lemma alone_meaning i s : a_past (arun [AParse i s; AProcess i] a_start) = [AHap i s (meaning s)].
Proof.
  pose proof (winv_run [AParse i s; AProcess i] a_start winv_start) as (_ & _ & P).
  cbn [arun ado a_start a_held a_find a_reg a_past] in *.
  destruct (parse_alert_reg s a_import) as [[[a s2]|x] g]; cbn [ado a_held a_find a_reg a_past] in *.
  - rewrite Nat.eqb_refl in *. cbn [a_past] in *. rewrite (P _ _ _ (or_introl eq_refl)). reflexivity.
  - rewrite (P _ _ _ (or_introl eq_refl)). reflexivity.
Qed.
Lemma as_alone l i s v : In (AHap i s v) (a_past (arun l a_start)) ->
  a_past (arun [AParse i s; AProcess i] a_start) = [AHap i s v].
Proof. intro H. rewrite alone_meaning. rewrite (proj2 (proj2 (winv_run l _ winv_start)) i s v H). reflexivity. Qed.
Lemma small l : NoDup (map fst (a_reg (arun l a_start))) /\ (length (a_reg (arun l a_start)) <= 256)%nat.
Proof.
  destruct (winv_run l _ winv_start) as ((_ & _ & D & E) & _). split; [exact D|].
  rewrite <- (map_length fst). set (k := map fst (a_reg (arun l a_start))) in *.
  rewrite <- (map_length N.to_nat). apply (Nat.le_trans _ (length (seq 0 256))); [|rewrite seq_length; reflexivity].
  apply NoDup_incl_length.
  - apply FinFun.Injective_map_NoDup; [|exact D]. intros x y H. apply N2Nat.inj. exact H.
  - intros x I. apply in_map_iff in I. destruct I as (y & <- & I). apply in_seq. pose proof (E y I). lia.
Qed.
Lemma kept l d c : a_get d a_import = Some c -> a_get d (a_reg (arun l a_start)) = Some c.
Proof.
  intro H. destruct (winv_run l _ winv_start) as ((A & _) & _). rewrite (A d); [exact H|].
  destruct (memN d alert_descriptions) eqn:M; [reflexivity|]. apply known_unknown in M. unfold known in M. congruence.
Qed.
Lemma same_as_model l i s v c : In (AHap i s v) (a_past (arun l a_start)) -> verdict_of s c v.
Proof.
  intro H. rewrite (proj2 (proj2 (winv_run l _ winv_start)) i s v H). unfold verdict_of, meaning, parse_alert, heard.
  destruct (read_enum _ _ _ s) as [[level s1]|e]; [|reflexivity]. cbn [rbind].
  destruct (read_int 1 s1) as [[d s2]|e]; [|reflexivity]. cbn [rbind]. unfold base_process, decide.
  destruct (d =? CLOSE_NOTIFY); [left; split; reflexivity|].
  destruct (level =? WARNING); [destruct (memN d alert_descriptions); [right|]; split; reflexivity|].
  destruct (_ && _); split; reflexivity.
Qed.
