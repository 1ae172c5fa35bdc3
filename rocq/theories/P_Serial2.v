(* Proofs of C28 and C29. *)
From Verif Require Import Base P_Base Serial P_Serial S_Serial.

Lemma reads_before {A} (p : stream -> res (A * stream)) b x pre post limits :
  reads p b x -> fits limits (blen pre + blen b) ->
  p (before pre b post limits) = Ok (x, after pre b post limits).
Proof.
  intros H HF. unfold before, after.
  rewrite (H _ post); [reflexivity| |exact HF].
  unfold rest. cbn. apply bdrop_app_exact.
Qed.

Lemma int_roundtrip n v b pre post limits : (n <> 0)%nat -> write_int n v = Ok b ->
  fits limits (blen pre + blen b) ->
  read_int (N.of_nat n) (before pre b post limits) = Ok (v, after pre b post limits).
Proof.
  intros Hn H. apply reads_before. apply to_bytes_ok in H as [-> [Hv _]]. apply reads_int; assumption.
Qed.
Lemma var_roundtrip n d b pre post limits : (n <> 0)%nat -> write_var n d = Ok b ->
  fits limits (blen pre + blen b) ->
  read_var (N.of_nat n) (before pre b post limits) = Ok (d, after pre b post limits).
Proof.
  intros Hn H. apply reads_before. apply put_var_ok in H as [-> Hv]. apply reads_var; assumption.
Qed.
Lemma listint_roundtrip n m l b pre post limits :
  (n <> 0)%nat -> (m <> 0)%nat -> write_listint n m l = Ok b ->
  fits limits (blen pre + blen b) ->
  read_listint (N.of_nat n) (N.of_nat m) (before pre b post limits) = Ok (l, after pre b post limits).
Proof. intros Hn Hm H. apply reads_before. apply reads_listint; assumption. Qed.
Lemma listvar_roundtrip n m l b pre post limits :
  (n <> 0)%nat -> (m <> 0)%nat -> write_listvar n m l = Ok b ->
  fits limits (blen pre + blen b) ->
  read_listvar (N.of_nat n) (N.of_nat m) (before pre b post limits) = Ok (l, after pre b post limits).
Proof. intros Hn Hm H. apply reads_before. apply reads_listvar; assumption. Qed.

(* when writing succeeds, and what it raises otherwise *)
Lemma to_bytes_total n v :
  (v < 256 ^ N.of_nat n /\ exists b, to_bytes n v = Ok b) \/
  (256 ^ N.of_nat n <= v /\ to_bytes n v = Err XOverflow).
Proof.
  unfold to_bytes. destruct (v <? 256 ^ N.of_nat n) eqn:E.
  - left. apply N.ltb_lt in E. eauto.
  - right. apply N.ltb_ge in E. auto.
Qed.
Lemma put_var_total n b :
  (blen b < 256 ^ N.of_nat n /\ exists r, put_var n b = Ok r) \/
  (256 ^ N.of_nat n <= blen b /\ put_var n b = Err XOverflow).
Proof.
  unfold put_var. destruct (to_bytes_total n (blen b)) as [[H [r ->]]|[H ->]]; cbn; eauto.
Qed.
Lemma join_map_total {A} (f : A -> res bytes) (P : A -> Prop) e l :
  (forall x, (P x /\ exists b, f x = Ok b) \/ (~ P x /\ f x = Err e)) ->
  (Forall P l /\ exists b, join_map f l = Ok b) \/ (~ Forall P l /\ join_map f l = Err e).
Proof.
  intros H. induction l as [|x l IH]; cbn.
  - left. eauto.
  - destruct (H x) as [[Hx [b ->]]|[Hx ->]]; cbn.
    + destruct IH as [[Hl [r ->]]|[Hl ->]]; cbn.
      * left. split; eauto.
      * right. split; [|reflexivity]. intros HF. inversion HF; auto.
    + right. split; [|reflexivity]. intros HF. inversion HF; auto.
Qed.

Lemma write_int_total n v :
  (v < 256 ^ N.of_nat n /\ exists b, write_int n v = Ok b) \/
  (256 ^ N.of_nat n <= v /\ write_int n v = Err XOverflow).
Proof. apply to_bytes_total. Qed.
Lemma write_var_total n d :
  (blen d < 256 ^ N.of_nat n /\ exists b, write_var n d = Ok b) \/
  (256 ^ N.of_nat n <= blen d /\ write_var n d = Err XOverflow).
Proof. apply put_var_total. Qed.

Lemma write_listint_total n m l :
  ((N.of_nat (length l) * N.of_nat m < 256 ^ N.of_nat n /\ Forall (fun v => v < 256 ^ N.of_nat m) l) /\
   exists b, write_listint n m l = Ok b) \/
  (~ (N.of_nat (length l) * N.of_nat m < 256 ^ N.of_nat n /\ Forall (fun v => v < 256 ^ N.of_nat m) l) /\
   write_listint n m l = Err XOverflow).
Proof.
  unfold write_listint.
  destruct (to_bytes_total n (N.of_nat (length l) * N.of_nat m)) as [[H1 [a ->]]|[H1 ->]]; cbn.
  - destruct (join_map_total (to_bytes m) (fun v => v < 256 ^ N.of_nat m) XOverflow l) as [[H2 [b ->]]|[H2 ->]]; cbn.
    + intros x. destruct (to_bytes_total m x) as [?|[? ?]]; [left; auto|right; split; [lia|auto]].
    + left. split; eauto.
    + right. split; [|reflexivity]. intros [_ H]. auto.
  - right. split; [|reflexivity]. intros [H _]. lia.
Qed.

Lemma join_vars_size m l b : join_map (put_var m) l = Ok b -> blen b = vars_size m l.
Proof.
  revert b; induction l as [|d l IH]; intros b H; cbn in H.
  - inversion H. reflexivity.
  - apply rbind_ok in H as [x [Hx H]]. apply rbind_ok in H as [r [Hr H]]. inversion H; subst.
    apply put_var_ok in Hx as [-> _]. rewrite !blen_app, blen_be_bytes, (IH r Hr). reflexivity.
Qed.
Lemma write_listvar_total n m l :
  ((vars_size m l < 256 ^ N.of_nat n /\ Forall (fun d => blen d < 256 ^ N.of_nat m) l) /\
   exists b, write_listvar n m l = Ok b) \/
  (~ (vars_size m l < 256 ^ N.of_nat n /\ Forall (fun d => blen d < 256 ^ N.of_nat m) l) /\
   write_listvar n m l = Err XOverflow).
Proof.
  unfold write_listvar.
  destruct (join_map_total (put_var m) (fun d => blen d < 256 ^ N.of_nat m) XOverflow l) as [[H2 [b E]]|[H2 ->]]; cbn.
  - intros x. destruct (put_var_total m x) as [?|[? ?]]; [left; auto|right; split; [lia|auto]].
  - rewrite E. cbn. apply join_vars_size in E. rewrite E.
    destruct (to_bytes_total n (vars_size m l)) as [[H1 [a ->]]|[H1 ->]]; cbn.
    + left. split; eauto.
    + right. split; [|reflexivity]. intros [H _]. lia.
  - right. split; [|reflexivity]. intros [_ H]. auto.
Qed.

(* C29 *)
Lemma slice_is_slice d i j : i <= j -> j <= blen d -> is_slice d i j (slice i j d).
Proof.
  intros H1 H2. exists (btake i d), (bdrop j d). unfold slice.
  repeat split.
  - rewrite <- (btake_bdrop i d) at 1. f_equal.
    rewrite <- (btake_bdrop (j - i) (bdrop i d)) at 1. f_equal.
    rewrite bdrop_bdrop. f_equal. lia.
  - rewrite blen_btake. lia.
  - rewrite !blen_btake, blen_bdrop. lia.
Qed.


Lemma rrun_safe : forall fuel prog s out s1,
  inside s -> rrun fuel prog s = Ok (out, s1) ->
  s_data s1 = s_data s /\ s_limits s1 = s_limits s /\ s_pos s <= s_pos s1 /\ inside s1 /\
  Forall (chunk_ok (s_data s) (s_pos s) (s_pos s1)) out.
Proof.
  induction fuel as [|fuel IH]; intros prog s out s1 HI H; [discriminate|].
  destruct prog as [|o prog]; cbn [rrun] in H.
  { inversion H; subst. repeat split; auto; try apply HI. lia. }
  apply rbind_ok in H as [[out1 s2] [Ho H]]. apply rbind_ok in H as [[out2 s3] [Hp H]].
  inversion H; subst; clear H.
  assert (s_data s2 = s_data s /\ s_limits s2 = s_limits s /\ s_pos s <= s_pos s2 /\ inside s2 /\
          Forall (chunk_ok (s_data s) (s_pos s) (s_pos s2)) out1) as [D1 [L1 [P1 [I1 F1]]]].
  { assert (forall A (p : stream -> res (A * stream)), safe p ->
              (let* (_, s1) := p s in Ok (@nil (N * N * bytes), s1)) = Ok (out1, s2) ->
              s_data s2 = s_data s /\ s_limits s2 = s_limits s /\ s_pos s <= s_pos s2 /\ inside s2 /\
              Forall (chunk_ok (s_data s) (s_pos s) (s_pos s2)) out1) as Hs.
    { intros A p Hp0 H0. apply rbind_ok in H0 as [[x t] [H1 H2]]. inversion H2; subst.
      destruct (Hp0 _ _ _ HI H1) as [? [? [? J]]]. repeat split; auto; apply J. }
    assert (forall b, s_data s2 = s_data s -> s_pos s <= s_pos s2 -> inside s2 ->
              b = slice (s_pos s) (s_pos s2) (s_data s) ->
              Forall (chunk_ok (s_data s) (s_pos s) (s_pos s2)) [(s_pos s, s_pos s2, b)]) as Hc.
    { intros b HD HP [HI1 _] ->. repeat constructor; try lia. apply slice_is_slice; [assumption|].
      rewrite <- HD. assumption. }
    destruct o as [n| |n|n|n|n m|n m|n body].
    - apply rbind_ok in Ho as [[b t] [H1 H2]]. inversion H2; subst.
      destruct (read_n_spec _ _ _ _ HI H1) as [? [? [? [J ?]]]]. repeat split; auto; apply J.
    - destruct (read_all s) as [b t] eqn:E. inversion Ho; subst.
      destruct (read_all_spec _ _ _ HI E) as [? [? [? [J ?]]]]. repeat split; auto; apply J.
    - apply rbind_ok in Ho as [[b t] [H1 H2]]. inversion H2; subst.
      destruct (read_exactly_spec _ _ _ _ HI H1) as [? [? [J [? [? ?]]]]].
      assert (s_pos s <= s_pos s2) by lia. repeat split; auto; apply J.
    - apply (Hs _ _ (safe_int n) Ho).
    - apply (Hs _ _ (safe_var n) Ho).
    - apply (Hs _ _ (safe_listint n m) Ho).
    - apply (Hs _ _ (safe_listvar n m) Ho).
    - assert (forall lim : N, safe ((fun _ : N => rrun fuel body) lim)) as Hb.
      { intros _ t x t1 HIt Ht. destruct (IH _ _ _ _ HIt Ht) as [? [? [? [? _]]]]. auto. }
      destruct (with_limit_spec _ _ _ _ _ Hb HI Ho) as [? [? [? [J [t [Ht Hpos]]]]]].
      assert (inside (mkStream (s_data s) (s_pos s) (s_pos s + n :: s_limits s))) as HI2.
      { destruct HI. split; cbn; [assumption|lia]. }
      destruct (IH _ _ _ _ HI2 Ht) as [? [? [? [? F]]]]. cbn in *.
      rewrite Hpos in F. repeat split; auto; try apply J. lia. }
  destruct (IH _ _ _ _ I1 Hp) as [D2 [L2 [P2 [I2 F2]]]].
  repeat split; try congruence; try apply I2; [lia|].
  apply Forall_app. split.
  - eapply Forall_impl; [|exact F1]. intros [[i j] b] [? [? [? ?]]]. repeat split; auto. lia.
  - rewrite D1 in F2. eapply Forall_impl; [|exact F2].
    intros [[i j] b] [? [? [? ?]]]. repeat split; auto. lia.
Qed.

(* a limited element is consumed entirely: no more, no less *)
Lemma rrun_limit fuel n body s out s1 :
  inside s -> rrun (S (S fuel)) [RLimit n body] s = Ok (out, s1) -> s_pos s1 = s_pos s + n.
Proof.
  intros HI H. cbn [rrun] in H. apply rbind_ok in H as [[out1 s2] [Ho H]].
  cbn in H. inversion H; subst; clear H.
  change (with_limit n (fun _ : N => rrun (S fuel) body) s = Ok (out1, s1)) in Ho.
  assert (forall lim : N, safe ((fun _ : N => rrun (S fuel) body) lim)) as Hb.
  { intros _ t x t1 HIt Ht. destruct (rrun_safe _ _ _ _ _ HIt Ht) as [? [? [? [? _]]]]. auto. }
  destruct (with_limit_spec _ _ _ _ _ Hb HI Ho) as [? [? [? _]]]. assumption.
Qed.
