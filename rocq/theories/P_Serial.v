(* Lemmas about SerialIO. *)
From Verif Require Import Base P_Base Serial S_Serial.

(* what is left to read, ignoring limits *)
Definition rest (s : stream) : bytes := bdrop (s_pos s) (s_data s).
Definition adv (s : stream) (n : N) : stream := with_pos s (s_pos s + n).
Definition room (s : stream) (n : N) : Prop :=
  match s_limits s with [] => True | lim :: _ => s_pos s + n <= lim end.
Definition bounded (s : stream) (n : N) (post : bytes) : Prop :=
  match s_limits s with [] => post = [] | lim :: _ => lim = s_pos s + n end.

(* [p] reads exactly [b] and returns [x], whatever comes after *)
Definition reads {A} (p : stream -> res (A * stream)) (b : bytes) (x : A) : Prop :=
  forall s post, rest s = b ++ post -> room s (blen b) -> p s = Ok (x, adv s (blen b)).
(* the same when [b] ends where the element ends *)
Definition reads_end {A} (p : stream -> res (A * stream)) (b : bytes) (x : A) : Prop :=
  forall s post, rest s = b ++ post -> bounded s (blen b) post -> p s = Ok (x, adv s (blen b)).

Lemma adv_adv s n m : adv (adv s n) m = adv s (n + m).
Proof. unfold adv, with_pos. cbn. f_equal. lia. Qed.
Lemma adv_0 s : adv s 0 = s.
Proof. destruct s. unfold adv, with_pos. cbn. f_equal. lia. Qed.
Lemma rest_adv s n : rest (adv s n) = bdrop n (rest s).
Proof. unfold rest, adv, with_pos. cbn. rewrite bdrop_bdrop. reflexivity. Qed.
Lemma rest_adv_app s b post : rest s = b ++ post -> rest (adv s (blen b)) = post.
Proof. intros H. rewrite rest_adv, H. apply bdrop_app_exact. Qed.
Lemma room_le s n m : room s n -> m <= n -> room s m.
Proof. unfold room. destruct (s_limits s); [auto|lia]. Qed.
Lemma room_adv s n m : room s (n + m) -> room (adv s n) m.
Proof. unfold room, adv, with_pos. cbn. destruct (s_limits s); [auto|lia]. Qed.
Lemma bounded_room s n post : bounded s n post -> room s n.
Proof. unfold bounded, room. destruct (s_limits s); [auto|lia]. Qed.
Lemma bounded_adv s n m post : bounded s (n + m) post -> bounded (adv s n) m post.
Proof. unfold bounded, adv, with_pos. cbn. destruct (s_limits s); [auto|lia]. Qed.

Lemma reads_reads_end {A} (p : stream -> res (A * stream)) b x : reads p b x -> reads_end p b x.
Proof. intros H s post H1 H2. apply (H s post H1). eapply bounded_room, H2. Qed.

Lemma reads_ret {A} (x : A) : reads (fun s => Ok (x, s)) [] x.
Proof. intros s post _ _. rewrite adv_0. reflexivity. Qed.

Lemma reads_bind {A B} (p : stream -> res (A * stream)) (q : A -> stream -> res (B * stream)) b1 b2 x y :
  reads p b1 x -> reads (q x) b2 y ->
  reads (fun s => let* (x, s1) := p s in q x s1) (b1 ++ b2) y.
Proof.
  intros H1 H2 s post HR HB. rewrite <- app_assoc in HR. rewrite blen_app in *.
  rewrite (H1 s (b2 ++ post) HR) by (eapply room_le; [apply HB|lia]). cbn.
  rewrite (H2 (adv s (blen b1)) post).
  - rewrite adv_adv. reflexivity.
  - apply rest_adv_app. exact HR.
  - apply room_adv. exact HB.
Qed.

Lemma reads_bind_end {A B} (p : stream -> res (A * stream)) (q : A -> stream -> res (B * stream)) b1 b2 x y :
  reads p b1 x -> reads_end (q x) b2 y ->
  reads_end (fun s => let* (x, s1) := p s in q x s1) (b1 ++ b2) y.
Proof.
  intros H1 H2 s post HR HB. rewrite <- app_assoc in HR. rewrite blen_app in *.
  rewrite (H1 s (b2 ++ post) HR) by (eapply room_le; [eapply bounded_room, HB|lia]). cbn.
  rewrite (H2 (adv s (blen b1)) post).
  - rewrite adv_adv. reflexivity.
  - apply rest_adv_app. exact HR.
  - apply bounded_adv. exact HB.
Qed.

(* a parser followed by a pure computation *)
Lemma reads_map {A B} (p : stream -> res (A * stream)) (f : A -> res B) b x y :
  reads p b x -> f x = Ok y ->
  reads (fun s => let* (x, s1) := p s in let* y := f x in Ok (y, s1)) b y.
Proof. intros H1 H2 s post HR HB. rewrite (H1 s post HR HB). cbn. rewrite H2. reflexivity. Qed.

Lemma reads_ext {A} (p q : stream -> res (A * stream)) b x :
  (forall s, p s = q s) -> reads p b x -> reads q b x.
Proof. intros E H s post HR HB. rewrite <- E. apply (H s post HR HB). Qed.

Lemma raw_read_app s b post : rest s = b ++ post -> raw_read (blen b) s = (b, adv s (blen b)).
Proof.
  intros H. unfold raw_read, rest in *. rewrite H, btake_app_exact. reflexivity.
Qed.

Lemma reads_read_n b : reads (read_n (blen b)) b b.
Proof.
  intros s post HR HB. unfold read_n. rewrite (raw_read_app s b post HR).
  unfold room in HB. destruct (s_limits s) as [|lim ?]; [reflexivity|].
  destruct (lim - s_pos s <? blen b) eqn:E; [|reflexivity].
  apply N.ltb_lt in E. lia.
Qed.

Lemma reads_exactly b : reads (read_exactly (blen b)) b b.
Proof.
  intros s post HR HB. unfold read_exactly.
  destruct (blen b =? 0) eqn:E.
  - apply N.eqb_eq in E. apply blen_zero in E. subst. change (blen []) with 0.
    rewrite adv_0. reflexivity.
  - rewrite (reads_read_n b s post HR HB). cbn. rewrite N.eqb_refl. reflexivity.
Qed.
Lemma reads_exactly' n b : n = blen b -> reads (read_exactly n) b b.
Proof. intros ->. apply reads_exactly. Qed.

Lemma reads_int n v :
  (n <> 0)%nat -> v < 256 ^ N.of_nat n -> reads (read_int (N.of_nat n)) (be_bytes n v) v.
Proof.
  intros Hn Hv s post HR HB. unfold read_int.
  destruct (N.of_nat n =? 0) eqn:E; [apply N.eqb_eq in E; lia|].
  rewrite <- (blen_be_bytes n v) at 1.
  rewrite (reads_exactly (be_bytes n v) s post HR HB). cbn.
  rewrite of_be_bytes by assumption. reflexivity.
Qed.

Lemma reads_var n b :
  (n <> 0)%nat -> blen b < 256 ^ N.of_nat n ->
  reads (read_var (N.of_nat n)) (be_bytes n (blen b) ++ b) b.
Proof.
  intros Hn Hv. unfold read_var. apply reads_bind with (x := blen b).
  - apply reads_int; assumption.
  - apply reads_exactly.
Qed.

(* lists of integers *)
Lemma groups_join k items b :
  join_map (to_bytes k) items = Ok b ->
  groups (length items) (N.of_nat k) b = items /\
  blen b = N.of_nat (length items) * N.of_nat k /\
  Forall (fun v => v < 256 ^ N.of_nat k) items.
Proof.
  revert b; induction items as [|v items IH]; intros b H; cbn in H.
  - inversion H; subst. cbn. auto.
  - apply rbind_ok in H as [x [Hx H]]. apply rbind_ok in H as [r [Hr H]].
    inversion H; subst. destruct (IH r Hr) as [E1 [E2 E3]].
    apply to_bytes_ok in Hx as [-> [Hv [Hl He]]].
    cbn [length groups]. rewrite (btake_app_exact' _ _ _ (eq_sym Hl)), (bdrop_app_exact' _ _ _ (eq_sym Hl)).
    rewrite E1, He. repeat split; [|auto].
    rewrite blen_app, Hl, E2. lia.
Qed.

Lemma reads_listint nlist nitem items b :
  (nlist <> 0)%nat -> (nitem <> 0)%nat ->
  write_listint nlist nitem items = Ok b ->
  reads (read_listint (N.of_nat nlist) (N.of_nat nitem)) b items.
Proof.
  intros H1 H2 H. unfold write_listint in H.
  apply rbind_ok in H as [l [Hl H]]. apply rbind_ok in H as [r [Hr H]]. inversion H; subst; clear H.
  apply groups_join in Hr as [E1 [E2 E3]]. apply to_bytes_ok in Hl as [-> [Hv [Hl He]]].
  unfold read_listint.
  apply reads_bind with (x := N.of_nat (length items) * N.of_nat nitem).
  - apply reads_int; assumption.
  - intros s post HR HB. rewrite N.mod_mul by lia. cbn [negb N.eqb].
    rewrite <- E2. rewrite (reads_exactly r s post HR HB). cbn. rewrite E2.
    rewrite N.div_mul by lia. rewrite Nnat.Nat2N.id, E1. reflexivity.
Qed.

(* loops until the end of a stream *)
Lemma until_eof_reads {A} (f : stream -> res (A * stream)) bs xs fuel s :
  Forall2 (fun b x => reads f b x /\ b <> []) bs xs ->
  rest s = concat bs -> s_limits s = [] -> (length (concat bs) <= fuel)%nat ->
  s_pos s <= blen (s_data s) ->
  until_eof fuel f s = Ok xs.
Proof.
  intros HF. revert fuel s. induction HF as [|b x bs xs [Hr Hne] HF IH]; intros fuel s HR HL Hf Hp.
  - assert (is_eof s = true) as E.
    { unfold is_eof. apply N.eqb_eq. unfold rest in HR. cbn in HR.
      pose proof (blen_bdrop (s_pos s) (s_data s)) as HH. rewrite HR in HH.
      change (blen []) with 0 in HH. lia. }
    destruct fuel; cbn; rewrite E; reflexivity.
  - cbn [concat] in HR, Hf. rewrite app_length in Hf.
    assert (blen b > 0) as Hb by (destruct b; [contradiction|rewrite blen_cons; lia]).
    assert (is_eof s = false) as E.
    { unfold is_eof. apply N.eqb_neq. intros E. unfold rest in HR.
      pose proof (blen_bdrop (s_pos s) (s_data s)) as HH. rewrite HR in HH.
      rewrite blen_app in HH. lia. }
    destruct fuel as [|fuel].
    { unfold blen in Hb. lia. }
    cbn [until_eof]. rewrite E.
    rewrite (Hr s (concat bs) HR) by (unfold room; rewrite HL; trivial). cbn.
    rewrite (IH fuel (adv s (blen b))).
    + reflexivity.
    + apply rest_adv_app. exact HR.
    + exact HL.
    + unfold blen in Hb. lia.
    + unfold adv, with_pos. cbn. pose proof (blen_bdrop (s_pos s) (s_data s)) as HH.
      unfold rest in HR. rewrite HR in HH. rewrite blen_app in HH. lia.
Qed.

Lemma parse_list_reads {A} (f : stream -> res (A * stream)) bs xs :
  Forall2 (fun b x => reads f b x /\ b <> []) bs xs ->
  parse_list f (concat bs) = Ok xs.
Proof.
  intros H. unfold parse_list. eapply until_eof_reads; eauto; cbn; lia.
Qed.

Lemma join_map_concat {A} (f : A -> res bytes) l b :
  join_map f l = Ok b -> exists bs, b = concat bs /\ Forall2 (fun x y => f x = Ok y) l bs.
Proof.
  revert b; induction l as [|x l IH]; intros b H; cbn in H.
  - inversion H. exists []. auto.
  - apply rbind_ok in H as [y [Hy H]]. apply rbind_ok in H as [r [Hr H]]. inversion H; subst.
    destruct (IH r Hr) as [bs [-> HF]]. exists (y :: bs). auto.
Qed.

Lemma parse_list_join {A B} (f : stream -> res (B * stream)) (g : A -> res bytes) (h : A -> B) l b :
  (forall x y, In x l -> g x = Ok y -> reads f y (h x) /\ y <> []) ->
  join_map g l = Ok b -> parse_list f b = Ok (map h l).
Proof.
  intros Hg H. apply join_map_concat in H as [bs [-> HF]].
  apply parse_list_reads.
  induction HF as [|x y l bs Hxy HF IH]; cbn; constructor.
  - apply Hg; [left; reflexivity|assumption].
  - apply IH. intros x' y' HI. apply Hg. right. exact HI.
Qed.

Lemma reads_listvar nlist nitem items b :
  (nlist <> 0)%nat -> (nitem <> 0)%nat ->
  write_listvar nlist nitem items = Ok b ->
  reads (read_listvar (N.of_nat nlist) (N.of_nat nitem)) b items.
Proof.
  intros H1 H2 H. unfold write_listvar in H.
  apply rbind_ok in H as [r [Hr H]]. apply rbind_ok in H as [l [Hl H]]. inversion H; subst; clear H.
  apply to_bytes_ok in Hl as [-> [Hv _]].
  unfold read_listvar. apply reads_map with (x := r).
  - apply reads_var; assumption.
  - rewrite <- (map_id items) at 1. eapply parse_list_join; [|exact Hr].
    intros x y _ Hx. apply put_var_ok in Hx as [-> Hx]. split; [apply reads_var; assumption|].
    destruct nitem; [contradiction|]. cbn [be_bytes]. destruct (be_bytes nitem _); discriminate.
Qed.

(* limits *)
Lemma reads_limit {A} (body : N -> stream -> res (A * stream)) b x :
  (forall lim, reads_end (body lim) b x) -> reads (with_limit (blen b) body) b x.
Proof.
  intros H s post HR HB. unfold with_limit.
  assert (match s_limits s with [] => false | lim :: _ => lim <? s_pos s + blen b end = false) as E.
  { unfold room in HB. destruct (s_limits s); [reflexivity|]. apply N.ltb_ge. exact HB. }
  rewrite E.
  rewrite (H (s_pos s + blen b) (mkStream (s_data s) (s_pos s) (s_pos s + blen b :: s_limits s)) post HR)
    by reflexivity.
  cbn. rewrite !N.eqb_refl. reflexivity.
Qed.
Lemma reads_limit' {A} n (body : N -> stream -> res (A * stream)) b x :
  n = blen b -> (forall lim, reads_end (body lim) b x) -> reads (with_limit n body) b x.
Proof. intros ->. apply reads_limit. Qed.

Lemma reads_end_all b : reads_end (fun s => Ok (read_all s)) b b.
Proof.
  intros s post HR HB. unfold read_all. f_equal. unfold bounded in HB.
  destruct (s_limits s) as [|lim ?].
  - subst. unfold raw_read. unfold rest in HR. rewrite HR, app_nil_r.
    rewrite btake_all.
    + reflexivity.
    + rewrite <- (app_nil_r b), <- HR, blen_bdrop. lia.
  - subst. replace (s_pos s + blen b - s_pos s) with (blen b) by lia.
    apply (raw_read_app s b post HR).
Qed.

(* --- safety: whatever succeeds stays inside the limits ------------------ *)
Definition slice (a b : N) (d : bytes) : bytes := btake (b - a) (bdrop a d).
Definition safe {A} (p : stream -> res (A * stream)) : Prop :=
  forall s x s1, inside s -> p s = Ok (x, s1) ->
    s_data s1 = s_data s /\ s_limits s1 = s_limits s /\ s_pos s <= s_pos s1 /\ inside s1.

Lemma raw_read_spec n s b s1 : inside s ->
  match s_limits s with [] => True | lim :: _ => n <= lim - s_pos s end ->
  raw_read n s = (b, s1) ->
  s_data s1 = s_data s /\ s_limits s1 = s_limits s /\ s_pos s <= s_pos s1 /\ inside s1 /\
  b = slice (s_pos s) (s_pos s1) (s_data s).
Proof.
  intros [H1 H2] HL H. unfold raw_read in H. inversion H; subst; clear H. cbn.
  rewrite blen_btake, blen_bdrop.
  repeat split; cbn; try lia.
  - destruct (s_limits s); [trivial|]. lia.
  - unfold slice.
    replace (s_pos s + N.min n (blen (s_data s) - s_pos s) - s_pos s)
      with (N.min n (blen (s_data s) - s_pos s)) by lia.
    unfold btake. set (d := bdrop (s_pos s) (s_data s)).
    assert (blen d = blen (s_data s) - s_pos s) as E by apply blen_bdrop.
    rewrite <- E. unfold blen. rewrite Nnat.N2Nat.inj_min, Nnat.Nat2N.id.
    rewrite <- firstn_firstn. rewrite firstn_all. reflexivity.
Qed.

Lemma read_n_spec n s b s1 : inside s -> read_n n s = Ok (b, s1) ->
  s_data s1 = s_data s /\ s_limits s1 = s_limits s /\ s_pos s <= s_pos s1 /\ inside s1 /\
  b = slice (s_pos s) (s_pos s1) (s_data s).
Proof.
  intros HI H. unfold read_n in H. apply (raw_read_spec n); [assumption| |].
  - destruct (s_limits s) as [|lim ?]; [trivial|].
    destruct (lim - s_pos s <? n) eqn:E; [discriminate|]. apply N.ltb_ge in E. lia.
  - destruct (s_limits s) as [|lim ?]; [congruence|].
    destruct (lim - s_pos s <? n) eqn:E; [discriminate|congruence].
Qed.

Lemma read_all_spec s b s1 : inside s -> read_all s = (b, s1) ->
  s_data s1 = s_data s /\ s_limits s1 = s_limits s /\ s_pos s <= s_pos s1 /\ inside s1 /\
  b = slice (s_pos s) (s_pos s1) (s_data s).
Proof.
  intros HI H. unfold read_all in H.
  destruct (s_limits s) as [|lim ls] eqn:E; rewrite <- E; eapply raw_read_spec; eauto;
    rewrite E; [trivial|lia].
Qed.

Lemma slice_app a b c d : a <= b -> b <= c -> slice a b d ++ slice b c d = slice a c d.
Proof.
  intros H1 H2. unfold slice.
  replace (bdrop b d) with (bdrop (b - a) (bdrop a d)) by (rewrite bdrop_bdrop; f_equal; lia).
  generalize (bdrop a d) as e. intros e.
  unfold btake, bdrop. replace (N.to_nat (c - a)) with (N.to_nat (b - a) + N.to_nat (c - b))%nat by lia.
  generalize (N.to_nat (b - a)) as i, (N.to_nat (c - b)) as j. clear. intros i j. revert e.
  induction i as [|i IH]; intros e; [reflexivity|].
  destruct e as [|x e]; cbn; [apply firstn_nil|]. rewrite IH. reflexivity.
Qed.

Lemma read_exactly_spec n s b s1 : inside s -> read_exactly n s = Ok (b, s1) ->
  s_data s1 = s_data s /\ s_limits s1 = s_limits s /\ inside s1 /\
  b = slice (s_pos s) (s_pos s1) (s_data s) /\ blen b = n /\ s_pos s1 = s_pos s + n.
Proof.
  intros HI H. unfold read_exactly in H.
  assert (forall s b s1, inside s -> inside s1 -> s_data s1 = s_data s -> s_pos s <= s_pos s1 ->
            b = slice (s_pos s) (s_pos s1) (s_data s) -> s_pos s1 = s_pos s + blen b) as Hlen.
  { intros t c t1 [J1 _] [J2 _] Hd Hp ->. unfold slice. rewrite blen_btake, blen_bdrop.
    rewrite Hd in J2. lia. }
  destruct (n =? 0) eqn:E.
  - apply N.eqb_eq in E. inversion H; subst. unfold slice. rewrite N.sub_diag.
    repeat split; try (apply HI); try reflexivity. rewrite N.add_0_r. reflexivity.
  - apply rbind_ok in H as [[got s2] [H1 H]].
    destruct (read_n_spec _ _ _ _ HI H1) as [D1 [L1 [P1 [I1 B1]]]].
    destruct (blen got =? n) eqn:E2.
    + injection H as -> ->. apply N.eqb_eq in E2.
      repeat split; auto; try apply I1. rewrite <- E2. apply Hlen; auto.
    + destruct got as [|g0 got]; [discriminate|].
      apply rbind_ok in H as [[got2 s3] [H2 H]].
      destruct (read_n_spec _ _ _ _ I1 H2) as [D2 [L2 [P2 [I2 B2]]]].
      destruct got2 as [|g2 got2]; [discriminate|].
      destruct (blen (g0 :: got) + blen (g2 :: got2) =? n) eqn:E3; [|discriminate].
      apply N.eqb_eq in E3. inversion H; subst s3 b; clear H.
      repeat split; try congruence; try apply I2.
      * rewrite app_comm_cons, B1, B2, D1. apply slice_app; assumption.
      * rewrite app_comm_cons, blen_app. exact E3.
      * rewrite <- E3. rewrite (Hlen s2 (g2 :: got2) s1 I1 I2 D2 P2 B2).
        rewrite (Hlen s (g0 :: got) s2 HI I1 D1 P1 B1). lia.
Qed.

Lemma safe_exactly n : safe (read_exactly n).
Proof.
  intros s x s1 HI H. destruct (read_exactly_spec _ _ _ _ HI H) as [? [? [? [? [? ?]]]]].
  repeat split; auto; try apply H2. lia.
Qed.
Lemma safe_all : safe (fun s => Ok (read_all s)).
Proof.
  intros s x s1 HI H. destruct (read_all s) as [b s2] eqn:E. inversion H; subst.
  destruct (read_all_spec _ _ _ HI E) as [? [? [? [? ?]]]]. repeat split; auto; apply H3.
Qed.
Lemma safe_ret {A} (x : A) : safe (fun s => Ok (x, s)).
Proof. intros s y s1 HI H. inversion H; subst. repeat split; auto; try apply HI. lia. Qed.
Lemma safe_err {A} e : safe (fun s => @Err (A * stream) e).
Proof. intros s y s1 HI H. discriminate. Qed.
Lemma safe_bind {A B} (p : stream -> res (A * stream)) (q : A -> stream -> res (B * stream)) :
  safe p -> (forall x, safe (q x)) -> safe (fun s => let* (x, s1) := p s in q x s1).
Proof.
  intros H1 H2 s y s2 HI H. apply rbind_ok in H as [[x s1] [Hp Hq]].
  destruct (H1 _ _ _ HI Hp) as [D1 [L1 [P1 I1]]].
  destruct (H2 _ _ _ _ I1 Hq) as [D2 [L2 [P2 I2]]].
  repeat split; try congruence; try apply I2. lia.
Qed.
Lemma safe_pure {A B} (r : res A) (q : A -> stream -> res (B * stream)) :
  (forall x, r = Ok x -> safe (q x)) -> safe (fun s => let* x := r in q x s).
Proof.
  intros Hq s y s1 HI H. apply rbind_ok in H as [x [Hx H]]. eapply Hq; eauto.
Qed.
Lemma safe_if {A} (c : bool) (p q : stream -> res (A * stream)) :
  safe p -> safe q -> safe (fun s => if c then p s else q s).
Proof. intros. destruct c; assumption. Qed.
Lemma safe_int n : safe (read_int n).
Proof.
  unfold read_int. apply safe_if; [apply safe_err|].
  apply (safe_bind (read_exactly n) (fun b s => Ok (of_bytes b, s))); [apply safe_exactly|].
  intros. apply safe_ret.
Qed.
Lemma safe_var n : safe (read_var n).
Proof. apply safe_bind; [apply safe_int|intros; apply safe_exactly]. Qed.
Lemma safe_listint a b : safe (read_listint a b).
Proof.
  apply safe_bind; [apply safe_int|]. intros len. apply safe_if; [apply safe_err|].
  apply (safe_bind (read_exactly len)
           (fun x s => Ok (groups (N.to_nat (len / b)) b x, s))); [apply safe_exactly|].
  intros. apply safe_ret.
Qed.
Lemma safe_listvar a b : safe (read_listvar a b).
Proof.
  apply safe_bind; [apply safe_var|]. intros x.
  apply (safe_pure (parse_list (read_var b) x) (fun l s => Ok (l, s))). intros. apply safe_ret.
Qed.

(* a limited element consumes exactly its declared length *)
Lemma with_limit_spec {A} len (body : N -> stream -> res (A * stream)) s x s1 :
  (forall lim, safe (body lim)) -> inside s -> with_limit len body s = Ok (x, s1) ->
  s_data s1 = s_data s /\ s_limits s1 = s_limits s /\ s_pos s1 = s_pos s + len /\ inside s1 /\
  exists s2, body (s_pos s + len) (mkStream (s_data s) (s_pos s) (s_pos s + len :: s_limits s)) = Ok (x, s2)
             /\ s_pos s2 = s_pos s1.
Proof.
  intros Hb [I1 I2] H. unfold with_limit in H.
  destruct (match s_limits s with [] => false | lim :: _ => lim <? s_pos s + len end) eqn:E; [discriminate|].
  apply rbind_ok in H as [[y s2] [H1 H]].
  assert (inside (mkStream (s_data s) (s_pos s) (s_pos s + len :: s_limits s))) as HI.
  { split; cbn; [assumption|lia]. }
  destruct (Hb _ _ _ _ HI H1) as [D [L [P I3]]]. cbn in D, L, P.
  rewrite L in H. rewrite N.eqb_refl in H. cbn in H.
  destruct (s_pos s + len =? s_pos s2) eqn:E2; [|discriminate].
  apply N.eqb_eq in E2. inversion H; subst; clear H. cbn.
  repeat split; auto; cbn.
  - apply I3.
  - destruct (s_limits s); [trivial|]. apply N.ltb_ge in E. lia.
  - exists s2. split; [exact H1|reflexivity].
Qed.
Lemma safe_limit {A} len (body : N -> stream -> res (A * stream)) :
  (forall lim, safe (body lim)) -> safe (with_limit len body).
Proof.
  intros Hb s x s1 HI H. destruct (with_limit_spec _ _ _ _ _ Hb HI H) as [? [? [? [? _]]]].
  repeat split; auto; try apply H3. lia.
Qed.
