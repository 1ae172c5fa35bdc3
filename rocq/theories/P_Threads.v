(* Several threads and the OCSP cache. *)
From Verif Require Import Base P_Base OcspCache OcspThreads S_Cache P_Cache S_Threads.

(* alone, the small steps are the functions of OcspCache *)
Lemma alone_request H now url req k : exists n, forall m, (n <= m)%nat ->
  talone m H now k (begin_call (TRequest url req)) =
  Some (match fst (request H now url req k) with Ok a => Ok (Some a) | Err e => Err e end, snd (request H now url req k)).
Proof.
  exists 4%nat. intros m L. destruct m as [|[|[|[|m]]]]; try lia. unfold request, begin_call. cbn [talone tstep].
  destruct (assocB req (k_map k)) as [[[|x r] until]|] eqn:E; cbn [talone tstep].
  - destruct (fetch H url req); reflexivity.
  - destruct (now <? until); [reflexivity|]. cbn [talone tstep]. rewrite E. cbn [talone tstep fst snd]. destruct (fetch H url req); reflexivity.
  - destruct (fetch H url req); reflexivity.
Qed.
Lemma delB_absent V (req : bytes) (l : list (bytes * V)) : assocB req l = None -> delB req l = l.
Proof.
  induction l as [|[k v] l IH]; [reflexivity|]. cbn [assocB delB filter fst]. destruct (beqb req k) eqn:E; [discriminate|].
  intro H. cbn [negb]. f_equal. apply IH. exact H.
Qed.
Lemma absent_delB V (req v : bytes) (l : list (bytes * V)) : assocB req l = None -> assocB req (delB v l) = None.
Proof.
  induction l as [|[k x] l IH]; [reflexivity|]. cbn [assocB]. destruct (beqb req k) eqn:E; [discriminate|]. intro H.
  unfold delB in *. cbn [filter fst]. destruct (negb (beqb v k)); [cbn [assocB]; rewrite E|]; apply IH; exact H.
Qed.
Lemma alone_evict H now until req r : forall n k, (length (k_heap k) <= n)%nat -> assocB req (k_map k) = None ->
  exists k1, evict (length (k_heap k)) k = Ok k1 /\ assocB req (k_map k1) = None /\
    exists s, (s <= 3 * n + 1)%nat /\ forall m, talone (s + m) H now k (PLen until req r) = talone m H now k1 (PPush until req r).
Proof.
  induction n as [|n IH]; intros k L A.
  - exists k. destruct k as [mp [|y h]]; cbn [k_heap length] in *; [|lia]. split; [reflexivity|]. split; [exact A|].
    exists 1%nat. split; [lia|]. intro m. reflexivity.
  - destruct k as [mp h]. cbn [k_heap k_map] in *. unfold evict; fold evict. cbn [k_heap].
    destruct (N.of_nat (length h) <? CACHE_ENTRIES) eqn:E.
    + exists (mkK mp h). split; [destruct h; cbn [length evict k_heap] in *; rewrite E; reflexivity|]. split; [exact A|].
      exists 1%nat. split; [lia|]. intro m. cbn [Nat.add talone tstep k_heap]. rewrite E. reflexivity.
    + destruct h as [|[u v] h]; [discriminate E|]. cbn [length] in *.
      destruct (IH (uncache v (mkK mp h))) as (k1 & B1 & B2 & s & Ls & B3); [cbn [uncache k_heap]; lia | apply absent_delB; exact A|].
      exists k1. cbn [evict k_heap length]. rewrite E. split; [exact B1|]. split; [exact B2|].
      exists (3 + s)%nat. split; [lia|]. intro m. cbn [Nat.add talone tstep k_heap length]. rewrite E. cbn [talone tstep k_heap k_map]. apply B3.
Qed.

Lemma alone_cache H now until req r k : exists n k1, cache until req r k = Ok k1 /\
  forall m, (n <= m)%nat -> talone m H now k (begin_call (TCache until req r)) = Some (Ok None, k1).
Proof.
  unfold cache, begin_call. destruct (assocB req (k_map k)) as [v|] eqn:E; cbn [opt_bool].
  - exists 1%nat, k. split; [reflexivity|]. intros m L. destruct m; [lia|]. cbn [talone tstep]. rewrite E. reflexivity.
  - destruct (alone_evict H now until req r _ k (le_n _) E) as (k1 & A & B & s & Ls & D).
    exists (1 + (s + 2))%nat. eexists. split; [rewrite A; reflexivity|].
    intros m L. replace m with (1 + (s + (2 + (m - s - 3))))%nat by lia. cbn [Nat.add talone tstep]. rewrite E. cbn [opt_bool].
    rewrite D. cbn [Nat.add talone tstep k_map k_heap]. rewrite (delB_absent _ _ _ B). reflexivity.
Qed.

(* --- every interleaving ------------------------------------------------ *)
Lemma put_nth A (x : A) : forall l i j y, nth_error (put i x l) j = Some y -> (j = i /\ y = x) \/ nth_error l j = Some y.
Proof.
  induction l as [|z l IH]; intros i j y H; [destruct i, j; discriminate H|].
  destruct i as [|i]; destruct j as [|j]; cbn [put nth_error] in *; auto.
  - injection H; auto.
  - destruct (IH i j y H) as [[-> ->]|K]; auto.
Qed.
Lemma put_length A (x : A) : forall l i, length (put i x l) = length l.
Proof. induction l as [|z l IH]; intro i; [destruct i; reflexivity|]. destruct i; cbn [put length]; [reflexivity | rewrite IH; reflexivity]. Qed.

Definition asked (past : list happened) (req r : bytes) (until : N) : Prop := exists i, In (HBegan i (TCache until req r)) past.
(* what a thread is doing belongs to its call *)
Definition pc_ok (past : list happened) (c : tcall) (p : pc) : Prop :=
  match p with
  | PIdle => True
  | PGet url req | PDel url req | PFetch url req => c = TRequest url req
  | PCheck url req r until => c = TRequest url req /\ asked past req r until
  | PIn until req r | PLen until req r | PPop until req r | PUn _ until req r | PPush until req r | PIns until req r =>
    c = TCache until req r /\ asked past req r until
  | PUncache req => c = TUncache req
  end.
Definition served (past : list happened) (c : tcall) (H : http) (now : N) (r : result) : Prop :=
  match c, r with
  | TRequest url req, Ok (Some a) => fetch H url req = Ok a \/ exists until, asked past req a until /\ now < until
  | TRequest _ _, Ok None => False
  | TRequest _ _, Err _ => True
  | _, Ok (Some _) => False
  | _, _ => True
  end.
Inductive past_ok : list happened -> Prop :=
| past_nil : past_ok []
| past_began i c l : past_ok l -> past_ok (HBegan i c :: l)
| past_ended i c H now r l : served l c H now r -> past_ok l -> past_ok (HEnded i c H now r :: l).
Definition map_ok (past : list happened) (k : kstate) : Prop :=
  forall req r until, In (req, (r, until)) (k_map k) -> asked past req r until.
Definition threadsI (w : threads) : Prop :=
  map_ok (t_past w) (t_k w) /\ past_ok (t_past w) /\ forall i c p, nth_error (t_pcs w) i = Some (c, p) -> pc_ok (t_past w) c p.

Lemma asked_more e past req r until : asked past req r until -> asked (e :: past) req r until.
Proof. intros (i & H). exists i. right. exact H. Qed.
Lemma pc_more e past c p : pc_ok past c p -> pc_ok (e :: past) c p.
Proof. destruct p; cbn [pc_ok]; try (intro H; exact H); intros [A B]; split; try exact A; apply asked_more; exact B. Qed.
Lemma assocB_in V (req : bytes) (v : V) l : assocB req l = Some v -> In (req, v) l.
Proof.
  induction l as [|[k x] l IH]; [discriminate|]. cbn [assocB]. destruct (beqb req k) eqn:E.
  - intro H. injection H; intros <-. apply beqb_eq in E. subst k. left. reflexivity.
  - intro H. right. apply IH. exact H.
Qed.
Lemma delB_in V (req : bytes) (x : bytes * V) l : In x (delB req l) -> In x l.
Proof. unfold delB. intro H. apply filter_In in H. apply H. Qed.
Lemma tstep_ok H now past k c p : map_ok past k -> pc_ok past c p ->
  map_ok past (fst (tstep H now k p)) /\
  match snd (tstep H now k p) with Goes p' => pc_ok past c p' | Ends r => served past c H now r end.
Proof.
  intros M P. destruct p; cbn [pc_ok tstep] in *.
  - split; [exact M | exact Logic.I].
  - subst c. destruct (assocB req (k_map k)) as [[[|x r] until]|] eqn:E; cbn [fst snd]; (split; [exact M|]); try reflexivity.
    split; [reflexivity|]. apply M. apply assocB_in. exact E.
  - destruct P as [-> P]. cbn [fst snd]. split; [exact M|]. destruct (now <? until) eqn:E; [|reflexivity].
    right. exists until. split; [exact P | apply N.ltb_lt; exact E].
  - subst c. destruct (assocB req (k_map k)); cbn [fst snd].
    + split; [|reflexivity]. intros a b d I. apply M. eapply delB_in. exact I.
    + split; [exact M | exact Logic.I].
  - subst c. cbn [fst snd]. split; [exact M|]. destruct (fetch H url req) eqn:E; cbn [rbind served]; [left; exact E | exact Logic.I].
  - destruct P as [-> P]. cbn [fst snd]. split; [exact M|]. destruct (opt_bool _); [exact Logic.I | split; [reflexivity | exact P]].
  - destruct P as [-> P]. cbn [fst snd]. split; [exact M|]. destruct (_ <? _); (split; [reflexivity | exact P]).
  - destruct P as [-> P]. destruct (k_heap k) as [|[u v] h]; cbn [fst snd]; (split; [exact M|]); [exact Logic.I | split; [reflexivity | exact P]].
  - destruct P as [-> P]. cbn [fst snd]. split; [|split; [reflexivity | exact P]]. intros a b d I. apply M. eapply delB_in. exact I.
  - destruct P as [-> P]. cbn [fst snd]. split; [exact M | split; [reflexivity | exact P]].
  - destruct P as [-> P]. cbn [fst snd]. split; [|exact Logic.I]. intros a b d [I|I]; [injection I; intros <- <- <-; exact P|].
    apply M. eapply delB_in. exact I.
  - subst c. cbn [fst snd]. split; [|exact Logic.I]. intros a b d I. apply M. eapply delB_in. exact I.
Qed.
Lemma event_ok e w : threadsI w -> threadsI (tevent e w).
Proof.
  intros (M & P & T). destruct e as [n|i c|i H]; cbn [tevent].
  - split; [exact M|]. split; assumption.
  - destruct (nth_error (t_pcs w) i) as [[c0 []]|] eqn:E; try (split; [exact M|]; split; assumption).
    split; [intros a b d I; apply asked_more, M; exact I|]. split; [constructor; exact P|].
    cbn [t_pcs t_past]. intros j c1 p1 N. apply put_nth in N. destruct N as [[-> N]|N]; [|apply pc_more, (T j); exact N].
    injection N; intros -> ->. destruct c; cbn [begin_call pc_ok]; try reflexivity. split; [reflexivity|]. exists i. left. reflexivity.
  - destruct (nth_error (t_pcs w) i) as [[c p]|] eqn:E; [|split; [exact M|]; split; assumption].
    destruct (tstep_ok H (t_now w) (t_past w) (t_k w) c p M (T i c p E)) as (M1 & O).
    destruct (tstep H (t_now w) (t_k w) p) as [k [p'|r]]; cbn [fst snd] in *.
    + split; [exact M1|]. split; [exact P|]. cbn [t_pcs t_past]. intros j c1 p1 N. apply put_nth in N.
      destruct N as [[-> N]|N]; [injection N; intros -> ->; exact O | apply (T j); exact N].
    + split; [intros a b d I; apply asked_more, M1; exact I|]. split; [constructor; assumption|].
      cbn [t_pcs t_past]. intros j c1 p1 N. apply put_nth in N.
      destruct N as [[-> N]|N]; [injection N; intros -> ->; exact Logic.I | apply pc_more, (T j); exact N].
Qed.
Lemma run_ok : forall l w, threadsI w -> threadsI (trun l w).
Proof. induction l as [|e l IH]; intros w H; [exact H|]. cbn [trun]. apply IH. apply event_ok. exact H. Qed.
Lemma start_ok n now : threadsI (t_start n now).
Proof.
  split; [intros a b d []|]. split; [constructor|]. intros i c p H. cbn [t_start t_pcs] in H.
  apply nth_error_In, repeat_spec in H. injection H; intros -> ->. exact Logic.I.
Qed.
Lemma past_split i c H now r l2 : forall l1, past_ok (l1 ++ HEnded i c H now r :: l2) -> served l2 c H now r.
Proof.
  induction l1 as [|h l1 IH]; cbn [app]; intro P.
  - inversion P. assumption.
  - inversion P; subst; apply IH; assumption.
Qed.
Lemma threads_served n t0 l i url req H now a l1 l2 :
  t_past (trun l (t_start n t0)) = l1 ++ HEnded i (TRequest url req) H now (Ok (Some a)) :: l2 ->
  fetch H url req = Ok a \/ exists j until, In (HBegan j (TCache until req a)) l2 /\ now < until.
Proof.
  intro E. destruct (run_ok l _ (start_ok n t0)) as (_ & P & _). rewrite E in P. apply past_split in P.
  destruct P as [P|(until & (j & P) & L)]; [left; exact P | right; exists j, until; auto].
Qed.

(* --- the heap is not emptied by fewer than 65 threads -------------------- *)
Definition pops (x : tcall * pc) : nat := match snd x with PPop _ _ _ => 1 | _ => 0 end.
Fixpoint popping (l : list (tcall * pc)) : nat := match l with [] => 0 | x :: l' => pops x + popping l' end.
Lemma popping_le l : (popping l <= length l)%nat.
Proof. induction l as [|[c p] l IH]; [constructor|]. cbn [popping length]. assert (pops (c, p) <= 1)%nat by (destruct p; cbn; lia). lia. Qed.
Lemma popping_put x : forall l i y, nth_error l i = Some y -> (popping (put i x l) + pops y = popping l + pops x)%nat.
Proof.
  induction l as [|z l IH]; intros i y H; [destruct i; discriminate H|].
  destruct i as [|i]; cbn [nth_error put popping] in *.
  - injection H; intros ->. lia.
  - specialize (IH i y H). lia.
Qed.
Definition heapI (w : threads) : Prop :=
  (popping (t_pcs w) = 0 \/ 64 + popping (t_pcs w) <= length (k_heap (t_k w)) + length (t_pcs w))%nat.
Lemma heappush_length x h : length (heappush x h) = S (length h).
Proof. induction h as [|y h IH]; [reflexivity|]. cbn [heappush]. destruct (limit_lt y x); cbn [length]; [rewrite IH; reflexivity | reflexivity]. Qed.
Definition pc_pops (p : pc) : nat := match p with PPop _ _ _ => 1 | _ => 0 end.
Definition next (o : outcome) : pc := match o with Goes p => p | Ends _ => PIdle end.
Lemma tstep_heap H now k p :
  (length (k_heap k) <= length (k_heap (fst (tstep H now k p))) + pc_pops p)%nat /\
  (pc_pops (next (snd (tstep H now k p))) = 0 \/
   pc_pops (next (snd (tstep H now k p))) = 1 /\ pc_pops p = 0 /\ 64 <= length (k_heap (fst (tstep H now k p))))%nat.
Proof.
  destruct p; cbn [tstep pc_pops].
  - cbn [fst snd next pc_pops]; lia.
  - destruct (assocB req (k_map k)) as [[[|x r] until]|]; cbn [fst snd next pc_pops]; lia.
  - destruct (now <? until); cbn [fst snd next pc_pops]; lia.
  - destruct (assocB req (k_map k)); cbn [fst snd next pc_pops uncache k_heap]; lia.
  - cbn [fst snd next pc_pops]; lia.
  - destruct (opt_bool _); cbn [fst snd next pc_pops]; lia.
  - destruct (_ <? _) eqn:E; cbn [fst snd next pc_pops]; [lia|]. apply N.ltb_ge in E. unfold CACHE_ENTRIES in E. lia.
  - destruct (k_heap k) as [|[u v] h] eqn:E; cbn [fst snd next pc_pops k_heap]; rewrite ?E; cbn [length]; lia.
  - cbn [fst snd next pc_pops uncache k_heap]; lia.
  - cbn [fst snd next pc_pops k_heap]; rewrite heappush_length; lia.
  - cbn [fst snd next pc_pops k_heap]; lia.
  - cbn [fst snd next pc_pops uncache k_heap]; lia.
Qed.
Lemma event_heap e w : heapI w -> heapI (tevent e w).
Proof.
  unfold heapI. intros I. destruct e as [n|i c|i H]; cbn [tevent].
  - exact I.
  - destruct (nth_error (t_pcs w) i) as [[c0 []]|] eqn:E; try exact I. cbn [t_pcs t_k]. rewrite put_length.
    pose proof (popping_put (c, begin_call c) _ _ _ E) as Z. assert (pops (c, begin_call c) = 0)%nat by (destruct c; reflexivity).
    assert (pops (c0, PIdle) = 0)%nat by reflexivity. lia.
  - destruct (nth_error (t_pcs w) i) as [[c p]|] eqn:E; [|exact I].
    pose proof (popping_put (c, next (snd (tstep H (t_now w) (t_k w) p))) _ _ _ E) as Z.
    pose proof (popping_le (put i (c, next (snd (tstep H (t_now w) (t_k w) p))) (t_pcs w))) as Le. rewrite put_length in Le.
    destruct (tstep_heap H (t_now w) (t_k w) p) as (A & B).
    change (pops (c, p)) with (pc_pops p) in Z. change (pops (c, next (snd (tstep H (t_now w) (t_k w) p)))) with (pc_pops (next (snd (tstep H (t_now w) (t_k w) p)))) in Z.
    destruct (tstep H (t_now w) (t_k w) p) as [k [p'|r]]; cbn [fst snd next t_pcs t_k pc_pops] in *; rewrite put_length; lia.
Qed.
Lemma run_length : forall l w, length (t_pcs (trun l w)) = length (t_pcs w).
Proof.
  induction l as [|e l IH]; intro w; [reflexivity|]. cbn [trun]. rewrite IH. destruct e as [n|i c|i H]; cbn [tevent]; [reflexivity | |].
  - destruct (nth_error (t_pcs w) i) as [[c0 []]|]; cbn [t_pcs]; rewrite ?put_length; reflexivity.
  - destruct (nth_error (t_pcs w) i) as [[c p]|]; [|reflexivity].
    destruct (tstep _ _ _ _) as [k [p'|r]]; cbn [t_pcs]; apply put_length.
Qed.
Lemma popping_one c u q r : forall l i, nth_error l i = Some (c, PPop u q r) -> (1 <= popping l)%nat.
Proof.
  induction l as [|z l IH]; intros i H; [destruct i; discriminate H|]. destruct i as [|i]; cbn [nth_error popping] in *.
  - injection H; intros ->. cbn [pops snd]. lia.
  - specialize (IH i H). lia.
Qed.

(* no call of cache or uncache has failed *)
Definition fine (h : happened) : Prop :=
  match h with HEnded _ (TCache _ _ _) _ _ r | HEnded _ (TUncache _) _ _ r => r = Ok None | _ => True end.
Lemma event_fine e w : (length (t_pcs w) <= 64)%nat -> threadsI w -> heapI w -> Forall fine (t_past w) -> Forall fine (t_past (tevent e w)).
Proof.
  intros L T G F. destruct e as [n|i c|i H]; cbn [tevent]; [exact F | |].
  - destruct (nth_error (t_pcs w) i) as [[c0 []]|]; try exact F. cbn [t_past]. constructor; [exact Logic.I | exact F].
  - destruct (nth_error (t_pcs w) i) as [[c p]|] eqn:E; [|exact F]. pose proof (proj2 (proj2 T) i c p E) as P.
    destruct p; cbn [tstep pc_ok] in *;
      first [subst c | destruct P as [-> _] | clear P].
    + exact F.
    + destruct (assocB req (k_map (t_k w))) as [[[|x r] until]|]; exact F.
    + destruct (_ <? _); [constructor; [exact Logic.I | exact F] | exact F].
    + destruct (assocB _ _); [exact F | constructor; [exact Logic.I | exact F]].
    + constructor; [exact Logic.I | exact F].
    + destruct (opt_bool _); [constructor; [reflexivity | exact F] | exact F].
    + destruct (_ <? _); exact F.
    + pose proof (popping_one _ _ _ _ _ _ E) as O. unfold heapI in G.
      destruct (k_heap (t_k w)) as [|[u v] h] eqn:K; [|exact F]. cbn [length] in G. lia.
    + exact F.
    + exact F.
    + constructor; [reflexivity | exact F].
    + constructor; [reflexivity | exact F].
Qed.
Lemma run_fine : forall l w, (length (t_pcs w) <= 64)%nat -> threadsI w -> heapI w -> Forall fine (t_past w) -> Forall fine (t_past (trun l w)).
Proof.
  induction l as [|e l IH]; intros w L T G F; [exact F|]. cbn [trun]. apply IH.
  - pose proof (run_length [e] w) as Z. cbn [trun] in Z. rewrite Z. exact L.
  - apply event_ok; exact T.
  - apply event_heap; exact G.
  - apply event_fine; assumption.
Qed.
Lemma threads_fine n t0 l i c H now r : (n <= 64)%nat -> In (HEnded i c H now r) (t_past (trun l (t_start n t0))) ->
  match c with TRequest _ _ => True | _ => r = Ok None end.
Proof.
  intros L I.
  assert (F : Forall fine (t_past (trun l (t_start n t0)))).
  { apply run_fine; [cbn [t_start t_pcs]; rewrite repeat_length; exact L | apply start_ok | left | constructor].
    cbn [t_start t_pcs]. clear. induction n; [reflexivity | exact IHn]. }
  rewrite Forall_forall in F. specialize (F _ I). destruct c; cbn [fine] in F; auto.
Qed.

(* --- the heap is bounded ------------------------------------------------ *)
Definition pushes (p : pc) : nat := match p with PPush _ _ _ => 1 | _ => 0 end.
Fixpoint pushing (l : list (tcall * pc)) : nat := match l with [] => 0 | x :: l' => pushes (snd x) + pushing l' end.
Lemma pushing_le l : (pushing l <= length l)%nat.
Proof. induction l as [|[c p] l IH]; [constructor|]. cbn [pushing length snd]. assert (pushes p <= 1)%nat by (destruct p; cbn; lia). lia. Qed.
Lemma pushing_put x : forall l i y, nth_error l i = Some y -> (pushing (put i x l) + pushes (snd y) = pushing l + pushes (snd x))%nat.
Proof.
  induction l as [|z l IH]; intros i y H; [destruct i; discriminate H|].
  destruct i as [|i]; cbn [nth_error put pushing] in *.
  - injection H; intros ->. lia.
  - specialize (IH i y H). lia.
Qed.
Lemma tstep_small H now k p :
  (length (k_heap (fst (tstep H now k p))) <= length (k_heap k) + pushes p)%nat /\
  (pushes (next (snd (tstep H now k p))) = 0 \/
   pushes (next (snd (tstep H now k p))) = 1 /\ pushes p = 0 /\ length (k_heap (fst (tstep H now k p))) <= 63)%nat.
Proof.
  destruct p; cbn [tstep pushes].
  - cbn [fst snd next pushes]; lia.
  - destruct (assocB req (k_map k)) as [[[|x r] until]|]; cbn [fst snd next pushes]; lia.
  - destruct (now <? until); cbn [fst snd next pushes]; lia.
  - destruct (assocB req (k_map k)); cbn [fst snd next pushes uncache k_heap]; lia.
  - cbn [fst snd next pushes]; lia.
  - destruct (opt_bool _); cbn [fst snd next pushes]; lia.
  - destruct (_ <? _) eqn:E; cbn [fst snd next pushes]; [|lia]. apply N.ltb_lt in E. unfold CACHE_ENTRIES in E. lia.
  - destruct (k_heap k) as [|[u v] h] eqn:E; cbn [fst snd next pushes k_heap]; rewrite ?E; cbn [length]; lia.
  - cbn [fst snd next pushes uncache k_heap]; lia.
  - cbn [fst snd next pushes k_heap]; rewrite heappush_length; lia.
  - cbn [fst snd next pushes k_heap]; lia.
  - cbn [fst snd next pushes uncache k_heap]; lia.
Qed.
Definition smallI (w : threads) : Prop := (length (k_heap (t_k w)) + pushing (t_pcs w) <= 63 + length (t_pcs w))%nat.
Lemma event_small e w : smallI w -> smallI (tevent e w).
Proof.
  unfold smallI. intros I. destruct e as [n|i c|i H]; cbn [tevent].
  - exact I.
  - destruct (nth_error (t_pcs w) i) as [[c0 []]|] eqn:E; try exact I. cbn [t_pcs t_k]. rewrite put_length.
    pose proof (pushing_put (c, begin_call c) _ _ _ E) as Z. cbn [snd] in Z. assert (pushes (begin_call c) = 0)%nat by (destruct c; reflexivity).
    assert (pushes PIdle = 0)%nat by reflexivity. lia.
  - destruct (nth_error (t_pcs w) i) as [[c p]|] eqn:E; [|exact I].
    pose proof (pushing_put (c, next (snd (tstep H (t_now w) (t_k w) p))) _ _ _ E) as Z. cbn [snd] in Z.
    pose proof (pushing_le (put i (c, next (snd (tstep H (t_now w) (t_k w) p))) (t_pcs w))) as Le. rewrite put_length in Le.
    destruct (tstep_small H (t_now w) (t_k w) p) as (A & B).
    destruct (tstep H (t_now w) (t_k w) p) as [k [p'|r]]; cbn [fst snd next t_pcs t_k pushes] in *; rewrite put_length; lia.
Qed.
Lemma threads_small n t0 l : (length (k_heap (t_k (trun l (t_start n t0)))) <= 63 + n)%nat.
Proof.
  assert (S : forall w, smallI w -> smallI (trun l w)).
  { induction l as [|e l' IH]; intros w H; [exact H|]. cbn [trun]. apply IH, event_small, H. }
  assert (Z : smallI (trun l (t_start n t0))).
  { apply S. unfold smallI. cbn [t_start t_k t_pcs k_empty k_heap length]. rewrite repeat_length.
    assert (pushing (repeat (TUncache [], PIdle) n) = 0)%nat by (clear; induction n; [reflexivity | exact IHn]). lia. }
  unfold smallI in Z. rewrite run_length in Z. cbn [t_start t_pcs] in Z. rewrite repeat_length in Z. lia.
Qed.
Lemma threads_alone H now c k : exists n, forall m, (n <= m)%nat ->
  match c with
  | TRequest url req =>
    talone m H now k (begin_call c) =
    Some (match fst (request H now url req k) with Ok a => Ok (Some a) | Err e => Err e end, snd (request H now url req k))
  | TCache until req r => exists k1, cache until req r k = Ok k1 /\ talone m H now k (begin_call c) = Some (Ok None, k1)
  | TUncache req => talone m H now k (begin_call c) = Some (Ok None, uncache req k)
  end.
Proof.
  destruct c as [url req|until req r|req].
  - apply alone_request.
  - destruct (alone_cache H now until req r k) as (n & k1 & A & B). exists n. intros m L. exists k1. split; [exact A | apply B; exact L].
  - exists 1%nat. intros m L. destruct m; [lia | reflexivity].
Qed.
