From Coq Require Import PeanoNat Lia.
From Verif Require Import Base P_Base Iana Crypto Cipher KeyLog Transcript TrApi S_TrApi.

(* --- new objects ---------------------------------------------------------------- *)
Definition feed (d : bytes) (l : list (hashalg * bytes)) := map (fun p : hashalg * bytes => (fst p, snd p ++ d)) l.
Lemma tr_new_has flip suites t : tr_new flip suites = Ok t ->
  exists hl, hl <> [] /\ t = mkTr (map (fun h => (h, [])) hl) 1 /\ forall s, In s suites -> exists h, suite_hash s = Some h /\ In h hl.
Proof.
  unfold tr_new. intro H. apply rbind_ok in H as (l & El & H).
  destruct (is_nil l) eqn:E; [discriminate|]. apply is_nil_false in E. injection H; intros <-. clear H.
  exists (if flip then rev l else l). split; [|split; [reflexivity|]].
  - destruct flip; [|exact E]. intro R. apply E. rewrite <- (rev_involutive l), R. reflexivity.
  - assert (X : forall s, In s suites -> exists h, suite_hash s = Some h /\ In h l).
    { clear E. revert l El. induction suites as [|s0 suites IH]; intros l El s I; [destruct I|]. cbn [fold_right] in El.
      apply rbind_ok in El as (l' & El' & El). destruct (suite_hash s0) as [h0|] eqn:Eh; [|discriminate].
      assert (S1 : forall x, In x l' -> In x l).
      { intros x Ix. destruct (existsb (hashalg_eqb h0) l') eqn:Ex; injection El; intros <-; [exact Ix | right; exact Ix]. }
      destruct I as [->|I].
      - exists h0. split; [exact Eh|]. destruct (existsb (hashalg_eqb h0) l') eqn:Ex; injection El; intros <-; [|left; reflexivity].
        apply existsb_exists in Ex as (x & Ix & Ee). destruct h0, x; cbn in Ee; try discriminate; exact Ix.
      - destruct (IH l' El' s I) as (h & A & B). exists h. auto. }
    intros s I. destruct (X s I) as (h & A & B). exists h. split; [exact A|]. destruct flip; [apply in_rev in B|]; exact B.
Qed.
Lemma find_map_hash h d (hl : list hashalg) p :
  find (fun p : hashalg * bytes => hashalg_eqb (fst p) h) (map (fun h => (h, d)) hl) = Some p -> p = (h, d).
Proof.
  induction hl as [|a hl IH]; [discriminate|]. cbn. destruct (hashalg_eqb a h) eqn:E; [|exact IH].
  intro H. injection H; intros <-. destruct a, h; cbn in E; congruence.
Qed.
Lemma find_has h data hl : In h hl -> find (fun p : hashalg * bytes => hashalg_eqb (fst p) h) (map (fun h => (h, data)) hl) = Some (h, data).
Proof.
  intro I. destruct (find _ _) as [p|] eqn:F; [apply find_map_hash in F; subst; reflexivity|].
  pose proof (find_none _ _ F (h, data)) as K. cbn [fst] in K.
  assert (K' : hashalg_eqb h h = false) by (apply K; apply in_map_iff; exists h; auto). destruct h; discriminate K'.
Qed.

(* --- slots and words ---------------------------------------------------------- *)
Definition slot : Type := side * N * bool.
Fixpoint walk (l : list slot) (m : side * N) : option (list slot) :=
  match l with
  | [] => None
  | s :: r => if slot_matches (fst m) (snd m) s then Some r else if snd s then walk r m else None
  end.
Inductive word : list slot -> list (side * N) -> Prop :=
| w_end : word [] []
| w_take x k r w : word r w -> word ((x, k) :: r) (x :: w)
| w_skip x r w : word r w -> word ((x, true) :: r) w.
Fixpoint good (l : list slot) : Prop :=
  match l with [] => True | (x, k) :: r => (k = true -> walk r x = None) /\ good r end.
Fixpoint solid (l : list slot) : Prop :=
  match l with [] => True | [(_, k)] => k = false | _ :: r => solid r end.
Lemma matches_eq m x k : slot_matches (fst m) (snd m) (x, k) = true <-> m = x.
Proof.
  destruct m as [a t], x as [b u]. unfold slot_matches. cbn [fst snd]. rewrite Bool.andb_true_iff, N.eqb_eq.
  split; [intros [E ->]; destruct a, b; try discriminate E; reflexivity|]. intros [= -> ->]. split; [destruct b; reflexivity | reflexivity].
Qed.
Lemma walk_word l : good l -> forall m w, word l (m :: w) <-> exists r, walk l m = Some r /\ word r w.
Proof.
  induction l as [|[x k] l IH]; intros G m w.
  - split; [intro H; inversion H | intros (r & E & _); discriminate E].
  - cbn [good] in G. destruct G as [G1 G2]. cbn [walk snd]. destruct (slot_matches (fst m) (snd m) (x, k)) eqn:E.
    + apply matches_eq in E. subst m. split.
      * intro H. inversion H as [|? ? ? ? H1|? ? ? H1]; subst; [exists l; split; [reflexivity | assumption]|].
        apply (IH G2) in H1. destruct H1 as (r & Er & _). rewrite (G1 eq_refl) in Er. discriminate Er.
      * intros (r & [= <-] & H). constructor. exact H.
    + assert (N : m <> x) by (intros ->; assert (slot_matches (fst x) (snd x) (x, k) = true) by (apply matches_eq; reflexivity); congruence).
      split.
      * intro H. inversion H as [|? ? ? ? H1|? ? ? H1]; subst; [contradiction|]. apply (IH G2). exact H1.
      * destruct k; [|intros (r & Er & _); discriminate Er]. intro H. apply (IH G2) in H. apply w_skip. exact H.
Qed.
Lemma walk_good l m r : walk l m = Some r -> good l -> solid l -> good r /\ solid r.
Proof.
  induction l as [|[x k] l IH]; intros W G S; [discriminate W|]. cbn [good walk snd] in *. destruct G as [_ G].
  assert (S' : solid l) by (cbn [solid] in S; destruct l; [exact I | exact S]).
  destruct (slot_matches _ _ _); [injection W as <-; split; assumption|]. destruct k; [apply IH; assumption | discriminate W].
Qed.
Lemma word_some l : exists w, word l w.
Proof. induction l as [|[x k] l [w H]]; [exists []; constructor | exists (x :: w); constructor; exact H]. Qed.
Lemma solid_nil l : solid l -> word l [] -> l = [].
Proof.
  intros S H. destruct l as [|s l]; [reflexivity|]. exfalso. revert s S H. induction l as [|s' l IH]; intros [x k] S H; inversion H as [|?|? ? ? H1]; subst.
  - cbn in S. discriminate S.
  - apply (IH s'); [exact S | exact H1].
Qed.
(* the messages one after the other, anything being accepted at the end *)
Fixpoint walks (l : list slot) (ms : list (side * N)) : option (list slot) :=
  match ms with
  | [] => Some l
  | m :: ms' => match l with [] => Some [] | _ => match walk l m with Some r => walks r ms' | None => None end end
  end.
Lemma walks_words ms : forall l, good l -> solid l -> (walks l ms <> None <-> exists w, word l w /\ (begins ms w \/ begins w ms)).
Proof.
  induction ms as [|m ms IH]; intros l G S; cbn [walks].
  - split; [|discriminate]. intros _. destruct (word_some l) as [w W]. exists w. split; [exact W|]. left. exists w. reflexivity.
  - destruct l as [|s l].
    + split; [|discriminate]. intros _. exists []. split; [constructor|]. right. exists (m :: ms). reflexivity.
    + set (l0 := s :: l) in *. assert (Ne : l0 <> []) by discriminate. clearbody l0. clear s l. split.
      * destruct (walk l0 m) as [r|] eqn:W; [|congruence]. intro H. destruct (walk_good _ _ _ W G S) as [Gr Sr].
        apply (IH r Gr Sr) in H. destruct H as (w & Ww & B). exists (m :: w). split; [apply walk_word; [exact G | exists r; split; assumption]|].
        destruct B as [[x ->]|[x ->]]; [left | right]; exists x; reflexivity.
      * intros (w & Ww & B). destruct w as [|m' w]; [apply solid_nil in Ww; [contradiction | exact S]|].
        assert (m' = m) as -> by (destruct B as [[x E]|[x E]]; injection E; intros; congruence).
        apply walk_word in Ww; [|exact G]. destruct Ww as (r & W & Ww). rewrite W. destruct (walk_good _ _ _ W G S) as [Gr Sr].
        apply (IH r Gr Sr). exists w. split; [exact Ww|]. destruct B as [[x E]|[x E]]; injection E; intros ->; [left | right]; exists x; reflexivity.
Qed.

(* --- the slots of the module ---------------------------------------------------- *)
Definition after (i : nat) : list slot := skipn i ORDER.
Lemma good_tl l : good l -> good (tl l). Proof. destruct l as [|[x k] l]; [auto | intros [_ G]; exact G]. Qed.
Lemma solid_tl l : solid l -> solid (tl l). Proof. destruct l as [|[x k] [|y l]]; cbn; auto. Qed.
Lemma skipn_tl {A} i (l : list A) : skipn (S i) l = tl (skipn i l).
Proof. revert l. induction i as [|i IH]; intros [|x l]; try reflexivity. exact (IH l). Qed.
Lemma order_good i : good (after i) /\ solid (after i).
Proof.
  induction i as [|i [G S]].
  - split; [|reflexivity]. vm_compute. intuition (try discriminate; try reflexivity).
  - unfold after. rewrite skipn_tl. split; [apply good_tl; exact G | apply solid_tl; exact S].
Qed.
Lemma skip_walk m l : forall i, l = after i -> match walk l m with
  | Some r => exists j s, skip_slots (fst m) (snd m) i l = Ok (j, s) /\ slot_matches (fst m) (snd m) s = true /\ r = after (S j) /\ (j < length ORDER)%nat
  | None => l = [] \/ solid l -> l = [] \/ exists j s, skip_slots (fst m) (snd m) i l = Ok (j, s) /\ slot_matches (fst m) (snd m) s = false /\ (j < length ORDER)%nat
  end.
Proof.
  induction l as [|[x k] l IH]; intros i E; cbn [walk]; [left; reflexivity|].
  assert (El : l = after (S i)). { unfold after. rewrite skipn_tl. fold (after i). rewrite <- E. reflexivity. }
  assert (Li : (i < length ORDER)%nat).
  { destruct (Nat.lt_ge_cases i (length ORDER)) as [H|H]; [exact H|]. unfold after in E. rewrite skipn_all2 in E by exact H. discriminate E. }
  cbn [skip_slots snd]. destruct (slot_matches (fst m) (snd m) (x, k)) eqn:M.
  - rewrite Bool.andb_false_r. exists i, (x, k). repeat split; assumption.
  - cbn [negb]. rewrite Bool.andb_true_r. destruct k.
    + specialize (IH (S i) El). destruct (walk l m) as [r|]; [exact IH|]. intros [Z|S]; [discriminate Z|]. right.
      destruct l as [|s l]; [cbn in S; discriminate S|]. destruct IH as [Z|Z]; [right; exact S | discriminate Z | exact Z].
    + intros _. right. exists i, (x, false). repeat split; assumption.
Qed.
Lemma after_nil i : (i <= length ORDER)%nat -> (after i = [] <-> i = length ORDER).
Proof.
  intro L. unfold after. split; intro H; [|subst; apply skipn_all]. assert (length (skipn i ORDER) = 0%nat) as Z by (rewrite H; reflexivity).
  rewrite skipn_length in Z. lia.
Qed.
Lemma update_walk d m t : (t_i t <= length ORDER)%nat ->
  tr_update d (fst m) (snd m) t =
    match after (t_i t) with
    | [] => (Ok tt, t)
    | l => match walk l m with
           | Some r => (Ok tt, mkTr (feed d (t_hashes t)) (length ORDER - length r))
           | None => (Err (XAlert UNEXPECTED_MESSAGE), snd (tr_update d (fst m) (snd m) t))
           end
    end /\ (t_i (snd (tr_update d (fst m) (snd m) t)) <= length ORDER)%nat.
Proof.
  intro L. unfold tr_update. pose proof (after_nil _ L) as An. destruct (Nat.eqb_spec (t_i t) (length ORDER)) as [E|E].
  - destruct (after (t_i t)); [split; [reflexivity | exact L]|]. destruct An as [_ X]. discriminate (X E).
  - pose proof (skip_walk m (after (t_i t)) (t_i t) eq_refl) as K. fold (after (t_i t)). destruct (after (t_i t)) as [|s l] eqn:Ea; [destruct An as [X _]; destruct (E (X eq_refl))|].
    destruct (walk (s :: l) m) as [r|] eqn:W.
    + destruct K as (j & s' & Es & Ms & -> & Lj). rewrite Es, Ms. cbn [snd t_i]. split; [|lia]. f_equal. f_equal. unfold after. rewrite skipn_length. lia.
    + destruct K as [K|(j & s' & Es & Ms & Lj)]; [right; rewrite <- Ea; apply order_good | discriminate K|]. rewrite Es, Ms. cbn [snd t_i]. split; [reflexivity | lia].
Qed.
Lemma walk_after m i r : (i <= length ORDER)%nat -> walk (after i) m = Some r -> r = after (length ORDER - length r).
Proof.
  intros L W. pose proof (skip_walk m (after i) i eq_refl) as K. rewrite W in K. destruct K as (j & s & _ & _ & -> & Lj).
  replace (length ORDER - length (after (S j)))%nat with (S j); [reflexivity|]. unfold after. rewrite skipn_length. lia.
Qed.
Lemma flow_word w : word (after 1) w <-> flow w.
Proof.
  split.
  - intro H. vm_compute in H.
    repeat match goal with
    | H : word (_ :: _) _ |- _ => inversion H; subst; clear H
    | H : word [] _ |- _ => inversion H; subst; clear H
    end;
    match goal with
    | |- flow ?w =>
      let p := eval cbv in (existsb (fun m => match m with (Server, 13) => true | _ => false end) w) in
      let q := eval cbv in (existsb (fun m => match m with (Client, 5) => true | _ => false end) w) in
      let r := eval cbv in (existsb (fun m => match m with (Client, 11) => true | _ => false end) w) in
      let s := eval cbv in (existsb (fun m => match m with (Client, 15) => true | _ => false end) w) in
      exists p, q, r, s; reflexivity
    end.
  - intros (cr & eoed & cert & cv & ->). change (after 1) with (tl ORDER). unfold ORDER, tl.
    destruct cr, eoed, cert, cv; cbn [app]; repeat first [apply w_take | apply w_skip]; apply w_end.
Qed.

(* --- histories -------------------------------------------------------------------- *)
Lemma trun_app C a b t : trun C (a ++ b) t = (fst (trun C a t) ++ fst (trun C b (snd (trun C a t))), snd (trun C b (snd (trun C a t)))).
Proof.
  revert t. induction a as [|o a IH]; intro t; cbn [trun app fst snd]; [destruct (trun C b t); reflexivity|].
  destruct (tcall_step C o t) as [r t1]. rewrite IH. destruct (trun C a t1) as [rs t2]. cbn [fst snd app]. reflexivity.
Qed.
Definition sane (t : transcript) : Prop := t_hashes t <> [] /\ (t_i t <= length ORDER)%nat.
Lemma feed_nil d l : feed d l = [] -> l = []. Proof. destruct l; [reflexivity | discriminate]. Qed.
Lemma update_hashes d m t : t_hashes (snd (tr_update d (fst m) (snd m) t)) = t_hashes t \/ t_hashes (snd (tr_update d (fst m) (snd m) t)) = feed d (t_hashes t).
Proof.
  unfold tr_update. destruct (Nat.eqb _ _); [left; reflexivity|]. destruct (skip_slots _ _ _ _) as [[j s]|]; [|left; reflexivity].
  destruct (slot_matches _ _ _); [right | left]; reflexivity.
Qed.
Lemma step_sane C o t : sane t -> sane (snd (tcall_step C o t)) /\ may o (fst (tcall_step C o t)).
Proof.
  intros [H L]. destruct o as [d sd ty|h|sd b| | |]; cbn [tcall_step may].
  - pose proof (update_walk d (sd, ty) t L) as [E L']. pose proof (update_hashes d (sd, ty) t) as U. cbn [fst snd] in *.
    destruct (tr_update d sd ty t) as [r t1]. cbn [fst snd] in *. split.
    + split; [|exact L']. destruct U as [->| ->]; [exact H | intro X; apply H; exact (feed_nil _ _ X)].
    + destruct (after (t_i t)); [injection E as -> _; left; reflexivity|]. destruct (walk _ _); injection E as ->; [left | right]; reflexivity.
  - unfold tr_post_init. destruct (find _ _) as [p|]; cbn [fst snd]; (split; [|auto]); [split; [discriminate | exact L] | split; assumption].
  - unfold tr_dance. destruct (t_hashes t) as [|[h x] r] eqn:E; [destruct (H eq_refl)|]. cbn [fst snd]. split; [|reflexivity].
    split; [discriminate|]. destruct sd; cbn; lia.
  - cbn [fst snd]. split; [split; assumption|]. unfold tr_digest. destruct (t_hashes t) as [|[h x] r]; [destruct (H eq_refl)|]. eexists. reflexivity.
  - cbn [fst snd]. split; [split; assumption|]. unfold tr_digest. destruct (t_hashes t) as [|[h x] r]; [destruct (H eq_refl)|]. eexists. reflexivity.
  - cbn [fst snd]. split; [split; assumption|]. destruct (t_hashes t); [destruct (H eq_refl) | reflexivity].
Qed.
Lemma run_sane C l : forall t, sane t -> sane (snd (trun C l t)) /\ Forall2 may l (fst (trun C l t)).
Proof.
  induction l as [|o l IH]; intros t S; cbn [trun]; [split; [exact S | constructor]|].
  destruct (step_sane C o t S) as [S1 M]. destruct (tcall_step C o t) as [r t1]. cbn [fst snd] in *.
  destruct (IH t1 S1) as [S2 F]. destruct (trun C l t1) as [rs t2]. cbn [fst snd] in *. split; [exact S2 | constructor; assumption].
Qed.
Lemma new_sane flip suites t : tr_new flip suites = Ok t -> sane t.
Proof.
  intro H. destruct (tr_new_has _ _ _ H) as (hl & N & -> & _). split; cbn [t_hashes t_i]; [|vm_compute; lia].
  destruct hl; [destruct (N eq_refl) | discriminate].
Qed.
Lemma total C flip suites t l : tr_new flip suites = Ok t -> Forall2 may l (fst (trun C l t)).
Proof. intro H. apply run_sane. exact (new_sane _ _ _ H). Qed.

Lemma upd_step C d m t : (t_i t <= length ORDER)%nat ->
  match after (t_i t) with
  | [] => tcall_step C (upd (d, m)) t = (Ok RNone, t)
  | l => match walk l m with
         | Some r => tcall_step C (upd (d, m)) t = (Ok RNone, mkTr (feed d (t_hashes t)) (length ORDER - length r)) /\ r = after (length ORDER - length r)
         | None => fst (tcall_step C (upd (d, m)) t) = Err (XAlert UNEXPECTED_MESSAGE)
         end
  end.
Proof.
  intro L. unfold upd, tcall_step. cbn [fst snd]. destruct (update_walk d m t L) as [E _].
  pose proof (fun r => walk_after m (t_i t) r L) as K. destruct (after (t_i t)) as [|s l]; [rewrite E; reflexivity|].
  destruct (walk (s :: l) m) as [r|]; rewrite E; cbn [rbind]; [split; [reflexivity | apply K; reflexivity] | reflexivity].
Qed.
Lemma feeds_app a b l : feed b (feed a l) = feed (a ++ b) l.
Proof. unfold feed. rewrite map_map. apply map_ext. intros [h d]. cbn [fst snd]. rewrite app_assoc. reflexivity. Qed.
Lemma feeds_nil l : feed [] l = l.
Proof. unfold feed. rewrite <- (map_id l) at 2. apply map_ext. intros [h d]. cbn [fst snd]. rewrite app_nil_r. reflexivity. Qed.
Lemma all_fine C ms : forall t, (t_i t <= length ORDER)%nat ->
  (Forall fine (fst (trun C (map upd ms) t)) <-> walks (after (t_i t)) (order ms) <> None).
Proof.
  induction ms as [|[d m] ms IH]; intros t L; cbn [map trun order walks fst]; [split; [discriminate | constructor]|].
  pose proof (upd_step C d m t L) as U. change (map snd ms) with (order ms). cbn [fst snd] in *. destruct (after (t_i t)) as [|s l] eqn:Ea.
  - rewrite U. pose proof (IH t L) as J. rewrite Ea in J. destruct (trun C (map upd ms) t) as [rs t2]. cbn [fst snd] in *.
    split; [discriminate|]. intros _. constructor; [reflexivity|]. apply J. destruct ms; discriminate.
  - destruct (walk (s :: l) m) as [r|].
    + destruct U as [U Er]. rewrite U. assert (L1 : (length ORDER - length r <= length ORDER)%nat) by lia.
      pose proof (IH (mkTr (feed d (t_hashes t)) (length ORDER - length r)) L1) as J. cbn [t_i] in J. rewrite <- Er in J.
      destruct (trun C (map upd ms) _) as [rs t2]. cbn [fst snd] in *. rewrite <- J. split; [intro F; inversion F; assumption | intro F; constructor; [reflexivity | exact F]].
    + destruct (tcall_step C (upd (d, m)) t) as [r t1]. cbn [fst] in U. subst r. destruct (trun C (map upd ms) t1) as [rs t2]. cbn [fst].
      split; [|intro X; destruct (X eq_refl)]. intro F. inversion F as [|? ? X _]. discriminate X.
Qed.
Lemma order_exact C flip suites t ms : tr_new flip suites = Ok t ->
  (Forall fine (fst (trun C (map upd ms) t)) <-> exists w, flow w /\ (begins (order ms) w \/ begins w (order ms))).
Proof.
  intro H. destruct (tr_new_has _ _ _ H) as (hl & N & -> & _). rewrite all_fine by (cbn; lia). cbn [t_i].
  rewrite walks_words by apply order_good. split; intros (w & W & B); exists w; (split; [apply flow_word; exact W | exact B]).
Qed.

(* messages of the beginning of a word are all hashed *)
Lemma hashed C ms : forall t w, (t_i t <= length ORDER)%nat -> word (after (t_i t)) (order ms ++ w) ->
  exists i, trun C (map upd ms) t = (repeat (Ok RNone) (length ms), mkTr (feed (said ms) (t_hashes t)) i) /\ (i <= length ORDER)%nat /\ word (after i) w.
Proof.
  induction ms as [|[d m] ms IH]; intros t w L W; cbn [map trun order app length repeat].
  - exists (t_i t). split; [|split; assumption]. unfold said. cbn [map concat]. rewrite feeds_nil. destruct t; reflexivity.
  - cbn [order map app snd] in W. change (map snd ms) with (order ms) in W. apply walk_word in W; [|apply order_good]. destruct W as (r & Wr & W).
    pose proof (upd_step C d m t L) as U. destruct (after (t_i t)) as [|s l]; [discriminate Wr|]. rewrite Wr in U. destruct U as [U Er]. rewrite U.
    rewrite Er in W. destruct (IH (mkTr (feed d (t_hashes t)) (length ORDER - length r)) w) as (i & E & Li & Wi); [cbn [t_i]; lia | exact W|].
    rewrite E. exists i. split; [|split; assumption]. cbn [t_hashes]. rewrite feeds_app. unfold said. cbn [map concat fst]. reflexivity.
Qed.
Lemma ended C ms : forall t, after (t_i t) = [] -> (t_i t <= length ORDER)%nat -> trun C (map upd ms) t = (repeat (Ok RNone) (length ms), t).
Proof.
  induction ms as [|[d m] ms IH]; intros t E L; cbn [map trun length repeat]; [reflexivity|].
  pose proof (upd_step C d m t L) as U. rewrite E in U. rewrite U, (IH t E L). reflexivity.
Qed.
Lemma hex_in b : hex b = in_hex b.
Proof.
  induction b as [|x b IH]; [reflexivity|]. unfold hex in *. cbn [flat_map app in_hex]. rewrite IH. f_equal; [|f_equal]; destruct x; reflexivity.
Qed.
Lemma fed_new d hl : feed d (map (fun h : hashalg => (h, [])) hl) = map (fun h => (h, d)) hl.
Proof. unfold feed. rewrite map_map. reflexivity. Qed.
Lemma digest_exact C flip suites t s h a b w : tr_new flip suites = Ok t -> In s suites -> suite_hash s = Some h -> flow w -> begins (order (a ++ b)) w ->
  fst (trun C (map upd a ++ [TPost h] ++ map upd b ++ [TDigest; THex]) t) =
    repeat (Ok RNone) (length a) ++ [Ok RNone] ++ repeat (Ok RNone) (length b) ++
    [Ok (RBytes (cr_hash C h (said (a ++ b)))); Ok (RBytes (in_hex (cr_hash C h (said (a ++ b)))))].
Proof.
  intros H Is Hs F [rest ->]. destruct (tr_new_has _ _ _ H) as (hl & N & -> & Hl). destruct (Hl s Is) as (h' & Hs' & Ih).
  assert (h' = h) as -> by congruence. apply flow_word in F. unfold order in F. rewrite map_app, <- app_assoc in F. fold (order a) in F. fold (order b) in F.
  destruct (hashed C a (mkTr (map (fun h => (h, [])) hl) 1) (order b ++ rest) ltac:(cbn; lia) F) as (i & E & Li & W). cbn [t_hashes] in E. rewrite fed_new in E.
  rewrite trun_app, E. cbn [fst snd]. f_equal. rewrite trun_app. cbn [trun tcall_step]. unfold tr_post_init. cbn [t_hashes t_i]. rewrite (find_has h _ hl Ih). cbn [fst snd].
  f_equal. destruct (hashed C b (mkTr [(h, said a)] i) rest Li W) as (j & Eb & _ & _). rewrite trun_app, Eb. cbn [fst snd]. f_equal.
  cbn [trun tcall_step tr_digest t_hashes feed map rbind fst snd]. rewrite hex_in. unfold said. rewrite map_app, concat_app. reflexivity.
Qed.
Lemma end_exact C flip suites t s h a b : tr_new flip suites = Ok t -> In s suites -> suite_hash s = Some h -> flow (order a) ->
  fst (trun C (map upd a ++ [TPost h] ++ map upd b ++ [TDigest]) t) =
    repeat (Ok RNone) (length a) ++ [Ok RNone] ++ repeat (Ok RNone) (length b) ++ [Ok (RBytes (cr_hash C h (said a)))].
Proof.
  intros H Is Hs F. destruct (tr_new_has _ _ _ H) as (hl & N & -> & Hl). destruct (Hl s Is) as (h' & Hs' & Ih).
  assert (h' = h) as -> by congruence. apply flow_word in F. rewrite <- (app_nil_r (order a)) in F.
  destruct (hashed C a (mkTr (map (fun h => (h, [])) hl) 1) [] ltac:(cbn; lia) F) as (i & E & Li & W). cbn [t_hashes] in E. rewrite fed_new in E.
  rewrite trun_app, E. cbn [fst snd]. f_equal. rewrite trun_app. cbn [trun tcall_step]. unfold tr_post_init. cbn [t_hashes t_i]. rewrite (find_has h _ hl Ih). cbn [fst snd].
  f_equal. rewrite trun_app, (ended C b (mkTr [(h, said a)] i)); [reflexivity | | exact Li]. apply solid_nil; [apply order_good | exact W].
Qed.
Lemma word_0 w : word (after 0) ((Server, 2) :: w) <-> flow w.
Proof.
  rewrite <- flow_word, walk_word by apply order_good. split; [|intro W; exists (after 1); split; [reflexivity | exact W]].
  intros (r & E & W). vm_compute in E. injection E as <-. exact W.
Qed.
Lemma retry_exact C flip suites t l h sd chash ms w : tr_new flip suites = Ok t -> last (fst (trun C (l ++ [TPost h]) t)) (Err XFuel) = Ok RNone ->
  flow w -> begins (order ms) (match sd with Client => w | Server => (Server, 2) :: w end) ->
  last (fst (trun C (l ++ [TPost h] ++ [TDance sd chash] ++ map upd ms ++ [TDigest]) t)) (Err XFuel) =
    Ok (RBytes (cr_hash C h ([xfe; x00; x00; Nb (digest_size h)] ++ chash ++ said ms))).
Proof.
  intros H P F [rest B]. rewrite trun_app in P. cbn [fst] in P. rewrite trun_app. cbn [fst].
  destruct (run_sane C l t (new_sane _ _ _ H)) as [[_ L] _]. set (t1 := snd (trun C l t)) in *. clearbody t1.
  assert (La : forall x y, last (fst (trun C l t) ++ x :: y) (Err XFuel) = last (x :: y) (Err XFuel)).
  { intros x y. generalize (fst (trun C l t)). intro u. induction u as [|z u IH]; [reflexivity|]. cbn [app]. rewrite <- IH. destruct (u ++ x :: y) eqn:Eu; [destruct u; discriminate Eu | reflexivity]. }
  cbn [app trun tcall_step] in P |- *. unfold tr_post_init in P |- *. destruct (find _ (t_hashes t1)) as [p|] eqn:Ef; [|cbn [fst snd] in P; rewrite La in P; discriminate P].
  apply find_some in Ef. destruct Ef as [_ Ef]. destruct p as [h' d]. cbn [fst] in Ef. assert (h' = h) as -> by (destruct h, h'; try discriminate Ef; reflexivity).
  cbn [tr_dance t_hashes]. assert (W : word (after (match sd with Client => 1 | Server => 0 end)) (order ms ++ rest)).
  { rewrite <- B. destruct sd; [apply flow_word; exact F | apply word_0; exact F]. }
  destruct (hashed C ms (mkTr [(h, message_hash h chash)] (match sd with Client => 1 | Server => 0 end)) rest) as (j & E & _ & _); [destruct sd; cbn; lia | exact W|].
  rewrite trun_app, E. cbn [fst snd t_hashes feed map trun tcall_step tr_digest rbind]. rewrite La.
  assert (R : forall (n : nat) (x : res tret), last (Ok RNone :: Ok RNone :: repeat (Ok RNone) n ++ [x]) (Err XFuel) = x).
  { intros n x. change (Ok RNone :: Ok RNone :: repeat (Ok RNone) n ++ [x]) with ((Ok RNone :: Ok RNone :: repeat (Ok RNone) n) ++ [x]). apply last_last. }
  rewrite R. unfold message_hash. rewrite <- app_assoc. reflexivity.
Qed.
Lemma refused_same C d sd ty t e t' : tcall_step C (TUpdate d sd ty) t = (Err e, t') -> t_hashes t' = t_hashes t.
Proof.
  cbn [tcall_step]. unfold tr_update. destruct (Nat.eqb _ _); [discriminate|]. destruct (skip_slots _ _ _ _) as [[j s]|]; [|intros [= _ <-]; reflexivity].
  destruct (slot_matches _ _ _); [discriminate | intros [= _ <-]; reflexivity].
Qed.
Lemma refused_digest C d sd ty t e t' h : tcall_step C (TUpdate d sd ty) t = (Err e, t') ->
  fst (trun C [TDigest; TPost h; TDigest] t') = fst (trun C [TDigest; TPost h; TDigest] t).
Proof.
  intro H. apply refused_same in H. cbn [trun tcall_step]. unfold tr_post_init, tr_digest. rewrite H. destruct (find _ _); cbn [fst t_hashes]; rewrite ?H; reflexivity.
Qed.
