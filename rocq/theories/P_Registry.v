(* The registry of the extension classes: every interleaving. *)
From Verif Require Import Base Serial Iana Crypto Ext Registry S_Registry P_Base P_Serial.

Lemma int2_lt s ty s1 : read_int 2 s = Ok (ty, s1) -> ty < 65536.
Proof.
  unfold read_int. change (2 =? 0) with false. cbv iota. unfold read_exactly. change (2 =? 0) with false. cbv iota.
  destruct (read_n 2 s) as [[got s2]|e]; [|discriminate]. cbn [rbind].
  destruct (blen got =? 2) eqn:E.
  - cbn [rbind]. intro H. injection H; intros _ <-. apply N.eqb_eq in E. pose proof (of_bytes_lt got) as L. rewrite E in L. exact L.
  - destruct got as [|x got]; [discriminate|]. destruct (read_n (2 - blen (x :: got)) s2) as [[got2 s3]|e]; [|discriminate]. cbn [rbind].
    destruct got2 as [|y got2]; [discriminate|]. destruct (blen (x :: got) + blen (y :: got2) =? 2) eqn:F; cbn [rbind]; [|discriminate].
    intro H. injection H; intros _ <-. apply N.eqb_eq in F. rewrite <- blen_app in F. pose proof (of_bytes_lt ((x :: got) ++ y :: got2)) as L. rewrite F in L. exact L.
Qed.

(* --- the dictionary ------------------------------------------------------ *)
Lemma g_get_set ty v l t : g_get t (g_set ty v l) = if (t =? ty) then (match g_get ty l with Some _ => Some v | None => None end) else g_get t l.
Proof.
  induction l as [|[k w] l IH]; cbn [g_get g_set]; [destruct (t =? ty); reflexivity|].
  destruct (ty =? k) eqn:E; cbn [g_get].
  - apply N.eqb_eq in E. subst k. destruct (t =? ty); reflexivity.
  - destruct (t =? k) eqn:F; [|exact IH]. apply N.eqb_eq in F. subst k. rewrite N.eqb_sym, E. reflexivity.
Qed.
Lemma g_set_keys ty v l : map fst (g_set ty v l) = map fst l.
Proof. induction l as [|[k w] l IH]; [reflexivity|]. cbn [g_set]. destruct (ty =? k); cbn [map fst]; [reflexivity | rewrite IH; reflexivity]. Qed.
Lemma g_get_in ty l : g_get ty l = None -> ~ In ty (map fst l).
Proof.
  induction l as [|[k w] l IH]; cbn [g_get map fst]; intros H []; destruct (ty =? k) eqn:E; try discriminate H.
  - subst k. rewrite N.eqb_refl in E. discriminate E.
  - apply IH; assumption.
Qed.

Definition regI (g : reg) : Prop :=
  NoDup (map fst (g_made g)) /\ Forall (fun t => t < 65536) (map fst (g_made g)) /\
  forall ty m, g_get ty (g_made g) = Some (Some m) -> m_type m = ty.
Definition grows (g g' : reg) : Prop := forall ty,
  (g_get ty (g_made g) <> None -> g_get ty (g_made g') <> None) /\
  (forall m, g_get ty (g_made g) = Some (Some m) -> g_get ty (g_made g') = Some (Some m)).
Lemma grows_refl g : grows g g.
Proof. intro ty. split; auto. Qed.

Definition pcI (g : reg) (h : hname) (s : stream) (p : rpc) : Prop :=
  match p with
  | RIdle => True
  | RGet h' ty s1 => h' = h /\ read_int 2 s = Ok (ty, s1)
  | RTruth ty s1 => read_int 2 s = Ok (ty, s1) /\ registry ty = None /\ g_get ty (g_made g) <> None
  | RAny ty s1 => read_int 2 s = Ok (ty, s1) /\ registry ty = None /\ exists m, g_get ty (g_made g) = Some (Some m)
  | ROuter ty s1 => read_int 2 s = Ok (ty, s1) /\ registry ty = None
  | RInner m ty s1 => read_int 2 s = Ok (ty, s1) /\ registry ty = None /\ m_type m = ty /\ g_get ty (g_made g) <> None
  end.
Definition unheard (s : stream) : Prop := exists ty, of_type s ty /\ registry ty = None.
Definition goodr (C : crypto) (h : hname) (s : stream) (r : res (ext * stream)) : Prop :=
  r = parse_ext C h s \/ (r = Err XAttr /\ unheard s).
Lemma pcI_grows g g' h s p : grows g g' -> pcI g h s p -> pcI g' h s p.
Proof.
  intros G. destruct p; cbn [pcI]; auto.
  - intros (A & B & D). split; [exact A|]. split; [exact B|]. apply (G ty). exact D.
  - intros (A & B & m & D). split; [exact A|]. split; [exact B|]. exists m. apply (G ty). exact D.
  - intros (A & B & E & D). split; [exact A|]. split; [exact B|]. split; [exact E|]. apply (G ty). exact D.
Qed.
Lemma unknown_ext C h s ty s1 : read_int 2 s = Ok (ty, s1) -> registry ty = None -> parse_ext C h s = parse_known C ty CUnknownExt s1.
Proof. intros A B. unfold parse_ext. rewrite A. cbn [rbind]. rewrite B. reflexivity. Qed.
Lemma known_ext C h s ty s1 f : read_int 2 s = Ok (ty, s1) -> registry ty = Some f ->
  parse_ext C h s = match f h with Some c => parse_known C ty c s1 | None => Err (XAlert ILLEGAL_PARAMETER) end.
Proof. intros A B. unfold parse_ext. rewrite A. cbn [rbind]. rewrite B. destruct (f h); reflexivity. Qed.

Lemma rstep_ok C g h s p : regI g -> pcI g h s p ->
  let (g', o) := rstep C g p in
  regI g' /\ grows g g' /\
  match o with
  | RGoes p' => pcI g' h s p'
  | REnds r => goodr C h s r /\ forall ty, of_type s ty -> registry ty = None -> exists m, g_get ty (g_made g') = Some (Some m)
  end.
Proof.
  intros R P. pose proof R as (R1 & R2 & R3).
  assert (U : forall ty s1, read_int 2 s = Ok (ty, s1) -> forall t, of_type s t -> t = ty).
  { intros ty s1 A t (s2 & B). rewrite A in B. injection B; auto. }
  destruct p as [|h' ty s1|ty s1|ty s1|ty s1|m ty s1]; cbn [rstep pcI] in *.
  - split; [exact R|]. split; [apply grows_refl | exact Logic.I].
  - destruct P as (-> & A). destruct (registry ty) as [f|] eqn:F.
    + split; [exact R|]. split; [apply grows_refl|]. split.
      * left. rewrite (known_ext C h s ty s1 f A F). destruct (f h); reflexivity.
      * intros t T N. rewrite (U _ _ A t T) in N. rewrite F in N. discriminate N.
    + split; [exact R|]. split; [apply grows_refl|]. destruct (g_get ty (g_made g)) eqn:G; cbn [pcI].
      * split; [exact A|]. split; [exact F|]. rewrite G. discriminate.
      * split; assumption.
  - destruct P as (A & F & G). split; [exact R|]. split; [apply grows_refl|].
    destruct (g_get ty (g_made g)) as [[m|]|] eqn:E; cbn [pcI]; try (split; assumption).
    split; [exact A|]. split; [exact F|]. exists m. exact E.
  - destruct P as (A & F & m & G). rewrite G. split; [exact R|]. split; [apply grows_refl|]. split.
    + left. rewrite (unknown_ext C h s ty s1 A F). unfold parse_made. rewrite (R3 ty m G). reflexivity.
    + intros t T N. rewrite (U _ _ A t T). exists m. exact G.
  - destruct P as (A & F).
    destruct (g_get ty (g_made g)) as [v|] eqn:E.
    + split; [exact R|]. split; [intro t; split; auto|]. cbn [pcI m_type g_made]. split; [exact A|]. split; [exact F|]. split; [reflexivity | rewrite E; discriminate].
    + split; [|split].
      * split; [|split]; cbn [g_made map fst].
        -- constructor; [apply g_get_in; exact E | exact R1].
        -- constructor; [apply (int2_lt _ _ _ A) | exact R2].
        -- intros t m. cbn [g_get]. destruct (t =? ty); [discriminate | apply R3].
      * intro t. cbn [g_made g_get]. destruct (t =? ty) eqn:T; [|split; auto]. split; [discriminate|].
        apply N.eqb_eq in T. subst t. intros m H. rewrite E in H. discriminate H.
      * cbn [pcI m_type g_made g_get]. rewrite N.eqb_refl. split; [exact A|]. split; [exact F|]. split; [reflexivity | discriminate].
  - destruct P as (A & F & M & G).
    assert (Z : forall m', goodr C h s (Err XAttr) /\ (g_get ty (g_made g) = Some (Some m') -> forall t, of_type s t -> registry t = None -> exists m, g_get t (g_made g) = Some (Some m))).
    { intro m'. split; [right; split; [reflexivity | exists ty; split; [exists s1; exact A | exact F]]|].
      intros E t T N. rewrite (U _ _ A t T). exists m'. exact E. }
    assert (Y : goodr C h s (parse_made C m s1)).
    { left. rewrite (unknown_ext C h s ty s1 A F). unfold parse_made. rewrite M. reflexivity. }
    destruct (g_get ty (g_made g)) as [[m'|]|] eqn:E; [| |elim G; reflexivity].
    + split; [exact R|]. split; [apply grows_refl|]. destruct (Z m') as (Z1 & Z2).
      destruct (m_id m' =? m_id m); (split; [|apply Z2; reflexivity]); [exact Y | exact Z1].
    + split; [|split].
      * split; [|split]; cbn [g_made]; rewrite ?g_set_keys; auto.
        intros t m0. rewrite g_get_set, E. destruct (t =? ty) eqn:T; [|apply R3].
        intro H. injection H; intros <-. apply N.eqb_eq in T. congruence.
      * intro t. cbn [g_made]. rewrite g_get_set, E. destruct (t =? ty) eqn:T; [|split; auto].
        split; [discriminate|]. apply N.eqb_eq in T. subst t. intros m0 H. rewrite E in H. discriminate H.
      * split; [exact Y|]. intros t T N. exists m. cbn [g_made]. rewrite (U _ _ A t T), g_get_set, N.eqb_refl, E. reflexivity.
Qed.

(* --- all interleavings ---------------------------------------------------- *)
Lemma rput_nth A (x : A) : forall l i j y, nth_error (rput i x l) j = Some y -> (j = i /\ y = x) \/ (j <> i /\ nth_error l j = Some y).
Proof.
  induction l as [|z l IH]; intros i j y H; [destruct i, j; discriminate H|].
  destruct i as [|i]; destruct j as [|j]; cbn [rput nth_error] in *; auto.
  - injection H; auto.
  - destruct (IH i j y H) as [[-> ->]|[K1 K]]; auto.
Qed.
Definition no_began (i : nat) (l : list rhap) : Prop := forall h s, ~ In (RBegan i h s) l.
(* a call of the type of [s] ended *)
Definition heard (s : stream) (l : list rhap) : Prop :=
  exists j h' s' r' ty, In (REnded j h' s' r') l /\ of_type s ty /\ of_type s' ty.
Definition begun (i : nat) (h : hname) (s : stream) (l : list rhap) (P : Prop) : Prop :=
  exists l3 l4, l = l3 ++ RBegan i h s :: l4 /\ no_began i l3 /\ (heard s l4 -> P).
Definition calmp (p : rpc) : Prop := match p with ROuter _ _ | RInner _ _ _ => False | _ => True end.
Inductive rpastI (C : crypto) : list rhap -> Prop :=
| rp_nil : rpastI C []
| rp_began i h s l : rpastI C l -> rpastI C (RBegan i h s :: l)
| rp_ended i h s r l : goodr C h s r -> begun i h s l (r = parse_ext C h s) -> rpastI C l -> rpastI C (REnded i h s r :: l).
Definition worldI (C : crypto) (w : rworld) : Prop :=
  regI (r_reg w) /\ rpastI C (r_past w) /\
  (forall j h s r ty, In (REnded j h s r) (r_past w) -> of_type s ty -> registry ty = None -> exists m, g_get ty (g_made (r_reg w)) = Some (Some m)) /\
  (forall i h s p, nth_error (r_pcs w) i = Some (h, s, p) -> pcI (r_reg w) h s p /\ (p <> RIdle -> begun i h s (r_past w) (calmp p))).

Lemma begun_more i h s l (P : Prop) e : (forall h' s', e <> RBegan i h' s') -> begun i h s l P -> begun i h s (e :: l) P.
Proof.
  intros N (l3 & l4 & -> & B & D). exists (e :: l3), l4. split; [reflexivity|]. split; [|exact D].
  intros h' s' [E|E]; [apply (N h' s' E) | apply (B h' s' E)].
Qed.
Lemma begun_impl i h s l (P Q : Prop) : (heard s l -> P -> Q) -> begun i h s l P -> begun i h s l Q.
Proof.
  intros N (l3 & l4 & -> & B & D). exists l3, l4. split; [reflexivity|]. split; [exact B|]. intro H. apply N; [|apply D; exact H].
  destruct H as (j & h' & s' & r' & ty & I & X). exists j, h', s', r', ty. split; [|exact X]. apply in_or_app. right. right. exact I.
Qed.

Lemma calm_next C g h s p l : regI g -> pcI g h s p -> 
  (heard s l -> forall ty, of_type s ty -> registry ty = None -> exists m, g_get ty (g_made g) = Some (Some m)) ->
  heard s l -> calmp p ->
  match snd (rstep C g p) with RGoes p' => calmp p' | REnds r => r = parse_ext C h s end.
Proof.
  intros R P D H K. specialize (D H). pose proof R as (_ & _ & R3).
  destruct p as [|h' ty s1|ty s1|ty s1|ty s1|m ty s1]; cbn [rstep pcI calmp] in *; try (elim K).
  - exact Logic.I.
  - destruct P as (-> & A). destruct (registry ty) as [f|] eqn:F; cbn [snd].
    + rewrite (known_ext C h s ty s1 f A F). destruct (f h); reflexivity.
    + destruct (D ty) as (m & G); [exists s1; exact A | exact F|]. rewrite G. exact Logic.I.
  - destruct P as (A & F & G). destruct (D ty) as (m & E); [exists s1; exact A | exact F|]. cbn [snd]. rewrite E. exact Logic.I.
  - destruct P as (A & F & m & G). cbn [snd]. rewrite G. rewrite (unknown_ext C h s ty s1 A F). unfold parse_made. rewrite (R3 ty m G). reflexivity.
Qed.
Lemma rdo_ok C e w : worldI C w -> worldI C (rdo C e w).
Proof.
  intros (R & P & D & T). destruct e as [i h s|i]; cbn [rdo].
  - destruct (nth_error (r_pcs w) i) as [[[h0 s0] p]|] eqn:E; [|split; [exact R|]; split; [exact P|]; split; assumption].
    destruct p; try (split; [exact R|]; split; [exact P|]; split; assumption).
    assert (B : forall Q : Prop, (heard s (r_past w) -> Q) -> begun i h s (RBegan i h s :: r_past w) Q).
    { intros Q Z. exists [], (r_past w). split; [reflexivity|]. split; [intros h' s' []|exact Z]. }
    assert (T' : forall j h1 s1 p1, j <> i -> nth_error (r_pcs w) j = Some (h1, s1, p1) ->
       pcI (r_reg w) h1 s1 p1 /\ (p1 <> RIdle -> begun j h1 s1 (RBegan i h s :: r_past w) (calmp p1))).
    { intros j h1 s1 p1 N X. destruct (T j h1 s1 p1 X) as (T1 & T2). split; [exact T1|]. intro Y. apply begun_more; [|apply T2; exact Y].
      intros h' s' Z. injection Z; intros _ _ <-. apply N. reflexivity. }
    unfold rbegin. destruct (read_int 2 s) as [[ty s1]|er] eqn:A; cbn [rafter].
    + split; [exact R|]. split; [constructor; exact P|]. cbn [r_reg r_past r_pcs]. split.
      * intros j h1 s2 r t [X|X]; [discriminate X | apply (D j h1 s2 r t X)].
      * intros j h1 s2 p1 X. apply rput_nth in X. destruct X as [[-> X]|[N X]]; [|apply T'; assumption].
        injection X; intros -> -> ->. split; [split; [reflexivity | exact A]|]. intros _. apply B. intros _. exact Logic.I.
    + assert (Q : Err er = parse_ext C h s) by (unfold parse_ext; rewrite A; reflexivity).
      split; [exact R|]. split; [constructor; [left; exact Q | apply B; intros _; exact Q | constructor; exact P]|]. cbn [r_reg r_past r_pcs]. split.
      * intros j h1 s2 r t [X|[X|X]]; [|discriminate X | apply (D j h1 s2 r t X)].
        injection X; intros _ <- _ _. intros (s3 & Y). rewrite A in Y. discriminate Y.
      * intros j h1 s2 p1 X. apply rput_nth in X. destruct X as [[-> X]|[N X]].
        -- injection X; intros -> -> ->. split; [exact Logic.I|]. intro Y. elim Y. reflexivity.
        -- destruct (T' j h1 s2 p1 N X) as (T1 & T2). split; [exact T1|]. intro Y. apply begun_more; [discriminate | apply T2; exact Y].
  - destruct (nth_error (r_pcs w) i) as [[[h s] p]|] eqn:E; [|split; [exact R|]; split; [exact P|]; split; assumption].
    destruct (T i h s p E) as (T1 & T2). pose proof (rstep_ok C (r_reg w) h s p R T1) as S.
    assert (K : p <> RIdle -> begun i h s (r_past w) (match snd (rstep C (r_reg w) p) with RGoes p' => calmp p' | REnds r => r = parse_ext C h s end)).
    { intro Y. apply (begun_impl _ _ _ _ (calmp p)); [|apply T2; exact Y]. intros H Q.
      apply (calm_next C (r_reg w) h s p (r_past w) R T1); [|exact H|exact Q].
      intros (j & h' & s' & r' & ty & X1 & X2 & X3) t Y1 Y2. apply (D j h' s' r' t X1); [|exact Y2].
      destruct X2 as (a & X2), Y1 as (b & Y1). rewrite X2 in Y1. injection Y1; intros _ <-. exact X3. }
    assert (I : p = RIdle \/ p <> RIdle) by (destruct p; auto; right; discriminate).
    destruct (rstep C (r_reg w) p) as [g o] eqn:St. destruct S as (S1 & S2 & S3). cbn [snd] in K.
    assert (D' : forall j h1 s1 r ty, In (REnded j h1 s1 r) (r_past w) -> of_type s1 ty -> registry ty = None -> exists m, g_get ty (g_made g) = Some (Some m)).
    { intros j h1 s1 r ty X Y Z. destruct (D j h1 s1 r ty X Y Z) as (m & M). exists m. apply (S2 ty). exact M. }
    destruct o as [p'|r]; cbn [rafter].
    + split; [exact S1|]. split; [exact P|]. cbn [r_reg r_past r_pcs]. split; [exact D'|].
      intros j h1 s1 p1 X. apply rput_nth in X. destruct X as [[-> X]|[N X]].
      * injection X; intros -> -> ->. split; [exact S3|]. intro Y. apply K. intros ->. cbn [rstep] in St. injection St; intros <- _. apply Y. reflexivity.
      * destruct (T j h1 s1 p1 X) as (U1 & U2). split; [apply (pcI_grows _ _ _ _ _ S2); exact U1 | exact U2].
    + assert (Y : p <> RIdle) by (intros ->; discriminate St).
      destruct S3 as (S3 & S4). split; [exact S1|]. split; [constructor; [exact S3 | apply K; exact Y | exact P]|]. cbn [r_reg r_past r_pcs]. split.
      * intros j h1 s1 r1 ty [X|X]; [|apply (D' j h1 s1 r1 ty X)]. injection X; intros _ <- _ _. apply S4.
      * intros j h1 s1 p1 X. apply rput_nth in X. destruct X as [[-> X]|[N X]].
        -- injection X; intros -> -> ->. split; [exact Logic.I|]. intro Z. elim Z. reflexivity.
        -- destruct (T j h1 s1 p1 X) as (U1 & U2). split; [apply (pcI_grows _ _ _ _ _ S2); exact U1|]. intro Z. apply begun_more; [discriminate | apply U2; exact Z].
Qed.
Lemma regI_empty : regI g_empty.
Proof. split; [constructor|]. split; [constructor|]. intros ty m H. discriminate H. Qed.
Lemma r_start_ok C n : worldI C (r_start n).
Proof.
  split; [exact regI_empty|]. split; [constructor|]. split; [intros j h s r ty []|].
  intros i h s p H. cbn [r_start r_pcs] in H. apply nth_error_In, repeat_spec in H. injection H; intros -> -> ->.
  split; [exact Logic.I|]. intro Z. elim Z. reflexivity.
Qed.
Lemma rrun_ok C : forall l w, worldI C w -> worldI C (rrun C l w).
Proof. induction l as [|e l IH]; intros w H; [exact H|]. cbn [rrun]. apply IH, rdo_ok, H. Qed.

Lemma rpast_in C i h s r : forall l, rpastI C l -> In (REnded i h s r) l -> goodr C h s r.
Proof. induction 1; intros X; [destruct X | | ]; destruct X as [X|X]; auto; [discriminate X|]. injection X; intros <- <- <- _. assumption. Qed.
Lemma rpast_at C i h s r l2 : forall l1, rpastI C (l1 ++ REnded i h s r :: l2) -> begun i h s l2 (r = parse_ext C h s).
Proof. induction l1 as [|e l1 IH]; cbn [app]; intro H; inversion H; subst; auto. Qed.
Lemma split_same i h s h' s' : forall l3 l3' l4 l4', l3 ++ RBegan i h s :: l4 = l3' ++ RBegan i h' s' :: l4' ->
  no_began i l3 -> no_began i l3' -> l4 = l4'.
Proof.
  induction l3 as [|e l3 IH]; intros l3' l4 l4' E N N'; destruct l3' as [|e' l3']; cbn [app] in E.
  - injection E; auto.
  - injection E; intros _ <-. elim (N' h s). left. reflexivity.
  - injection E; intros _ ->. elim (N h' s'). left. reflexivity.
  - injection E; intros E' _. apply (IH _ _ _ E'); intros a b X; [apply (N a b) | apply (N' a b)]; right; exact X.
Qed.

Lemma threads_parse C n l i h s r : In (REnded i h s r) (r_past (rrun C l (r_start n))) ->
  r = parse_ext C h s \/ (r = Err XAttr /\ exists ty, of_type s ty /\ registry ty = None).
Proof. intro H. destruct (rrun_ok C l _ (r_start_ok C n)) as (_ & P & _). exact (rpast_in _ _ _ _ _ _ P H). Qed.
Lemma threads_settled C n l l1 l3 l4 i h s r j h' s' r' ty :
  r_past (rrun C l (r_start n)) = l1 ++ REnded i h s r :: l3 ++ RBegan i h s :: l4 -> (forall a b, ~ In (RBegan i a b) l3) ->
  In (REnded j h' s' r') l4 -> of_type s ty -> of_type s' ty -> r = parse_ext C h s.
Proof.
  intros E N I A B. destruct (rrun_ok C l _ (r_start_ok C n)) as (_ & P & _). rewrite E in P.
  apply rpast_at in P. destruct P as (k3 & k4 & F & M & K). rewrite (split_same _ _ _ _ _ _ _ _ _ F N M) in I.
  apply K. exists j, h', s', r', ty. auto.
Qed.
Lemma reg_small g : regI g -> N.of_nat (length (g_made g)) <= 65536.
Proof.
  intros (A & B & _). rewrite Forall_forall in B.
  assert (I : incl (map fst (g_made g)) (map N.of_nat (seq 0 (N.to_nat 65536)))).
  { intros x X. specialize (B x X). apply in_map_iff. exists (N.to_nat x). split; [apply N2Nat.id|]. apply in_seq. split; [apply le_0_n|]. cbn [plus]. lia. }
  pose proof (NoDup_incl_length A I) as L. rewrite !map_length, seq_length in L. lia.
Qed.
Lemma threads_registry C n l : N.of_nat (length (g_made (r_reg (rrun C l (r_start n))))) <= 65536.
Proof. apply reg_small. apply (rrun_ok C l _ (r_start_ok C n)). Qed.

(* --- one thread ------------------------------------------------------------ *)
Definition fullI (g : reg) : Prop := regI g /\ forall ty, g_get ty (g_made g) <> Some None.
Lemma parse_reg_ok C h s g : fullI g -> fst (parse_reg C h s g) = parse_ext C h s /\ fullI (snd (parse_reg C h s g)).
Proof.
  intros F0. pose proof F0 as ((R1 & R2 & R3) & F). unfold parse_reg, rbegin. destruct (read_int 2 s) as [[ty s1]|e] eqn:A.
  2:{ cbn [fst snd]. split; [unfold parse_ext; rewrite A; reflexivity | exact F0]. }
  cbn [rstep]. destruct (registry ty) as [f|] eqn:G.
  { cbn [fst snd]. split; [|exact F0]. rewrite (known_ext C h s ty s1 f A G). destruct (f h); reflexivity. }
  rewrite (unknown_ext C h s ty s1 A G).
  destruct (g_get ty (g_made g)) as [[m|]|] eqn:E.
  - cbn [rstep]. rewrite E. cbn [rstep]. rewrite E. cbn [fst snd]. split; [|exact F0]. unfold parse_made. rewrite (R3 ty m E). reflexivity.
  - elim (F ty E).
  - cbn [rstep]. rewrite E. cbn [rstep g_made g_get]. rewrite N.eqb_refl. cbn [fst snd g_made g_next g_set]. rewrite N.eqb_refl. split; [reflexivity|].
    split; [split; [|split]|]; cbn [g_made map fst].
    + constructor; [apply g_get_in; exact E | exact R1].
    + constructor; [apply (int2_lt _ _ _ A) | exact R2].
    + intros t m. cbn [g_get]. destruct (t =? ty) eqn:T; [|apply R3]. intro H. injection H; intros <-. apply N.eqb_eq in T. cbn [m_type]. congruence.
    + intro t. cbn [g_get]. destruct (t =? ty); [discriminate | apply F].
Qed.
Lemma parse_seq_ok C : forall calls g, fullI g ->
  fst (parse_seq C calls g) = map (fun x => parse_ext C (fst x) (snd x)) calls /\ fullI (snd (parse_seq C calls g)).
Proof.
  induction calls as [|[h s] l IH]; intros g F; [split; [reflexivity | exact F]|]. cbn [parse_seq map fst snd].
  pose proof (parse_reg_ok C h s g F) as (A & B). destruct (parse_reg C h s g) as [r g1]. cbn [fst snd] in A, B.
  destruct (IH g1 B) as (D & E). destruct (parse_seq C l g1) as [rs g2]. cbn [fst snd] in *. subst. split; [reflexivity | exact E].
Qed.
Lemma parse_seq_fresh C calls : fst (parse_seq C calls g_empty) = map (fun x => parse_ext C (fst x) (snd x)) calls.
Proof. apply parse_seq_ok. split; [exact regI_empty | discriminate]. Qed.
