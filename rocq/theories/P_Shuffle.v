From Verif Require Import Base P_Base Iana Serial S_Serial P_Serial Crypto Ext Msg S_Codec P_Codec S_Layout P_Layout S_Shuffle.

(* --- one extension, wherever it stands ------------------------------------- *)
Lemma moved C h i s t r r' e s1 : fst i < 65536 -> blen (snd i) < 65536 -> inside s -> inside t -> s_limits s = [] -> s_limits t = [] ->
  rest s = tlv i ++ r -> rest t = tlv i ++ r' -> parse_ext C h s = Ok (e, s1) ->
  parse_ext C h t = Ok (e, adv t (blen (tlv i))) /\ ext_type e = fst i.
Proof.
  destruct i as [ty b]. cbn [fst snd]. intros Hty Hb Is It Ls Lt Rs Rt H.
  unfold tlv, vec in *. cbn [fst snd] in *. rewrite <- !app_assoc in Rs, Rt.
  assert (rm : forall u n, s_limits u = [] -> room u n) by (intros u n E; unfold room; rewrite E; exact I).
  unfold parse_ext in *.
  revert H. rr (reads_int 2 ty ltac:(discriminate) Hty _ _ Rs (rm _ _ Ls)). rr (reads_int 2 ty ltac:(discriminate) Hty _ _ Rt (rm _ _ Lt)). cbn [rbind].
  match goal with |- context [rbind ?m _] => destruct m as [c|] eqn:Hc; cbn [rbind]; [|discriminate] end.
  pose proof (rest_adv_app _ _ _ Rs) as Rs1. pose proof (rest_adv_app _ _ _ Rt) as Rt1.
  rr (reads_int 2 (blen b) ltac:(discriminate) Hb _ _ Rs1 (rm (adv s _) _ Ls)). rr (reads_int 2 (blen b) ltac:(discriminate) Hb _ _ Rt1 (rm (adv t _) _ Lt)). cbn [rbind].
  pose proof (rest_adv_app _ _ _ Rs1) as Rs2. pose proof (rest_adv_app _ _ _ Rt1) as Rt2. rewrite !adv_adv in *. rewrite !blen_be_bytes in *.
  rewrite !blen_app, !blen_be_bytes, N.add_assoc, <- (adv_adv t (N.of_nat 2 + N.of_nat 2) (blen b)).
  set (s2 := adv s (N.of_nat 2 + N.of_nat 2)) in *. set (t2 := adv t (N.of_nat 2 + N.of_nat 2)) in *.
  assert (L2 : s_limits s2 = [] /\ s_limits t2 = []) by (split; assumption). destruct L2 as (Ls2 & Lt2).
  assert (I2 : inside s2 /\ inside t2).
  { pose proof (rest_le _ Is) as Bs. pose proof (rest_le _ It) as Bt. rewrite Rs in Bs. rewrite Rt in Bt. rewrite !blen_app, !blen_be_bytes in *.
    split; (split; [subst s2 t2; cbn [adv with_pos s_pos s_data]; lia | rewrite ?Ls2, ?Lt2; exact I]). }
  destruct I2 as (Is2 & It2). unfold with_limit. cbv zeta. rewrite Ls2, Lt2. intro H.
  apply rbind_ok in H as [[y s4] [B1 B2]].
  set (s' := mkStream (s_data s2) (s_pos s2) [s_pos s2 + blen b]) in *. set (t' := mkStream (s_data t2) (s_pos t2) [s_pos t2 + blen b]) in *.
  assert (Es : blen b <= blen (rest s2)) by (rewrite Rs2, blen_app; lia). assert (Et : blen b <= blen (rest t2)) by (rewrite Rt2, blen_app; lia).
  assert (I's : inside s') by (split; cbn; [apply Is2 | lia]). assert (I't : inside t') by (split; cbn; [apply It2 | lia]).
  assert (Al : alike s' t').
  { exists (s_pos s2 + blen b), (s_pos t2 + blen b), (blen b). split; [reflexivity|]. split; [reflexivity|]. split; [exact I's|]. split; [exact I't|].
    split; [reflexivity|]. split; [reflexivity|]. split; [exact Es|]. split; [exact Et|].
    change (rest s') with (rest s2). change (rest t') with (rest t2). rewrite Rs2, Rt2, !btake_app_exact. reflexivity. }
  destruct (safe_body C ty c _ _ _ I's B1) as (D4 & L4 & P4 & I4).
  destruct (loc_body C ty c _ _ _ _ Al B1) as (t4 & E1 & (l & m & n & A1 & A2 & A3 & A4 & A5 & A6 & A7 & A8 & A9)).
  destruct (safe_body C ty c _ _ _ I't E1) as (D5 & L5 & P5 & I5).
  rewrite L4 in B2, A1. rewrite L5 in A2. cbn [s_limits s' t'] in *. rewrite N.eqb_refl in B2. cbn [negb] in B2.
  assert (l = s_pos s2 + blen b) as El by congruence. assert (m = s_pos t2 + blen b) as Em by congruence. clear A1 A2.
  destruct (s_pos s2 + blen b =? s_pos s4) eqn:E4; [|discriminate]. apply N.eqb_eq in E4.
  injection B2; intros _ <-. rewrite E1. cbn [rbind]. rewrite L5. cbn [s_limits t']. rewrite N.eqb_refl. cbn [negb].
  assert (n = 0) as -> by lia. replace (s_pos t4) with (s_pos t2 + blen b) by lia. rewrite N.eqb_refl. split.
  - rewrite D5. cbn [s_data t']. unfold adv, with_pos. rewrite Lt2. reflexivity.
  - destruct (body_type _ _ _ _ _ _ B1) as [Cc Cu]. destruct (registry ty) as [f|] eqn:Er.
    + destruct (f h) as [c'|] eqn:Ef; [|discriminate Hc]. injection Hc; intros ->.
      assert (c <> CUnknownExt) as Nu. { intros ->. exact (registry_no_unknown _ _ _ Er Ef). }
      destruct (registry_cls ty f h c Er Ef y Cc Nu) as [Ty _]. exact Ty.
    + injection Hc; intros <-. exact (Cu eq_refl).
Qed.

(* --- blocks ------------------------------------------------------------------ *)
Definition alone (C : crypto) (h : hname) (i : N * bytes) (e : ext) : Prop :=
  ext_type e = fst i /\ parse_ext C h (stream_of (tlv i)) = Ok (e, adv (stream_of (tlv i)) (blen (tlv i))).
Lemma tlv_ne i : blen (tlv i) > 0.
Proof. unfold tlv, vec. rewrite !blen_app, !blen_be_bytes. lia. Qed.
Lemma inside_new b : inside (stream_of b).
Proof. split; cbn; [lia | exact I]. Qed.
Lemma rest_new b : rest (stream_of b) = b ++ [].
Proof. rewrite app_nil_r. reflexivity. Qed.
Lemma inside_adv s b r : inside s -> s_limits s = [] -> rest s = b ++ r -> inside (adv s (blen b)).
Proof.
  intros I0 L R. pose proof (rest_le _ I0) as B. rewrite R, blen_app in B. destruct I0 as [J _].
  split; cbn [adv with_pos s_pos s_data s_limits]; [lia | rewrite L; exact I].
Qed.
Lemma eof_rest s : inside s -> is_eof s = match rest s with [] => true | _ => false end.
Proof.
  intros I0. pose proof (rest_le _ I0) as B. destruct I0 as [J _]. unfold is_eof. destruct (rest s) as [|x l] eqn:E.
  - apply N.eqb_eq. change (blen []) with 0 in B. lia.
  - apply N.eqb_neq. rewrite blen_cons in B. lia.
Qed.
Lemma items_read C h : forall items fuel s, Forall (fun i => fst i < 65536 /\ blen (snd i) < 65536) items -> inside s -> s_limits s = [] ->
  rest s = blk items -> (length (blk items) <= fuel)%nat -> forall es, until_eof fuel (parse_ext C h) s = Ok es <-> Forall2 (alone C h) items es.
Proof.
  induction items as [|i items IH]; intros fuel s F I0 L R Fu es.
  - assert (E : is_eof s = true) by (rewrite (eof_rest _ I0), R; reflexivity).
    split; intro H; [destruct fuel; cbn [until_eof] in H; rewrite E in H; injection H; intros <-; constructor|].
    inversion H. destruct fuel; cbn [until_eof]; rewrite E; reflexivity.
  - inversion F as [|? ? [Hi Hb] F']; subst. change (blk (i :: items)) with (tlv i ++ blk items) in *. rewrite app_length in Fu.
    pose proof (tlv_ne i) as Ne. assert (E : is_eof s = false).
    { rewrite (eof_rest _ I0), R. destruct (tlv i); [cbn in Ne; lia | reflexivity]. }
    destruct fuel as [|fuel]; [unfold blen in Ne; lia|]. cbn [until_eof]. rewrite E.
    assert (IH' := IH fuel (adv s (blen (tlv i))) F' (inside_adv _ _ _ I0 L R) L (rest_adv_app _ _ _ R) ltac:(unfold blen in Ne; lia)).
    split; intro H.
    + apply rbind_ok in H as [[e s1] [H1 H]]. apply rbind_ok in H as [l [H2 H]]. injection H; intros <-.
      destruct (moved C h i s s _ _ e s1 Hi Hb I0 I0 L L R R H1) as (M1 & _). assert (s1 = adv s (blen (tlv i))) as -> by congruence.
      destruct (moved C h i s (stream_of (tlv i)) _ _ e _ Hi Hb I0 (inside_new _) L eq_refl R (rest_new _) H1) as (M2 & Ty).
      constructor; [split; assumption | apply IH'; exact H2].
    + inversion H as [|? e ? l [Ty A] F2]; subst.
      destruct (moved C h i (stream_of (tlv i)) s _ _ e _ Hi Hb (inside_new _) I0 eq_refl L (rest_new _) R A) as (M1 & _). rewrite M1. cbn [rbind].
      apply IH' in F2. rewrite F2. reflexivity.
Qed.
Lemma list_read C h items es : Forall (fun i => fst i < 65536 /\ blen (snd i) < 65536) items ->
  parse_list (parse_ext C h) (blk items) = Ok es <-> Forall2 (alone C h) items es.
Proof. intro F. unfold parse_list. apply items_read; [exact F | apply inside_new | reflexivity | reflexivity | apply le_n]. Qed.
Lemma alone_types C h items es : Forall2 (alone C h) items es -> map ext_type es = map fst items.
Proof. induction 1 as [|i e items es [T _] F IH]; cbn [map]; congruence. Qed.
Lemma small_perm a b : small a -> Permutation a b -> small b /\ blen (blk a) = blen (blk b).
Proof.
  intros [F B] P. assert (E : blen (blk a) = blen (blk b)).
  { clear F B. induction P; try reflexivity; unfold blk in *; cbn [map concat] in *; rewrite ?blen_app in *; lia. }
  split; [split; [rewrite <- P; exact F | rewrite <- E; exact B] | exact E].
Qed.
Lemma block_shuffled C h items items' es : small items -> Permutation items items' -> parse_list (parse_ext C h) (blk items) = Ok es ->
  map ext_type es = map fst items /\ exists es', parse_list (parse_ext C h) (blk items') = Ok es' /\ Permutation es es'.
Proof.
  intros S P H. destruct (small_perm _ _ S P) as ((F' & _) & _). destruct S as (F & _).
  apply list_read in H; [|exact F]. split; [exact (alone_types _ _ _ _ H)|]. destruct (Permutation_Forall2 P H) as (es' & P' & H'). exists es'.
  split; [apply list_read; assumption | exact P'].
Qed.
