(* What a parsed message looked like on the wire. *)
From Verif Require Import Base P_Base Iana Serial S_Serial P_Serial Crypto Ext Msg S_Codec P_Codec S_Layout.

Definition took (s s1 : stream) (b : bytes) : Prop :=
  s_data s1 = s_data s /\ s_limits s1 = s_limits s /\ inside s1 /\
  s_pos s1 = s_pos s + blen b /\ rest s = b ++ rest s1.
Lemma took_nil s : inside s -> took s s [].
Proof. intro I. split; [reflexivity|]. split; [reflexivity|]. split; [exact I|]. split; [symmetry; apply N.add_0_r | reflexivity]. Qed.
Lemma took_app s s1 s2 a b : took s s1 a -> took s1 s2 b -> took s s2 (a ++ b).
Proof.
  intros (A1 & A2 & A3 & A4 & A5) (B1 & B2 & B3 & B4 & B5).
  split; [congruence|]. split; [congruence|]. split; [exact B3|]. split; [rewrite blen_app; lia|].
  rewrite A5, B5, app_assoc. reflexivity.
Qed.
Lemma took_inside s s1 b : took s s1 b -> inside s1.
Proof. intro T. apply T. Qed.

Lemma tk_exact n s x s1 : inside s -> read_exactly n s = Ok (x, s1) -> took s s1 x /\ blen x = n.
Proof.
  intros I H. destruct (read_exactly_spec _ _ _ _ I H) as (D & L & I1 & B & Ln & P).
  split; [|exact Ln]. split; [exact D|]. split; [exact L|]. split; [exact I1|]. split; [lia|].
  unfold rest. rewrite D, P. rewrite <- bdrop_bdrop.
  assert (E : x = btake n (bdrop (s_pos s) (s_data s))).
  { rewrite B. unfold slice. f_equal. lia. }
  rewrite E. symmetry. apply btake_bdrop.
Qed.
Lemma tk_int n s x s1 : inside s -> read_int (N.of_nat n) s = Ok (x, s1) -> took s s1 (be_bytes n x) /\ x < 256 ^ N.of_nat n.
Proof.
  intros I H. unfold read_int in H. destruct (N.of_nat n =? 0); [discriminate|]. apply rbind_ok in H as [[b s2] [H1 H2]]. injection H2; intros <- <-.
  destruct (tk_exact _ _ _ _ I H1) as [T L].
  assert (length b = n) as Ln by (unfold blen in L; lia).
  split; [rewrite <- Ln, be_of_bytes; exact T|]. rewrite <- L. apply of_bytes_lt.
Qed.
Lemma tk_var n s x s1 : inside s -> read_var (N.of_nat n) s = Ok (x, s1) -> took s s1 (vec n x) /\ blen x < 256 ^ N.of_nat n.
Proof.
  intros I H. unfold read_var in H. apply rbind_ok in H as [[len s2] [H1 H2]].
  destruct (tk_int _ _ _ _ I H1) as [T1 L1]. destruct (tk_exact _ _ _ _ (took_inside _ _ _ T1) H2) as [T2 L2].
  subst len. split; [eapply took_app; eassumption | exact L1].
Qed.
Lemma groups_concat n : forall k b, length b = (k * S n)%nat -> concat (map (be_bytes (S n)) (groups k (N.of_nat (S n)) b)) = b.
Proof.
  induction k as [|k IH]; intros b L; cbn [groups map concat].
  - destruct b; [reflexivity | discriminate].
  - assert (length (btake (N.of_nat (S n)) b) = S n) as E.
    { unfold btake. rewrite firstn_length, Nnat.Nat2N.id. cbn [Nat.mul] in L. lia. }
    rewrite IH.
    + rewrite <- E at 1. rewrite be_of_bytes. apply btake_bdrop.
    + unfold bdrop. rewrite skipn_length, Nnat.Nat2N.id. cbn [Nat.mul] in L. lia.
Qed.
Lemma tk_listint n m s x s1 : inside s -> read_listint (N.of_nat n) (N.of_nat (S m)) s = Ok (x, s1) ->
  took s s1 (vec n (concat (map (be_bytes (S m)) x))).
Proof.
  intros I H. unfold read_listint in H. apply rbind_ok in H as [[len s2] [H1 H]].
  destruct (negb (len mod N.of_nat (S m) =? 0)) eqn:E; [discriminate|]. apply negb_false_iff, N.eqb_eq in E.
  apply rbind_ok in H as [[b s3] [H2 H3]]. injection H3; intros <- <-.
  destruct (tk_int _ _ _ _ I H1) as [T1 L1]. destruct (tk_exact _ _ _ _ (took_inside _ _ _ T1) H2) as [T2 L2].
  rewrite groups_concat.
  - unfold vec. rewrite L2. eapply took_app; eassumption.
  - apply N.div_exact in E; [|lia]. unfold blen in L2. lia.
Qed.
Lemma tk_limit {A} len (body : N -> stream -> res (A * stream)) s x s1 (P : bytes -> Prop) :
  inside s ->
  (forall s', inside s' -> s_limits s' <> [] -> s_data s' = s_data s -> forall x' s2, body (s_pos s + len) s' = Ok (x', s2) -> x' = x -> exists b, took s' s2 b /\ P b) ->
  with_limit len body s = Ok (x, s1) -> exists b, took s s1 b /\ blen b = len /\ P b.
Proof.
  intros [I1 I2] Hb H. unfold with_limit in H. cbv zeta in H.
  destruct (match s_limits s with [] => false | lim :: _ => lim <? s_pos s + len end) eqn:E; [discriminate|].
  apply rbind_ok in H as [[y s2] [H1 H]].
  set (s' := mkStream (s_data s) (s_pos s) (s_pos s + len :: s_limits s)) in *.
  assert (inside s') as I'. { split; cbn; [exact I1 | lia]. }
  assert (y = x) as ->.
  { destruct (s_limits s2); [discriminate|]. destruct (negb _); [discriminate|]. destruct (_ =? _); [|discriminate]. congruence. }
  destruct (Hb s' I' ltac:(discriminate) eq_refl x s2 H1 eq_refl) as (b & (D & L & I3 & P3 & R3) & Pb).
  rewrite L in H. cbn [s_limits s'] in H. rewrite N.eqb_refl in H. cbn [negb] in H.
  destruct (s_pos s + len =? s_pos s2) eqn:E2; [|discriminate]. apply N.eqb_eq in E2. injection H; intros <-.
  cbn [s_pos s'] in P3. exists b. split; [|split; [lia | exact Pb]].
  split; [exact D|]. split; [reflexivity|]. split.
  { split; cbn; [apply I3|]. destruct (s_limits s); [trivial|]. apply N.ltb_ge in E. lia. }
  split; [cbn; exact P3|]. exact R3.
Qed.
Lemma tk_all s x s1 : inside s -> read_all s = (x, s1) -> took s s1 x.
Proof.
  intros I H. destruct (read_all_spec _ _ _ I H) as (D & L & P & I1 & B).
  assert (blen x = s_pos s1 - s_pos s) as Ln.
  { rewrite B. unfold slice. rewrite blen_btake, blen_bdrop. destruct I1 as [J _]. rewrite D in J. lia. }
  split; [exact D|]. split; [exact L|]. split; [exact I1|]. split; [lia|].
  unfold rest. rewrite D. rewrite B. unfold slice. replace (s_pos s1) with (s_pos s + (s_pos s1 - s_pos s)) at 2 by lia.
  rewrite <- bdrop_bdrop. symmetry. apply btake_bdrop.
Qed.

(* an extension body is read the same in every stream that has it under a limit *)
Definition alike (s t : stream) : Prop :=
  exists l m n, s_limits s = [l] /\ s_limits t = [m] /\ inside s /\ inside t /\
    l = s_pos s + n /\ m = s_pos t + n /\ n <= blen (rest s) /\ n <= blen (rest t) /\ btake n (rest s) = btake n (rest t).
Definition loc {A} (p : stream -> res (A * stream)) : Prop :=
  forall s t x s1, alike s t -> p s = Ok (x, s1) -> exists t1, p t = Ok (x, t1) /\ alike s1 t1.
Lemma loc_ret {A} (x : A) : loc (fun s => Ok (x, s)).
Proof. intros s t y s1 Al H. injection H; intros <- <-. exists t. split; [reflexivity | exact Al]. Qed.
Lemma loc_err {A} e : loc (fun _ => @Err (A * stream) e).
Proof. intros s t y s1 Al H. discriminate. Qed.
Lemma loc_bind {A B} (p : stream -> res (A * stream)) (q : A -> stream -> res (B * stream)) :
  loc p -> (forall x, loc (q x)) -> loc (fun s => let* (x, s1) := p s in q x s1).
Proof.
  intros Hp Hq s t y s2 Al H. apply rbind_ok in H as [[x s1] [H1 H2]].
  destruct (Hp _ _ _ _ Al H1) as (t1 & E1 & Al1). destruct (Hq _ _ _ _ _ Al1 H2) as (t2 & E2 & Al2).
  exists t2. rewrite E1. split; [exact E2 | exact Al2].
Qed.
Lemma loc_pure {A B} (r : res A) (q : A -> stream -> res (B * stream)) :
  (forall x, loc (q x)) -> loc (fun s => let* x := r in q x s).
Proof. intros Hq. destruct r as [x|e]; [exact (Hq x) | apply loc_err]. Qed.
Lemma loc_if {A} (c : bool) (p q : stream -> res (A * stream)) : loc p -> loc q -> loc (fun s => if c then p s else q s).
Proof. intros. destruct c; assumption. Qed.
Lemma alike_in s t : alike s t -> inside s.
Proof. intros (l & m & n & Ls & Lt & Is & _). exact Is. Qed.
Lemma rest_le s : inside s -> blen (rest s) = blen (s_data s) - s_pos s.
Proof. intro. unfold rest. apply blen_bdrop. Qed.
Lemma alike_step s t s1 x : alike s t -> took s s1 x -> 
  exists r, rest t = x ++ r /\ P_Serial.room t (blen x) /\ alike s1 (adv t (blen x)).
Proof.
  intros (l & m & n & Ls & Lt & Is & It & El & Em & Ns & Nt & R) (D & L & I1 & P & Re).
  assert (Hn : blen x <= n). { destruct I1 as [_ J]. rewrite L, Ls in J. lia. }
  assert (Hx : x = btake (blen x) (rest t)).
  { assert (btake (blen x) (btake n (rest s)) = btake (blen x) (btake n (rest t))) as X by (f_equal; exact R).
    assert (Q : forall b, btake (blen x) (btake n b) = btake (blen x) b).
    { intro b. unfold btake. rewrite firstn_firstn. f_equal. lia. }
    rewrite !Q in X. rewrite <- X, Re. symmetry. apply btake_app_exact. }
  assert (Rt : rest t = x ++ bdrop (blen x) (rest t)). { rewrite Hx at 1. symmetry. apply btake_bdrop. }
  exists (bdrop (blen x) (rest t)). split; [exact Rt|]. split.
  { unfold P_Serial.room. rewrite Lt. lia. }
  pose proof (rest_adv_app t x _ Rt) as Ra.
  exists l, m, (n - blen x). rewrite L. split; [exact Ls|]. split; [exact Lt|]. split; [exact I1|].
  pose proof (rest_le t It) as Bt. destruct It as [It1 It2].
  split. { split; cbn; [|rewrite Lt; lia]. rewrite Rt, blen_app in Bt. lia. }
  split; [lia|]. split; [cbn; lia|].
  rewrite Ra. rewrite Re, blen_app in Ns. split; [lia|]. split. { rewrite blen_bdrop. lia. }
  rewrite Re in R. rewrite Rt in R. rewrite !btake_app_ge in R by exact Hn. apply app_inv_head in R. exact R.
Qed.
Lemma loc_exactly n : loc (read_exactly n).
Proof.
  intros s t x s1 Al H. destruct (tk_exact _ _ _ _ (alike_in _ _ Al) H) as [T Ln].
  destruct (alike_step _ _ _ _ Al T) as (r & Rt & Rm & Al1). exists (adv t (blen x)). split; [|exact Al1].
  rewrite <- Ln. exact (reads_exactly' (blen x) x eq_refl t _ Rt Rm).
Qed.
Lemma loc_all : loc (fun s => Ok (read_all s)).
Proof.
  intros s t x s1 Al H. destruct (read_all s) as [y s2] eqn:E. injection H; intros <- <-.
  pose proof (tk_all _ _ _ (alike_in _ _ Al) E) as T.
  destruct (alike_step _ _ _ _ Al T) as (r & Rt & Rm & Al1). exists (adv t (blen y)). split; [|exact Al1].
  apply (reads_end_all y t r Rt).
  destruct Al as (l & m & n & Ls & Lt & Is & It & El & Em & Ns & Nt & R). unfold bounded. rewrite Lt.
  unfold read_all in E. rewrite Ls in E. unfold raw_read in E. injection E; intros _ E2.
  apply (f_equal blen) in E2. rewrite blen_btake in E2. change (bdrop (s_pos s) (s_data s)) with (rest s) in E2. lia.
Qed.
Lemma loc_int n : loc (read_int n).
Proof.
  unfold read_int. apply loc_if; [apply loc_err|]. apply (loc_bind (read_exactly n) (fun b s => Ok (of_bytes b, s))); [apply loc_exactly|].
  intro. apply loc_ret.
Qed.
Lemma loc_var n : loc (read_var n).
Proof. apply loc_bind; [apply loc_int | intro; apply loc_exactly]. Qed.
Lemma loc_listint a b : loc (read_listint a b).
Proof.
  apply loc_bind; [apply loc_int|]. intro len. apply loc_if; [apply loc_err|].
  apply (loc_bind (read_exactly len) (fun x s => Ok (groups (N.to_nat (len / b)) b x, s))); [apply loc_exactly | intro; apply loc_ret].
Qed.
Lemma loc_listvar a b : loc (read_listvar a b).
Proof.
  apply loc_bind; [apply loc_var|]. intro x. apply (loc_pure (parse_list (read_var b) x) (fun l s => Ok (l, s))). intro. apply loc_ret.
Qed.
Lemma loc_enum n l bad : loc (read_enum n l bad).
Proof. apply loc_bind; [apply loc_int|]. intro. apply loc_if; [apply loc_ret | apply loc_err]. Qed.
Ltac locs :=
  repeat match goal with
  | |- loc (fun s => Ok (_, s)) => apply loc_ret
  | |- loc (fun s => Err _) => apply loc_err
  | |- loc (fun s => if _ then _ else _) => apply loc_if
  | |- loc (fun s => rbind (read_int ?n s) (fun '(x, s1) => _)) => apply (loc_bind (read_int n)); [apply loc_int | intro]
  | |- loc (fun s => rbind (read_var ?n s) (fun '(x, s1) => _)) => apply (loc_bind (read_var n)); [apply loc_var | intro]
  | |- loc (fun s => rbind (read_listint ?n ?m s) (fun '(x, s1) => _)) => apply (loc_bind (read_listint n m)); [apply loc_listint | intro]
  | |- loc (fun s => rbind (read_listvar ?n ?m s) (fun '(x, s1) => _)) => apply (loc_bind (read_listvar n m)); [apply loc_listvar | intro]
  | |- loc (fun s => rbind (read_enum ?n ?l ?b s) (fun '(x, s1) => _)) => apply (loc_bind (read_enum n l b)); [apply loc_enum | intro]
  | |- loc (fun s => rbind ?r (fun x => _)) => apply (loc_pure r); intro
  end.
Lemma loc_all_map {A} (k : bytes -> A) : loc (fun s => let (b, s1) := read_all s in Ok (k b, s1)).
Proof.
  intros s t x s1 Al H. destruct (read_all s) as [b s2] eqn:E. injection H; intros <- <-.
  destruct (loc_all s t b s2 Al (f_equal _ E)) as (t1 & E1 & Al1). exists t1. split; [|exact Al1].
  assert (read_all t = (b, t1)) as -> by congruence. reflexivity.
Qed.
Lemma loc_body C ty c : loc (parse_ext_body C ty c).
Proof.
  destruct c; cbv beta iota delta [parse_ext_body]; locs.
  - apply (loc_all_map (fun b => EPadding (blen b))).
  - apply (loc_all_map (fun b => EUnknown ty b)).
Qed.

(* types and places *)
Lemma body_type C ty c s e s1 : parse_ext_body C ty c s = Ok (e, s1) ->
  cls_of e = c /\ (c = CUnknownExt -> ext_type e = ty).
Proof.
  intro H. destruct c; cbv beta iota delta [parse_ext_body] in H;
  repeat first
  [ discriminate H
  | match type of H with
    | rbind _ (fun '(_, _) => _) = Ok _ => let E := fresh in apply rbind_ok in H as [[? ?] [E H]]
    | rbind _ _ = Ok _ => let E := fresh in apply rbind_ok in H as [? [E H]]
    | (if ?b then _ else _) = Ok _ => destruct b
    | (let (_, _) := ?r in _) = Ok _ => destruct r
    end];
  injection H; intros <- <-; (split; [reflexivity | intro X; try discriminate X; reflexivity]).
Qed.
Lemma registry_cls ty f h c : registry ty = Some f -> f h = Some c -> forall e, cls_of e = c -> c <> CUnknownExt ->
  ext_type e = ty /\ match home e with Some l => In h l \/ (h = NServerHello /\ ext_type e = COOKIE) | None => False end.
Proof.
  intros R Hc e <- Nu. revert R. unfold registry.
  repeat (match goal with |- (if ?a =? ?b then _ else _) = _ -> _ => destruct (N.eqb_spec a b) as [->|_]; [
     intro R; injection R; intros <-; destruct h; try discriminate Hc; destruct e; try discriminate Hc;
     (split; [reflexivity | cbn [home In]; tauto]) |] end).
  discriminate.
Qed.
Lemma registry_known ty f : registry ty = Some f -> In ty (map fst rfc_places).
Proof.
  intro H. destruct (in_dec N.eq_dec ty (map fst rfc_places)) as [I|I]; [exact I|]. rewrite (registry_none ty I) in H. discriminate.
Qed.
Lemma registry_no_unknown ty f h : registry ty = Some f -> f h <> Some CUnknownExt.
Proof.
  unfold registry.
  repeat (match goal with |- (if ?a =? ?b then _ else _) = _ -> _ => destruct (a =? b); [intro R; injection R; intros <-; destruct h; discriminate|] end).
  discriminate.
Qed.
Lemma not_known ty : registry ty = None -> ~ In ty (map fst rfc_places).
Proof.
  intros R I. cbn [map fst rfc_places In] in I.
  repeat (destruct I as [<-|I]; [vm_compute in R; discriminate R|]). exact I.
Qed.

Lemma be2_ne v : be_bytes 2 v <> [].
Proof. discriminate. Qed.
Lemma safe_enum n l bad : safe (read_enum n l bad).
Proof. apply safe_bind; [apply safe_int|]. intro. apply safe_if; [apply safe_ret | apply safe_err]. Qed.
Lemma safe_all_map {A} (k : bytes -> A) : safe (fun s => let (b, s1) := read_all s in Ok (k b, s1)).
Proof.
  intros s x s1 I H. destruct (read_all s) as [b s2] eqn:E. injection H; intros <- <-. apply (safe_all s b s2 I (f_equal _ E)).
Qed.
Ltac safes :=
  repeat match goal with
  | |- safe (fun s => Ok (_, s)) => apply safe_ret
  | |- safe (fun s => Err _) => apply safe_err
  | |- safe (fun s => if _ then _ else _) => apply safe_if
  | |- safe (fun s => rbind (read_int ?n s) (fun '(x, s1) => _)) => apply (safe_bind (read_int n)); [apply safe_int | intro]
  | |- safe (fun s => rbind (read_var ?n s) (fun '(x, s1) => _)) => apply (safe_bind (read_var n)); [apply safe_var | intro]
  | |- safe (fun s => rbind (read_listint ?n ?m s) (fun '(x, s1) => _)) => apply (safe_bind (read_listint n m)); [apply safe_listint | intro]
  | |- safe (fun s => rbind (read_listvar ?n ?m s) (fun '(x, s1) => _)) => apply (safe_bind (read_listvar n m)); [apply safe_listvar | intro]
  | |- safe (fun s => rbind (read_enum ?n ?l ?b s) (fun '(x, s1) => _)) => apply (safe_bind (read_enum n l b)); [apply safe_enum | intro]
  | |- safe (fun s => rbind ?r (fun x => _)) => apply (safe_pure r); intros ? _
  end.
Lemma safe_body C ty c : safe (parse_ext_body C ty c).
Proof.
  destruct c; cbv beta iota delta [parse_ext_body]; safes.
  - apply (safe_all_map (fun b => EPadding (blen b))).
  - apply (safe_all_map (fun b => EUnknown ty b)).
Qed.

(* one extension of a block *)
Lemma ext_item C h s e s1 : inside s -> s_limits s = [] -> parse_ext C h s = Ok (e, s1) ->
  exists i, took s s1 (tlv i) /\ item C h i e.
Proof.
  intros Ins L H. unfold parse_ext in H. apply rbind_ok in H as [[ty s2] [H1 H]]. apply rbind_ok in H as [c [Hc H]].
  apply rbind_ok in H as [[len s3] [H2 H]].
  destruct (tk_int 2 _ _ _ Ins H1) as [T1 L1]. destruct (tk_int 2 _ _ _ (took_inside _ _ _ T1) H2) as [T2 L2].
  pose proof (took_inside _ _ _ T2) as I3.
  assert (L3 : s_limits s3 = []). { destruct T1 as (_ & E1 & _), T2 as (_ & E2 & _). congruence. }
  unfold with_limit in H. cbv zeta in H. rewrite L3 in H. apply rbind_ok in H as [[y s4] [B1 B2]].
  set (s' := mkStream (s_data s3) (s_pos s3) [s_pos s3 + len]) in *.
  assert (I' : inside s'). { split; cbn; [apply I3 | lia]. }
  destruct (safe_body C ty c _ _ _ I' B1) as (D4 & L4 & P4 & I4).
  rewrite L4 in B2. cbn [s_limits s'] in B2. rewrite N.eqb_refl in B2. cbn [negb] in B2.
  destruct (s_pos s3 + len =? s_pos s4) eqn:E4; [|discriminate]. apply N.eqb_eq in E4. injection B2; intros <- <-. clear B2.
  assert (Len : len <= blen (rest s3)).
  { rewrite (rest_le _ I3). destruct I4 as [J _]. rewrite D4 in J. cbn in J. lia. }
  set (b := btake len (rest s3)).
  assert (Lb : blen b = len) by (unfold b; rewrite blen_btake; lia).
  exists (ty, b). split.
  - unfold tlv, vec. cbn [fst snd]. rewrite Lb. eapply took_app; [exact T1|]. eapply took_app; [exact T2|].
    split; [exact D4|]. split; [cbn; congruence|]. split; [split; cbn; [apply I4 | exact I]|]. rewrite Lb. split; [cbn; lia|].
    unfold rest at 2. cbn [s_data s_pos]. rewrite D4. cbn [s_data s']. rewrite <- E4, <- bdrop_bdrop. symmetry. apply btake_bdrop.
  - destruct (body_type _ _ _ _ _ _ B1) as [Cc Cu].
    assert (Rd : parse_ext C h (stream_of (tlv (ty, b))) = Ok (y, mkStream (tlv (ty, b)) (blen (tlv (ty, b))) [])).
    { unfold parse_ext.
      assert (B0 : blen (tlv (ty, b)) = 4 + len). { unfold tlv, vec. cbn [fst snd]. rewrite !blen_app, !blen_be_bytes, Lb. lia. }
      assert (R1 : rest (stream_of (tlv (ty, b))) = be_bytes 2 ty ++ be_bytes 2 len ++ b).
      { unfold tlv, vec. cbn [fst snd]. rewrite Lb. reflexivity. }
      rr (reads_int 2 ty ltac:(discriminate) L1 _ _ R1 I). cbn [rbind]. rewrite Hc. cbn [rbind].
      pose proof (rest_adv_app _ _ _ R1) as R2.
      rr (reads_int 2 len ltac:(discriminate) L2 _ _ R2 I). cbn [rbind].
      pose proof (rest_adv_app _ _ _ R2) as R3. rewrite adv_adv in *. rewrite !blen_be_bytes in *.
      unfold with_limit. cbn [adv with_pos s_limits stream_of s_data s_pos].
      set (t := mkStream (tlv (ty, b)) (0 + (N.of_nat 2 + N.of_nat 2)) [0 + (N.of_nat 2 + N.of_nat 2) + len]).
      assert (Al : alike s' t).
      { exists (s_pos s3 + len), (0 + (N.of_nat 2 + N.of_nat 2) + len), len.
        split; [reflexivity|]. split; [reflexivity|]. split; [exact I'|]. split; [split; cbn [s_pos s_data s_limits t]; lia|].
        split; [reflexivity|]. split; [reflexivity|]. split; [exact Len|].
        change (rest t) with (rest (adv (stream_of (tlv (ty, b))) (N.of_nat 2 + N.of_nat 2))). rewrite R3.
        split; [lia|]. change (rest s') with (rest s3). fold b. symmetry. apply btake_all. lia. }
      destruct (loc_body C ty c _ _ _ _ Al B1) as (t1 & E1 & (l & m & n & A1 & A2 & A3 & A4 & A5 & A6 & A7 & A8 & A9)).
      rewrite E1. cbn [rbind].
      assert (It : inside t) by (split; cbn [s_pos s_data s_limits t]; lia).
      destruct (safe_body C ty c _ _ _ It E1) as (D5 & L5 & P5 & I5).
      rewrite L5 in *. rewrite L4 in A1. cbn [s_limits t s'] in *. assert (l = s_pos s3 + len) as El by congruence. assert (m = 0 + (N.of_nat 2 + N.of_nat 2) + len) as Em by congruence.
      clear A1 A2. rewrite N.eqb_refl. cbn [negb].
      assert (n = 0) as -> by lia. replace (s_pos t1) with (0 + (N.of_nat 2 + N.of_nat 2) + len) by lia. rewrite N.eqb_refl.
      rewrite D5. cbn [s_data t]. rewrite B0. reflexivity. }
    destruct (registry ty) as [f|] eqn:Er.
    + destruct (f h) as [c'|] eqn:Ef; [|discriminate Hc]. injection Hc; intros ->.
      assert (c <> CUnknownExt). { intros ->. exact (registry_no_unknown _ _ _ Er Ef). }
      destruct (registry_cls ty f h c Er Ef y Cc H) as [Ty Hm]. split; [exact Ty|]. split; [exact Rd|].
      destruct (home y); [exact Hm | destruct Hm].
    + injection Hc; intros <-. split; [exact (Cu eq_refl)|]. split; [exact Rd|].
      assert (home y = None) as -> by (destruct y; try discriminate Cc; reflexivity).
      rewrite (Cu eq_refl). apply not_known. exact Er.
Qed.

(* a block of extensions *)
Lemma until_items C h : forall fuel s l, inside s -> s_limits s = [] -> until_eof fuel (parse_ext C h) s = Ok l ->
  exists items, rest s = concat (map tlv items) /\ Forall2 (item C h) items l.
Proof.
  assert (E0 : forall s, inside s -> is_eof s = true -> rest s = []).
  { intros s I E. apply N.eqb_eq in E. apply blen_zero. rewrite (rest_le s I). lia. }
  induction fuel as [|fuel IH]; intros s l I L H; cbn [until_eof] in H; destruct (is_eof s) eqn:E;
  try (injection H; intros <-; exists []; split; [apply E0; assumption | constructor]); try discriminate.
  apply rbind_ok in H as [[e s1] [H1 H]]. apply rbind_ok in H as [l' [H2 H]]. injection H; intros <-.
  destruct (ext_item _ _ _ _ _ I L H1) as (i & T & It).
  destruct (IH s1 l' (took_inside _ _ _ T)) as (items & R & F).
  - destruct T as (_ & E1 & _). congruence.
  - exact H2.
  - exists (i :: items). split; [|constructor; assumption]. cbn [map concat]. rewrite <- R. apply T.
Qed.
Lemma dict_add_in x e d : NoDup (map ext_type d) -> (In x (dict_add e d) <-> x = e \/ (In x d /\ ext_type x <> ext_type e)).
Proof.
  induction d as [|y d IH]; intro Nd; cbn [dict_add In]; [intuition congruence|].
  cbn [map] in Nd. inversion Nd as [|? ? Ni Nd']; subst.
  destruct (N.eqb_spec (ext_type y) (ext_type e)) as [E|E]; cbn [In].
  - split.
    + intros [<-|X]; [left; reflexivity|]. right. split; [right; exact X|]. intro Y. apply Ni. rewrite E, <- Y. apply in_map. exact X.
    + intros [->|[[<-|X] Y]]; [left; reflexivity | contradiction | right; exact X].
  - rewrite (IH Nd'). split.
    + intros [<-|[->|[X Y]]]; [right; split; [left; reflexivity | exact E] | left; reflexivity | right; split; [right; exact X | exact Y]].
    + intros [->|[[<-|X] Y]]; [right; left; reflexivity | left; reflexivity | right; right; split; assumption].
Qed.
Lemma dict_add_types e d : map ext_type (dict_add e d) = map ext_type d \/
  (~ In (ext_type e) (map ext_type d) /\ map ext_type (dict_add e d) = map ext_type d ++ [ext_type e]).
Proof.
  destruct (in_dec N.eq_dec (ext_type e) (map ext_type d)) as [I|I].
  - left. revert I. induction d as [|y d IH]; intro I; [destruct I|]. cbn [dict_add map In] in *.
    destruct (N.eqb_spec (ext_type y) (ext_type e)) as [E|E]; cbn [map]; [rewrite <- E; reflexivity|].
    rewrite IH; [reflexivity|]. destruct I as [I|I]; [contradiction | exact I].
  - right. split; [exact I|]. rewrite dict_add_new by exact I. rewrite map_app. reflexivity.
Qed.
Lemma ext_dict_snoc l e : ext_dict (l ++ [e]) = dict_add e (ext_dict l).
Proof. unfold ext_dict. rewrite fold_left_app. reflexivity. Qed.
Lemma ext_dict_types l : NoDup (map ext_type (ext_dict l)).
Proof.
  induction l as [|e l IH] using rev_ind; [constructor|]. rewrite ext_dict_snoc.
  destruct (dict_add_types e (ext_dict l)) as [-> | [Ni ->]]; [exact IH|].
  rewrite <- (app_nil_r (map ext_type (ext_dict l) ++ [ext_type e])), <- app_assoc. apply NoDup_Add with (a := ext_type e) (l := map ext_type (ext_dict l)).
  - rewrite <- (app_nil_r (map ext_type (ext_dict l))) at 1. apply Add_app.
  - split; assumption.
Qed.
Lemma rev_cases {A} (l : list A) : l = [] \/ exists l' x, l = l' ++ [x].
Proof. induction l as [|x l _] using rev_ind; [left; reflexivity | right; exists l, x; reflexivity]. Qed.
Lemma ext_dict_last l e : In e (ext_dict l) <-> exists l1 l2, l = l1 ++ e :: l2 /\ ~ In (ext_type e) (map ext_type l2).
Proof.
  revert e. induction l as [|x l IH] using rev_ind; intro e.
  - split; [intros [] | intros (l1 & l2 & E & _)]. destruct l1; discriminate.
  - rewrite ext_dict_snoc, (dict_add_in _ _ _ (ext_dict_types l)), IH. split.
    + intros [->|[(l1 & l2 & -> & Ni) Nt]].
      * exists l, []. split; [reflexivity | intros []].
      * exists l1, (l2 ++ [x]). split; [rewrite <- app_assoc; reflexivity|]. rewrite map_app, in_app_iff. cbn. intuition.
    + intros (l1 & l2 & E & Ni). destruct (rev_cases l2) as [-> | (l2' & y & ->)].
      * apply app_inj_tail in E as [_ ->]. left. reflexivity.
      * change (l1 ++ e :: l2' ++ [y]) with (l1 ++ (e :: l2') ++ [y]) in E. rewrite app_assoc in E. apply app_inj_tail in E as [-> ->].
        right. rewrite map_app, in_app_iff in Ni. cbn in Ni. split; [|intuition]. exists l1, l2'. split; [reflexivity | intuition].
Qed.
Lemma exts_block C h s l s1 : inside s -> parse_exts C h s = Ok (l, s1) ->
  exists blk, took s s1 (vec 2 blk) /\ block C h blk (ext_dict l).
Proof.
  intros I H. unfold parse_exts in H. apply rbind_ok in H as [[blk s2] [H1 H]]. apply rbind_ok in H as [l' [H2 H]]. injection H; intros -> ->.
  destruct (tk_var 2 _ _ _ I H1) as [T _]. exists blk. split; [exact T|].
  destruct (until_items C h (length blk) (stream_of blk) l) with (3 := H2) as (items & R & F); [split; cbn; [lia | exact Logic.I] | reflexivity|].
  exists items, l. split; [exact R|]. split; [exact F|]. split; [apply ext_dict_types|]. intro e. apply ext_dict_last.
Qed.

(* messages *)
Lemma layout_ch C s h s1 : inside s -> parse_client_hello C s = Ok (h, s1) -> forall pct, exists b, took s s1 b /\ layout C pct h b /\ msg_type h = Some CLIENT_HELLO.
Proof.
  intros I H pct. unfold parse_client_hello in H. apply rbind_ok in H as [[v s2] [H1 H]].
  destruct (N.eqb_spec v TLS_1_2) as [->|]; [|discriminate]. cbn [negb] in H.
  apply rbind_ok in H as [[random s3] [H2 H]]. apply rbind_ok in H as [[sid s4] [H3 H]]. apply rbind_ok in H as [[suites s5] [H4 H]].
  apply rbind_ok in H as [[comp s6] [H5 H]]. destruct (beqb comp [x00]) eqn:Ec; [|discriminate]. cbn [negb] in H. apply beqb_eq in Ec. subst comp.
  apply rbind_ok in H as [[exts s7] [H6 H]]. apply rbind_ok in H as [h' [H7 H]].
  destruct (tk_int 2 _ _ _ I H1) as [T1 _]. destruct (tk_exact _ _ _ _ (took_inside _ _ _ T1) H2) as [T2 L2].
  destruct (tk_var 1 _ _ _ (took_inside _ _ _ T2) H3) as [T3 _]. pose proof (tk_listint 2 1 _ _ _ (took_inside _ _ _ T3) H4) as T4.
  destruct (tk_var 1 _ _ _ (took_inside _ _ _ T4) H5) as [T5 _]. destruct (exts_block _ _ _ _ _ (took_inside _ _ _ T5) H6) as (blk & T6 & B).
  assert (h' = HClientHello random [] suites (ext_dict exts)) as ->.
  { unfold on_value_error in H7. destruct (mk_client_hello random suites exts) eqn:E; [|destruct (is_value_error e); discriminate].
    injection H7; intros <-. unfold mk_client_hello in E.
    repeat match type of E with (if ?c then _ else _) = _ => destruct c; [discriminate|] end. congruence. }
  injection H; intros <- <-. eexists. split; [|split; [|reflexivity]].
  2:{ exists blk. split; [reflexivity|]. split; assumption. }
  repeat (eapply took_app; [eassumption|]). eassumption.
Qed.
Lemma layout_sh C s h s1 : inside s -> parse_server_hello C s = Ok (h, s1) -> forall pct, exists b, took s s1 b /\ layout C pct h b /\ msg_type h = Some SERVER_HELLO.
Proof.
  intros I H pct. unfold parse_server_hello in H. apply rbind_ok in H as [[v s2] [H1 H]].
  destruct (N.eqb_spec v TLS_1_2) as [->|]; [|discriminate]. cbn [negb] in H.
  apply rbind_ok in H as [[random s3] [H2 H]]. apply rbind_ok in H as [[sid s4] [H3 H]]. apply rbind_ok in H as [[suite s5] [H4 H]].
  apply rbind_ok in H as [[comp s6] [H5 H]]. destruct (N.eqb_spec comp 0) as [->|]; [|discriminate]. cbn [negb] in H.
  apply rbind_ok in H as [[exts s7] [H6 H]].
  destruct (tk_int 2 _ _ _ I H1) as [T1 _]. destruct (tk_exact _ _ _ _ (took_inside _ _ _ T1) H2) as [T2 L2].
  destruct (tk_var 1 _ _ _ (took_inside _ _ _ T2) H3) as [T3 _]. destruct (tk_int 2 _ _ _ (took_inside _ _ _ T3) H4) as [T4 _].
  destruct (tk_int 1 _ _ _ (took_inside _ _ _ T4) H5) as [T5 _]. destruct (exts_block _ _ _ _ _ (took_inside _ _ _ T5) H6) as (blk & T6 & B).
  injection H; intros <- <-. eexists. split; [|split; [|reflexivity]].
  2:{ exists blk. split; [reflexivity|]. split; [exact L2|]. split; [apply beqb_eq | exact B]. }
  repeat (eapply took_app; [eassumption|]). eassumption.
Qed.
Lemma layout_ee C s h s1 : inside s -> parse_enc_ext C s = Ok (h, s1) -> forall pct, exists b, took s s1 b /\ layout C pct h b /\ msg_type h = Some ENCRYPTED_EXTENSIONS.
Proof.
  intros I H pct. unfold parse_enc_ext in H. apply rbind_ok in H as [[exts s2] [H1 H]]. injection H; intros <- <-.
  destruct (exts_block _ _ _ _ _ I H1) as (blk & T & B). eexists. split; [exact T|]. split; [|reflexivity]. exists blk. split; [reflexivity | exact B].
Qed.
Lemma layout_cr C s h s1 : inside s -> parse_cert_request C s = Ok (h, s1) -> forall pct, exists b, took s s1 b /\ layout C pct h b /\ msg_type h = Some CERTIFICATE_REQUEST.
Proof.
  intros I H pct. unfold parse_cert_request in H. apply rbind_ok in H as [[ctx s2] [H1 H]]. apply rbind_ok in H as [[exts s3] [H2 H]].
  destruct (opt_bool _); [|discriminate]. injection H; intros <- <-.
  destruct (tk_var 1 _ _ _ I H1) as [T1 _]. destruct (exts_block _ _ _ _ _ (took_inside _ _ _ T1) H2) as (blk & T2 & B).
  eexists. split; [eapply took_app; eassumption|]. split; [|reflexivity]. exists blk. split; [reflexivity | exact B].
Qed.
Lemma layout_entries C ct lim : forall fuel s l s1, inside s -> parse_entries fuel C ct lim s = Ok (l, s1) ->
  exists bs, took s s1 (concat bs) /\ Forall2 (entry_layout C ct) bs l.
Proof.
  induction fuel as [|fuel IH]; intros s l s1 I H; cbn [parse_entries] in H; destruct (s_pos s <? lim);
  try (injection H; intros <- <-; exists []; split; [apply took_nil; exact I | constructor]); try discriminate.
  apply rbind_ok in H as [[e s2] [H1 H]]. apply rbind_ok in H as [[l' s3] [H2 H]]. injection H; intros <- <-.
  unfold parse_entry in H1. apply rbind_ok in H1 as [[data s4] [A1 A]]. apply rbind_ok in A as [cert [A2 A]]. apply rbind_ok in A as [[exts s5] [A3 A]].
  injection A; intros <- <-.
  destruct (tk_var 3 _ _ _ I A1) as [T1 _]. destruct (exts_block _ _ _ _ _ (took_inside _ _ _ T1) A3) as (blk & T2 & B).
  pose proof (took_app _ _ _ _ _ T1 T2) as T. destruct (IH _ _ _ (took_inside _ _ _ T) H2) as (bs & T3 & F).
  exists ((vec 3 data ++ vec 2 blk) :: bs). split; [exact (took_app _ _ _ _ _ T T3)|]. constructor; [|exact F].
  exists data, blk. split; [reflexivity|]. split; [exact A2 | exact B].
Qed.
Lemma layout_cert C pct s h s1 : inside s -> parse_certificate C pct s = Ok (h, s1) -> exists b, took s s1 b /\ layout C pct h b /\ msg_type h = Some CERTIFICATE.
Proof.
  intros I H. unfold parse_certificate in H. destruct pct as [[ct|]|]; try discriminate. destruct (negb _); [discriminate|].
  apply rbind_ok in H as [[ctx s2] [H1 H]]. apply rbind_ok in H as [[len s3] [H2 H]]. apply rbind_ok in H as [[l s4] [H3 H]]. injection H; intros <- <-.
  destruct (tk_var 1 _ _ _ I H1) as [T1 _]. destruct (tk_int 3 _ _ _ (took_inside _ _ _ T1) H2) as [T2 _].
  apply (tk_limit _ _ _ _ _ (fun b => exists bs, b = concat bs /\ Forall2 (entry_layout C ct) bs l)) in H3 as (b & T3 & Lb & bs & -> & F).
  - eexists. split; [eapply took_app; [exact T1|]; eapply took_app; [exact T2 | exact T3]|]. split; [|reflexivity].
    exists ct, bs. split; [reflexivity|]. split; [|exact F]. unfold vec. rewrite Lb. reflexivity.
  - exact (took_inside _ _ _ T2).
  - intros s' I' _ _ x' s5 P ->. destruct (layout_entries _ _ _ _ _ _ _ I' P) as (bs & T & F). exists (concat bs). split; [exact T|]. exists bs. split; [reflexivity | exact F].
Qed.
Lemma layout_hs C pct s h s1 : inside s -> parse_hs C pct s = Ok (h, s1) ->
  exists ty b, took s s1 (be_bytes 1 ty ++ vec 3 b) /\ blen b < 256 ^ 3 /\ layout C pct h b /\
    match msg_type h with Some t => ty = t | None => In ty [NEW_SESSION_TICKET; END_OF_EARLY_DATA; KEY_UPDATE] end.
Proof.
  intros I H. unfold parse_hs in H. apply rbind_ok in H as [[ty s2] [H1 H]]. apply rbind_ok in H as [[len s3] [H2 H]]. cbv zeta in H.
  destruct (tk_int 1 _ _ _ I H1) as [T1 _]. destruct (tk_int 3 _ _ _ (took_inside _ _ _ T1) H2) as [T2 Hlen]. change (N.of_nat 3) with 3 in Hlen.
  pose proof (took_inside _ _ _ T2) as I3.
  assert (G : forall p ty', ty = ty' -> (forall s' h' s2, inside s' -> p s' = Ok (h', s2) -> exists b, took s' s2 b /\ layout C pct h' b /\ msg_type h' = Some ty') ->
    with_limit len (fun _ => p) s3 = Ok (h, s1) -> exists ty b, took s s1 (be_bytes 1 ty ++ vec 3 b) /\ blen b < 256 ^ 3 /\ layout C pct h b /\
    match msg_type h with Some t => ty = t | None => In ty [NEW_SESSION_TICKET; END_OF_EARLY_DATA; KEY_UPDATE] end).
  { intros p ty' <- Hp HL. apply (tk_limit _ _ _ _ _ (fun b => layout C pct h b /\ msg_type h = Some ty)) in HL as (b & T3 & Lb & Hl & Hm).
    - exists ty, b. split; [|split; [rewrite Lb; exact Hlen | split; [exact Hl | rewrite Hm; reflexivity]]]. eapply took_app; [exact T1|]. unfold vec. rewrite Lb. eapply took_app; eassumption.
    - exact I3.
    - intros s' I' _ _ x' s5 P ->. exact (Hp _ _ _ I' P). }
  repeat match type of H with
  | (if ?a =? ?b then _ else _) = _ => destruct (N.eqb_spec a b) as [E|_]
  end; try discriminate H.
  - apply (G _ _ E) with (2 := H). intros s' h' s4 I' P. exact (layout_ch _ _ _ _ I' P pct).
  - apply (G _ _ E) with (2 := H). intros s' h' s4 I' P. exact (layout_sh _ _ _ _ I' P pct).
  - apply (G _ _ E) with (2 := H). intros s' h' s4 I' P. exact (layout_ee _ _ _ _ I' P pct).
  - apply (G _ _ E) with (2 := H). intros s' h' s4 I' P. exact (layout_cert _ _ _ _ _ I' P).
  - apply (G _ _ E) with (2 := H). intros s' h' s4 I' P. exact (layout_cr _ _ _ _ I' P pct).
  - apply (G _ _ E) with (2 := H). intros s' h' s4 I' P. unfold parse_cert_verify in P.
    apply rbind_ok in P as [[alg s5] [P1 P]]. apply rbind_ok in P as [[sig s6] [P2 P]]. injection P; intros <- <-.
    destruct (tk_int 2 _ _ _ I' P1) as [U1 _]. destruct (tk_var 2 _ _ _ (took_inside _ _ _ U1) P2) as [U2 _].
    eexists. split; [eapply took_app; eassumption|]. split; reflexivity.
  - apply (G _ _ E) with (2 := H). intros s' h' s4 I' P. unfold parse_finished in P. destruct (read_all s') as [b s5] eqn:Er.
    injection P; intros <- <-. exists b. split; [exact (tk_all _ _ _ I' Er)|]. split; reflexivity.
  - destruct ((ty =? NEW_SESSION_TICKET) || (ty =? END_OF_EARLY_DATA) || (ty =? KEY_UPDATE)) eqn:E.
    + apply (tk_limit _ _ _ _ _ (fun b => b = [] /\ h = HNone)) in H as (b & T3 & Lb & -> & ->).
      * exists ty, []. split; [|split; [reflexivity | split; [reflexivity|]]].
        { eapply took_app; [exact T1|]. unfold vec. change (blen []) with 0 in *. rewrite Lb. eapply took_app; eassumption. }
        cbn [msg_type In]. apply orb_true_iff in E as [E|E]; [apply orb_true_iff in E as [E|E]|]; apply N.eqb_eq in E; auto.
      * exact I3.
      * intros s' I' _ _ x' s5 P ->. injection P; intros <- <-. exists []. split; [apply took_nil; exact I' | split; reflexivity].
    + destruct (ty =? MESSAGE_HASH); discriminate H.
Qed.
Lemma layout_content C pct data h : parse_content C pct CT_HANDSHAKE data = Ok (KHandshake h) ->
  exists ty b, data = be_bytes 1 ty ++ vec 3 b /\ blen b < 256 ^ 3 /\ layout C pct h b /\
    match msg_type h with Some t => ty = t | None => In ty [NEW_SESSION_TICKET; END_OF_EARLY_DATA; KEY_UPDATE] end.
Proof.
  intro H. unfold parse_content in H. change (CT_HANDSHAKE =? CT_CCS) with false in H. change (CT_HANDSHAKE =? CT_ALERT) with false in H.
  change (CT_HANDSHAKE =? CT_HANDSHAKE) with true in H. cbv iota zeta in H.
  destruct (parse_hs C pct (stream_of data)) as [[h' s1]|e] eqn:E; cbn [rbind] in H; [|destruct (is_buffer_error e); discriminate].
  destruct (assert_eof s1) eqn:Ea; cbn [rbind] in H; [|destruct (is_buffer_error e); discriminate].
  injection H; intros ->. assert (I0 : inside (stream_of data)) by (split; cbn; [lia | exact I]). destruct (layout_hs _ _ _ _ _ I0 E) as (ty & b & T & Hb & Hl & Hm).
  exists ty, b. split; [|split; [exact Hb | split; assumption]]. destruct T as (D & _ & I1 & P & R).
  unfold assert_eof in Ea. destruct (s_pos s1 =? blen (s_data s1)) eqn:Ep; [|discriminate]. apply N.eqb_eq in Ep.
  assert (rest s1 = []) as R1. { apply blen_zero. rewrite (rest_le _ I1). lia. }
  rewrite R1, app_nil_r in R. exact R.
Qed.

Lemma block_places C h blk exts : block C h blk exts -> NoDup (map ext_type exts) /\
  forall e, In e exts -> match home e with
    | Some l => In h l \/ (h = NServerHello /\ ext_type e = COOKIE)
    | None => ~ In (ext_type e) (map fst rfc_places) end.
Proof.
  intros (items & es & _ & F & Nd & Hl). split; [exact Nd|]. intros e I. apply Hl in I as (l1 & l2 & -> & _).
  apply Forall2_app_inv_r in F as (i1 & i2 & _ & F2 & _). inversion F2 as [|i e' ? ? Hi]; subst. apply Hi.
Qed.
Lemma layout_places C pct h b hn exts : layout C pct h b -> In (hn, exts) (ext_lists h) ->
  NoDup (map ext_type exts) /\
  forall e, In e exts -> match home e with
    | Some l => In hn l \/ (hn = NServerHello /\ ext_type e = COOKIE)
    | None => ~ In (ext_type e) (map fst rfc_places) end.
Proof.
  intros L I. destruct h; cbn [layout ext_lists In] in *.
  - destruct I as [I|[]]. injection I; intros <- <-. destruct L as (blk & _ & _ & B). exact (block_places _ _ _ _ B).
  - destruct I as [I|[]]. injection I; intros <- <-. destruct L as (blk & _ & _ & _ & B). exact (block_places _ _ _ _ B).
  - destruct I as [I|[]]. injection I; intros <- <-. destruct L as (blk & _ & B). exact (block_places _ _ _ _ B).
  - destruct I as [I|[]]. injection I; intros <- <-. destruct L as (blk & _ & B). exact (block_places _ _ _ _ B).
  - destruct L as (ct & bs & _ & _ & F). apply in_map_iff in I as (e & E & I). injection E; intros <- <-.
    apply in_split in I as (l1 & l2 & ->). apply Forall2_app_inv_r in F as (b1 & b2 & _ & F2 & _). inversion F2 as [|i e' ? ? Hi]; subst.
    destruct Hi as (data & blk & _ & _ & B). exact (block_places _ _ _ _ B).
  - destruct I.
  - destruct I.
  - destruct I.
Qed.
