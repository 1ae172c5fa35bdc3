(* C81 *)
From Coq Require Import PeanoNat Lia.
From Verif Require Import Base Attr S_Attr.
Local Open Scope string_scope.
Local Open Scope list_scope.
Local Open Scope N_scope.

Lemma mem_In n l : mem n l = true <-> In n l.
Proof.
  unfold mem. rewrite existsb_exists. split.
  - intros (x & I & E). apply String.eqb_eq in E. subst x. exact I.
  - intro I. exists n. split; [exact I | apply String.eqb_refl].
Qed.
Lemma dget_dset n m v d : dget n (dset m v d) = if String.eqb n m then Some v else dget n d.
Proof.
  induction d as [|[k w] r IH]; cbn [dset dget]; [reflexivity|].
  destruct (String.eqb m k) eqn:E; cbn [dget].
  - apply String.eqb_eq in E. subst k. destruct (String.eqb n m); reflexivity.
  - rewrite IH. destruct (String.eqb n k) eqn:F; [|reflexivity]. apply String.eqb_eq in F. subst k.
    destruct (String.eqb n m) eqn:G; [|reflexivity]. apply String.eqb_eq in G. subst m. rewrite String.eqb_refl in E. discriminate.
Qed.
Lemma nth_set_obj o d l i : nth_error (set_obj o d l) i = if Nat.eqb i o then option_map (fun p => (fst p, d)) (nth_error l i) else nth_error l i.
Proof.
  unfold set_obj. assert (H : forall s i, nth_error (map (fun p => if Nat.eqb (fst p) (s + o) then (fst (snd p), d) else snd p) (combine (seq s (length l)) l)) i =
    if Nat.eqb i o then option_map (fun p => (fst p, d)) (nth_error l i) else nth_error l i).
  { clear i. induction l as [|x r IH] in o |- *; intros s i; cbn [length seq combine map].
    - rewrite ?nth_error_nil. destruct (Nat.eqb i o), i; reflexivity.
    - destruct i as [|i]; cbn [nth_error].
      + cbn [fst snd]. destruct o as [|o]; [rewrite Nat.add_0_r, Nat.eqb_refl; reflexivity|].
        replace (Nat.eqb s (s + S o)) with false by (symmetry; apply Nat.eqb_neq; lia). reflexivity.
      + destruct o as [|o].
        * rewrite Nat.add_0_r. replace (Nat.eqb (S i) 0) with false by reflexivity.
          transitivity (nth_error (map snd (combine (seq (S s) (length r)) r)) i).
          { f_equal. apply map_ext_in. intros [a b] I. apply in_combine_l in I. apply in_seq in I. cbn [fst snd].
            replace (Nat.eqb a s) with false by (symmetry; apply Nat.eqb_neq; lia). reflexivity. }
          f_equal. clear. generalize (S s). induction r as [|x r IH]; intro n; cbn [length seq combine map]; [reflexivity|]. f_equal; apply IH.
        * specialize (IH o (S s) i). replace (s + S o)%nat with (S s + o)%nat by lia. exact IH. }
  exact (H 0%nat i).
Qed.
Lemma map_fst_set_obj o d l : map fst (set_obj o d l) = map fst l.
Proof.
  unfold set_obj. generalize 0%nat. induction l as [|x r IH]; intro s; cbn [length seq combine map]; [reflexivity|]. f_equal; [|apply IH].
  cbn [fst snd]. destruct (Nat.eqb s o); reflexivity.
Qed.

Definition alive (h : heap) (o : nat) : Prop := o = h_cur h \/ In o (h_stack h).
Definition bottom (h : heap) : nat := last (h_stack h) (h_cur h).
Definition conn_only : list String.string := "_state" :: conn_set_names.
Record like (h : heap) (f : flat) : Prop := mkLike {
  lk_conn : forall n, dget n (h_conn h) = if mem n conn_names then Some (f_shared f n) else None;
  lk_class : map fst (h_objs h) = f_class f;
  lk_cur : h_cur h = f_cur f;
  lk_stack : h_stack h = f_stack f;
  lk_alive : forall o, In o (h_stack h) -> (o < length (h_objs h))%nat;
  lk_own : forall o k d, nth_error (h_objs h) o = Some (k, d) -> forall n, mem n conn_names = false -> dget n d = f_own f o n;
  lk_sync : forall o k d, alive h o -> nth_error (h_objs h) o = Some (k, d) -> forall n, mem n conn_names = true ->
    dget n d = None \/ (o = bottom h /\ dget n d = Some (f_shared f n) /\ mem n conn_only = false);
  lk_nested : forall o, In o (removelast (h_stack h)) -> nested (class_of h o) = true }.

Lemma conn_get_like h f n : like h f -> conn_get h n = flat_conn_get f n.
Proof. intro L. unfold conn_get, flat_conn_get. rewrite (lk_conn _ _ L). destruct (mem n conn_names); reflexivity. Qed.
Lemma conn_has_like h f n : like h f -> conn_has h n = mem n conn_names || mem n conn_class_names.
Proof.
  intro L. unfold conn_has. rewrite (conn_get_like _ _ _ L). unfold flat_conn_get.
  destruct (mem n conn_names); [reflexivity|]. destruct (mem n conn_class_names); reflexivity.
Qed.
Lemma conn_not_class k n : mem n conn_names = true -> class_has k n = false.
Proof. intro I. apply mem_In in I. revert n I. apply Forall_forall. destruct k; repeat constructor. Qed.
Lemma state_get_like h f o n : like h f -> alive h o -> state_get h o n = flat_get f o n.
Proof.
  intros L A. unfold state_get, flat_get. rewrite <- (lk_class _ _ L), nth_error_map.
  destruct (nth_error (h_objs h) o) as [[k d]|] eqn:E; [|reflexivity]. cbn [option_map fst].
  destruct (mem n conn_names) eqn:M.
  - rewrite (conn_not_class k n M). destruct (lk_sync _ _ L o k d A E n M) as [->|(_ & -> & _)]; [|reflexivity].
    rewrite (conn_get_like _ _ _ L). unfold flat_conn_get. rewrite M. reflexivity.
  - rewrite (lk_own _ _ L o k d E n M). destruct (f_own f o n); [reflexivity|]. rewrite (conn_get_like _ _ _ L). reflexivity.
Qed.
(* an assignment to an attribute of its own *)
Lemma class_of_set h o d c cur st x : class_of (mkHeap c (set_obj o d (h_objs h)) cur st) x = class_of h x.
Proof.
  unfold class_of. cbn [h_objs]. rewrite nth_set_obj. destruct (Nat.eqb x o); [|reflexivity].
  destruct (nth_error (h_objs h) x) as [[k e]|]; reflexivity.
Qed.
Lemma len_set_obj o d l : length (set_obj o d l) = length l.
Proof. rewrite <- (map_length fst (set_obj o d l)), map_fst_set_obj, map_length. reflexivity. Qed.
Lemma set_own h f o n v : like h f -> mem n conn_names = false -> mem n conn_class_names = false -> (o < length (h_objs h))%nat ->
  like (state_set h o n v) (flat_set f o n v).
Proof.
  intros L M N Lo. unfold state_set, flat_set. rewrite M, (conn_has_like _ _ _ L), M, N. cbn [orb].
  destruct (nth_error (h_objs h) o) as [[k d]|] eqn:E; [|apply nth_error_None in E; lia]. destruct L as [C1 C2 C3 C4 C5 C6 C7 C8].
  constructor; cbn [h_conn h_objs h_cur h_stack f_shared f_class f_cur f_stack f_own]; try assumption.
  - rewrite map_fst_set_obj. exact C2.
  - rewrite len_set_obj. exact C5.
  - intros p kp dp Ep m Mm. rewrite nth_set_obj in Ep. unfold upd_own. destruct (Nat.eqb p o) eqn:Po.
    + apply Nat.eqb_eq in Po. subst p. rewrite E in Ep. cbn in Ep. injection Ep as _ <-. rewrite dget_dset. unfold upd.
      destruct (String.eqb m n); [reflexivity|]. exact (C6 o k d E m Mm).
    + exact (C6 p kp dp Ep m Mm).
  - intros p kp dp Ap Ep m Mm. rewrite nth_set_obj in Ep. destruct (Nat.eqb p o) eqn:Po.
    + apply Nat.eqb_eq in Po. subst p. rewrite E in Ep. cbn in Ep. injection Ep as _ <-. rewrite dget_dset.
      destruct (String.eqb m n) eqn:Q; [apply String.eqb_eq in Q; congruence|]. exact (C7 o k d Ap E m Mm).
    + exact (C7 p kp dp Ap Ep m Mm).
  - intros p Ip. rewrite class_of_set. exact (C8 p Ip).
Qed.
Lemma last_in (A : Type) (l : list A) d : l <> [] -> In (last l d) l.
Proof. induction l as [|x [|y r] IH]; intro N; [congruence | left; reflexivity | right; apply IH; discriminate]. Qed.
Lemma mem_false_upd (f : String.string -> N) n m v : mem n conn_names = false -> mem m conn_names = true -> upd f n v m = f m.
Proof. intros A B. unfold upd. destruct (String.eqb m n) eqn:E; [apply String.eqb_eq in E; congruence | reflexivity]. Qed.
(* one to an attribute of the connection, by the outermost method that runs *)
Lemma set_shared h f o r n v : like h f -> h_stack h = o :: r -> o = bottom h -> mem n conn_names = true -> mem n conn_only = false ->
  like (state_set h o n v) (flat_set f o n v).
Proof.
  intros L St Bo M O. unfold state_set, flat_set. rewrite M, (conn_has_like _ _ _ L), M. cbn [orb].
  destruct L as [C1 C2 C3 C4 C5 C6 C7 C8].
  destruct (nth_error (h_objs h) o) as [[k d]|] eqn:E; [|apply nth_error_None in E; specialize (C5 o); rewrite St in C5; specialize (C5 (or_introl eq_refl)); lia].
  constructor; cbn [h_conn h_objs h_cur h_stack f_shared f_class f_cur f_stack f_own]; try assumption.
  - intro m. rewrite dget_dset, C1. unfold upd. destruct (String.eqb m n) eqn:Q; [apply String.eqb_eq in Q; subst m; rewrite M|]; reflexivity.
  - rewrite map_fst_set_obj. exact C2.
  - rewrite len_set_obj. exact C5.
  - intros p kp dp Ep m Mm. rewrite nth_set_obj in Ep. destruct (Nat.eqb p o) eqn:Po.
    + apply Nat.eqb_eq in Po. subst p. rewrite E in Ep. cbn in Ep. injection Ep as _ <-. rewrite dget_dset.
      destruct (String.eqb m n) eqn:Q; [apply String.eqb_eq in Q; congruence|]. exact (C6 o k d E m Mm).
    + exact (C6 p kp dp Ep m Mm).
  - intros p kp dp Ap Ep m Mm. rewrite nth_set_obj in Ep. unfold bottom in *. cbn [h_stack h_cur]. unfold upd. destruct (Nat.eqb p o) eqn:Po.
    + apply Nat.eqb_eq in Po. subst p. rewrite E in Ep. cbn in Ep. injection Ep as _ <-. rewrite dget_dset.
      destruct (String.eqb m n) eqn:Q; [apply String.eqb_eq in Q; subst m; right; auto|]. exact (C7 o k d Ap E m Mm).
    + destruct (C7 p kp dp Ap Ep m Mm) as [H|(H & _)]; [left; exact H|]. exfalso. apply Nat.eqb_neq in Po. congruence.
  - intros p Ip. rewrite class_of_set. exact (C8 p Ip).
Qed.
Lemma set_conn h f n v : like h f -> mem n conn_names = true -> mem n conn_only = true ->
  like (conn_set h n v) (mkFlat (upd (f_shared f) n v) (f_own f) (f_class f) (f_cur f) (f_stack f)).
Proof.
  intros [C1 C2 C3 C4 C5 C6 C7 C8] M O. constructor; unfold conn_set; cbn [h_conn h_objs h_cur h_stack f_shared f_class f_cur f_stack f_own]; try assumption.
  - intro m. rewrite dget_dset, C1. unfold upd. destruct (String.eqb m n) eqn:Q; [apply String.eqb_eq in Q; subst m; rewrite M|]; reflexivity.
  - intros p kp dp Ap Ep m Mm. destruct (C7 p kp dp Ap Ep m Mm) as [H|(H & H2 & H3)]; [left; exact H|]. right. split; [exact H|]. split; [|exact H3].
    rewrite H2. unfold upd. destruct (String.eqb m n) eqn:Q; [apply String.eqb_eq in Q; congruence | reflexivity].
Qed.

(* a new state *)
Definition pure_obj (h : heap) (o : nat) : Prop :=
  forall k d n, nth_error (h_objs h) o = Some (k, d) -> mem n conn_names = true -> dget n d = None.
Definition private (n : String.string) : Prop := mem n conn_names = false /\ mem n conn_class_names = false.
Lemma init_private k : Forall private (init_names k).
Proof. destruct k; repeat constructor. Qed.
Lemma state_set_parts h o n v : h_cur (state_set h o n v) = h_cur h /\ h_stack (state_set h o n v) = h_stack h /\ length (h_objs (state_set h o n v)) = length (h_objs h).
Proof. unfold state_set. destruct (nth_error (h_objs h) o) as [[k d]|]; cbn [h_cur h_stack h_objs]; rewrite ?len_set_obj; auto. Qed.
Lemma pure_set h o n v : pure_obj h o -> mem n conn_names = false -> pure_obj (state_set h o n v) o.
Proof.
  intros P M k d m E Mm. unfold state_set in E. destruct (nth_error (h_objs h) o) as [[k0 d0]|] eqn:E0; [|rewrite E0 in E; discriminate].
  cbn [h_objs] in E. rewrite nth_set_obj, Nat.eqb_refl, E0 in E. cbn in E. injection E as <- <-. rewrite dget_dset.
  destruct (String.eqb m n) eqn:Q; [apply String.eqb_eq in Q; congruence|]. exact (P _ _ _ E0 Mm).
Qed.
Lemma init_like ns : Forall private ns -> forall h f o vs, like h f -> (o < length (h_objs h))%nat -> pure_obj h o ->
  like (init_all h o ns vs) (flat_init f o ns vs) /\ pure_obj (init_all h o ns vs) o /\
  h_cur (init_all h o ns vs) = h_cur h /\ h_stack (init_all h o ns vs) = h_stack h /\ length (h_objs (init_all h o ns vs)) = length (h_objs h).
Proof.
  induction 1 as [|n r [P1 P2] F IH]; intros h f o vs L Lo Pu; cbn [init_all flat_init]; [auto|].
  destruct (state_set_parts h o n (hd 0 vs)) as (A & B & D).
  destruct (IH (state_set h o n (hd 0 vs)) (flat_set f o n (hd 0 vs)) o (tl vs) (set_own _ _ _ _ _ L P1 P2 Lo) ltac:(rewrite D; exact Lo) (pure_set _ _ _ _ Pu P1)) as (X & Y & Z & W & V).
  rewrite A in Z. rewrite B in W. rewrite D in V. auto.
Qed.
Definition cur_in (h : heap) : Prop := (h_cur h < length (h_objs h))%nat.
(* [like] for the connection before it has any state *)
Lemma move_like h f k vs : like h f -> (cur_in h \/ h_objs h = [] /\ h_stack h = []) -> like (move_to h k vs) (flat_move f k vs) /\ cur_in (move_to h k vs).
Proof.
  intros L Hc. unfold move_to, flat_move.
  assert (Len : length (f_class f) = length (h_objs h)) by (rewrite <- (lk_class _ _ L); apply map_length). rewrite Len.
  set (o := length (h_objs h)). set (h0 := mkHeap (h_conn h) (h_objs h ++ [(k, [("connection", 0)])]) (h_cur h) (h_stack h)). set (f0 := mkFlat (f_shared f) _ (f_class f ++ [k]) _ _).
  assert (No : nth_error (h_objs h0) o = Some (k, [("connection", 0)])).
  { unfold h0, o. cbn [h_objs]. rewrite nth_error_app2 by lia. rewrite Nat.sub_diag. reflexivity. }
  assert (Pr : forall p, p <> o -> nth_error (h_objs h0) p = nth_error (h_objs h) p).
  { intros p Np. unfold h0. cbn [h_objs]. destruct (Nat.lt_ge_cases p (length (h_objs h))) as [Q|Q]; [apply nth_error_app1; exact Q|].
    rewrite nth_error_app2 by exact Q. transitivity (@None (kls * dict)); [|symmetry; apply nth_error_None; exact Q].
    destruct (p - length (h_objs h))%nat as [|z] eqn:Z; [unfold o in Np; lia|]. cbn [nth_error]. destruct z; reflexivity. }
  assert (Pu : pure_obj h0 o).
  { intros k' d n E M. rewrite No in E. injection E as <- <-. cbn [dget]. destruct (String.eqb n "connection") eqn:Q; [|reflexivity].
    apply String.eqb_eq in Q. subst n. discriminate. }
  assert (L0 : like h0 f0).
  { destruct L as [C1 C2 C3 C4 C5 C6 C7 C8]. constructor; try assumption.
    - unfold h0, f0. cbn [h_objs f_class]. rewrite map_app, C2. reflexivity.
    - intros p Ip. unfold h0 in *. cbn [h_objs h_stack] in *. rewrite app_length. cbn [length]. specialize (C5 p Ip). lia.
    - intros p kp dp Ep n M. unfold f0. cbn [f_own]. destruct (Nat.eqb p o) eqn:Po.
      + apply Nat.eqb_eq in Po. subst p. rewrite No in Ep. injection Ep as <- <-. cbn [dget]. destruct (String.eqb n "connection"); reflexivity.
      + apply Nat.eqb_neq in Po. rewrite (Pr p Po) in Ep. exact (C6 p kp dp Ep n M).
    - intros p kp dp Ap Ep n M. destruct (Nat.eq_dec p o) as [->|Po]; [left; exact (Pu kp dp n Ep M)|]. rewrite (Pr p Po) in Ep. exact (C7 p kp dp Ap Ep n M).
    - intros p Ip. unfold class_of. destruct (Nat.eq_dec p o) as [->|Po]; [|rewrite (Pr p Po); exact (C8 p Ip)].
      exfalso. unfold h0 in Ip. cbn [h_stack] in Ip. assert (I : In o (h_stack h)) by (clear -Ip; induction (h_stack h) as [|x [|y r] IH]; [destruct Ip | destruct Ip | destruct Ip as [->|Ip]; [left; reflexivity | right; auto]]).
      specialize (C5 o I). unfold o in C5. lia. }
  destruct (init_like _ (init_private k) h0 f0 o vs L0 ltac:(unfold h0, o; cbn [h_objs]; rewrite app_length; cbn [length]; lia) Pu) as (L1 & P1 & E1 & E2 & E3).
  set (h1 := init_all h0 o (init_names k) vs) in *. set (f1 := flat_init f0 o (init_names k) vs) in *.
  pose proof (set_conn h1 f1 "_state" (N.of_nat o) L1 eq_refl eq_refl) as L2.
  assert (Lo : (o < length (h_objs h1))%nat) by (rewrite E3; unfold h0, o; cbn [h_objs]; rewrite app_length; cbn [length]; lia).
  split; [|unfold cur_in; cbn [h_cur h_objs]; exact Lo].
  destruct L2 as [C1 C2 C3 C4 C5 C6 C7 C8]. unfold conn_set in *. cbn [h_conn h_objs h_cur h_stack f_shared f_class f_cur f_stack f_own] in *.
  constructor; cbn [h_conn h_objs h_cur h_stack f_shared f_class f_cur f_stack f_own]; try assumption; [reflexivity|].
  intros p kp dp Ap Ep n M. unfold alive in Ap. cbn [h_cur h_stack] in Ap. destruct Ap as [->|Ip].
  - left. exact (P1 kp dp n Ep M).
  - destruct (C7 p kp dp (or_intror Ip) Ep n M) as [H|(H & H2)]; [left; exact H|]. right. split; [|exact H2].
    rewrite H. unfold bottom. cbn [h_stack h_cur]. destruct (h_stack h1) as [|x r]; [destruct Ip|]. clear. revert x. induction r as [|y r IH]; intro x; [reflexivity | exact (IH y)].
Qed.

(* the tables *)
Lemma set_names_ok k n : mem n (set_names k) = true -> nested k = false /\
  (mem n conn_names = true /\ mem n conn_only = false \/ mem n conn_names = false /\ mem n conn_class_names = false).
Proof.
  intro I. apply mem_In in I. destruct k; try (destruct I; fail); (split; [reflexivity|]); revert n I; apply Forall_forall.
  all: repeat (apply Forall_cons; [solve [left; split; reflexivity | right; split; reflexivity]|]); apply Forall_nil.
Qed.
Lemma cur_names_ok n : mem n cur_set_names = true -> private n.
Proof. intro I. apply mem_In in I. revert n I. apply Forall_forall. repeat constructor. Qed.
Lemma conn_names_ok n : mem n conn_set_names = true -> mem n conn_names = true /\ mem n conn_only = true.
Proof. intro I. apply mem_In in I. revert n I. apply Forall_forall. repeat constructor. Qed.
Lemma last_swap (A : Type) (x : A) r a b : last (x :: r) a = last (x :: r) b.
Proof. revert x. induction r as [|y r IH]; intro x; [reflexivity | exact (IH y)]. Qed.

Lemma event_like h f e : like h f -> cur_in h -> allowed h e = true ->
  like (fst (do_event h e)) (fst (flat_event f e)) /\ cur_in (fst (do_event h e)) /\ snd (do_event h e) = snd (flat_event f e).
Proof.
  intros L Hc Al. destruct e as [| | |n|n v|n v|n|n|n v|k vs]; cbn [do_event flat_event fst snd allowed] in *.
  - split; [|split; [exact Hc | reflexivity]]. destruct L as [C1 C2 C3 C4 C5 C6 C7 C8].
    constructor; cbn [h_conn h_objs h_cur h_stack f_shared f_class f_cur f_stack f_own]; try assumption.
    + rewrite C3, C4. reflexivity.
    + intros o [<-|I]; [exact Hc | exact (C5 o I)].
    + intros o k d A E n M. assert (A' : alive h o) by (destruct A as [A|[A|A]]; [left; exact A | left; symmetry; exact A | right; exact A]).
      destruct (C7 o k d A' E n M) as [H|(H & H2)]; [left; exact H|]. right. split; [|exact H2]. rewrite H. unfold bottom. cbn [h_stack h_cur].
      destruct (h_stack h) as [|x r]; reflexivity.
    + intros o I. change (nested (class_of h o) = true). destruct (h_stack h) as [|x r] eqn:S; [destruct I|]. destruct I as [<-|I]; [exact Al | exact (C8 o I)].
  - split; [|split; [exact Hc | reflexivity]]. destruct L as [C1 C2 C3 C4 C5 C6 C7 C8].
    constructor; cbn [h_conn h_objs h_cur h_stack f_shared f_class f_cur f_stack f_own]; try assumption.
    + rewrite C4. reflexivity.
    + intros o I. apply C5. destruct (h_stack h); [destruct I | right; exact I].
    + intros o k d A E n M. assert (A' : alive h o) by (destruct A as [A|A]; [left; exact A | right; cbn [h_stack] in A; destruct (h_stack h); [destruct A | right; exact A]]).
      destruct (C7 o k d A' E n M) as [H|(H & H2)]; [left; exact H|]. right. split; [|exact H2]. unfold alive, bottom in *. cbn [h_stack h_cur] in *.
      destruct (h_stack h) as [|x [|y r]]; [exact H | | exact H]. destruct A as [A|[]]. exact A.
    + intros o I. change (nested (class_of h o) = true). apply C8. destruct (h_stack h) as [|x [|y r]]; [destruct I | destruct I | right; exact I].
  - split; [|split; [exact Hc | reflexivity]]. destruct L as [C1 C2 C3 C4 C5 C6 C7 C8].
    constructor; cbn [h_conn h_objs h_cur h_stack f_shared f_class f_cur f_stack f_own]; try assumption; try reflexivity.
    + intros o [].
    + intros o k d A E n M. destruct A as [A|[]]. destruct (C7 o k d (or_introl A) E n M) as [H|(H & H2)]; [left; exact H|]. right. split; [exact A | exact H2].
    + intros o [].
  - split; [exact L|]. split; [exact Hc|]. rewrite <- (lk_stack _ _ L). destruct (h_stack h) as [|o r] eqn:S; [reflexivity|].
    f_equal. apply state_get_like; [exact L|]. right. rewrite S. left. reflexivity.
  - rewrite <- (lk_stack _ _ L). destruct (h_stack h) as [|o r] eqn:S; [discriminate|].
    destruct (state_set_parts h o n v) as (P1 & P2 & P3).
    split; [|split; [unfold cur_in; rewrite P1, P3; exact Hc | reflexivity]].
    destruct (set_names_ok _ _ Al) as (Ne & [[M O]|[M N]]).
    + apply (set_shared h f o r); try assumption. unfold bottom. rewrite S. destruct r as [|y r]; [reflexivity|].
      exfalso. pose proof (lk_nested _ _ L o) as Q. rewrite S in Q. rewrite (Q (or_introl eq_refl)) in Ne. discriminate.
    + apply set_own; try assumption. apply (lk_alive _ _ L). rewrite S. left. reflexivity.
  - destruct (cur_names_ok _ Al) as (M & N). destruct (state_set_parts h (h_cur h) n v) as (P1 & P2 & P3).
    split; [|split; [unfold cur_in; rewrite P1, P3; exact Hc | reflexivity]]. rewrite <- (lk_cur _ _ L). apply set_own; assumption.
  - split; [exact L|]. split; [exact Hc|]. rewrite <- (lk_cur _ _ L). f_equal. apply state_get_like; [exact L | left; reflexivity].
  - split; [exact L|]. split; [exact Hc|]. f_equal. apply conn_get_like. exact L.
  - destruct (conn_names_ok _ Al) as (M & O). split; [apply set_conn; assumption|]. split; [exact Hc | reflexivity].
  - destruct (move_like h f k vs L (or_introl Hc)) as [L' Hc']. split; [exact L'|]. split; [exact Hc' | reflexivity].
Qed.
Lemma events_like l : forall h f h' out, like h f -> cur_in h -> do_events h l = Some (h', out) ->
  like h' (fst (flat_events f l)) /\ cur_in h' /\ out = snd (flat_events f l).
Proof.
  induction l as [|e r IH]; intros h f h' out L Hc E; cbn [do_events flat_events] in *; [injection E as <- <-; auto|].
  destruct (allowed h e) eqn:Al; [|discriminate]. destruct (event_like h f e L Hc Al) as (L1 & H1 & O1).
  destruct (do_event h e) as [h1 o1]. destruct (flat_event f e) as [f1 p1]. cbn [fst snd] in *.
  destruct (do_events h1 r) as [[h2 o2]|] eqn:E2; [|discriminate]. injection E as <- <-.
  destruct (IH h1 f1 h2 o2 L1 H1 E2) as (A & B & D). destruct (flat_events f1 r) as [f2 p2]. cbn [fst snd] in *. subst. auto.
Qed.
Lemma dget_map values l n : dget n (map (fun m => (m, values m)) l) = if mem n l then Some (values n) else None.
Proof.
  induction l as [|m r IH]; [reflexivity|]. cbn [map dget]. unfold mem in *. cbn [existsb]. destruct (String.eqb n m) eqn:E; [|exact IH].
  apply String.eqb_eq in E. subst m. reflexivity.
Qed.
Lemma new_like k cookie shares values : like (new_heap k cookie shares values) (new_flat k cookie shares values) /\ cur_in (new_heap k cookie shares values).
Proof.
  apply move_like; [|right; split; reflexivity].
  constructor; cbn [h_conn h_objs h_cur h_stack f_shared f_class f_cur f_stack f_own]; try reflexivity.
  - apply dget_map.
  - intros o [].
  - intros o k0 d E. destruct o; discriminate.
  - intros o k0 d _ E. destruct o; discriminate.
  - intros o [].
Qed.
Lemma one_store k cookie shares values l h out : do_events (new_heap k cookie shares values) l = Some (h, out) ->
  out = snd (flat_events (new_flat k cookie shares values) l) /\
  (forall o n, o = h_cur h \/ In o (h_stack h) -> state_get h o n = flat_get (fst (flat_events (new_flat k cookie shares values) l)) o n).
Proof.
  intro E. destruct (new_like k cookie shares values) as [L Hc]. destruct (events_like l _ _ _ _ L Hc E) as (A & B & D).
  split; [exact D|]. intros o n Al. apply state_get_like; assumption.
Qed.
(* a state never hides what the connection has *)
Lemma same_view k cookie shares values l h out o n : do_events (new_heap k cookie shares values) l = Some (h, out) ->
  o = h_cur h \/ In o (h_stack h) -> In n conn_names -> exists v, conn_get h n = RValue v /\ state_get h o n = RValue v.
Proof.
  intros E Al I. apply mem_In in I. destruct (new_like k cookie shares values) as [L Hc]. destruct (events_like l _ _ _ _ L Hc E) as (A & B & D).
  exists (f_shared (fst (flat_events (new_flat k cookie shares values) l)) n). rewrite (conn_get_like _ _ _ A), (state_get_like _ _ _ _ A Al).
  unfold flat_conn_get, flat_get. rewrite I. split; [reflexivity|].
  assert (Lo : (o < length (h_objs h))%nat) by (destruct Al as [->|Al]; [exact B | exact (lk_alive _ _ A o Al)]).
  rewrite <- (lk_class _ _ A), nth_error_map. destruct (nth_error (h_objs h) o) as [[kk d]|] eqn:En; [reflexivity | apply nth_error_None in En; lia].
Qed.
(* the attributes of the states do not get to the connection *)
Lemma no_leak k cookie shares values l h out n : do_events (new_heap k cookie shares values) l = Some (h, out) ->
  (exists v, dget n (h_conn h) = Some v) <-> In n conn_names.
Proof.
  intro E. destruct (new_like k cookie shares values) as [L Hc]. destruct (events_like l _ _ _ _ L Hc E) as (A & B & D).
  rewrite (lk_conn _ _ A), <- mem_In. destruct (mem n conn_names); split; intro H; [reflexivity | eauto | destruct H; discriminate | discriminate].
Qed.
