From Verif Require Import Base P_Base Iana Crypto Config Serial Ext Msg Hkdf Cipher Transcript Conn S_Hist S_Conn S_Send S_Split S_Ccs P_Monad P_Frame P_Rec P_Send P_Hist P_Blind P_Split.
Local Open Scope N_scope.

Lemma skip_ccs_one u y : a_ccs u -> skip_ccs (u ++ y) = skip_ccs y.
Proof. intros [v ->]. reflexivity. Qed.
Lemma framed_parts ct v f x : blen f < 65536 -> let r := framed ct v f in
  record_length (r ++ x) = blen f /\ blen (r ++ x) = 5 + blen f + blen x /\ bdrop (blen f + 5) (r ++ x) = x /\
  btake (blen f) (bdrop 5 (r ++ x)) = f /\ btake 5 (r ++ x) = [ct; fst v; snd v; Nb (blen f / 256); Nb (blen f mod 256)] /\ btake 1 (r ++ x) = [ct].
Proof.
  intros L. cbv zeta. unfold framed. set (h := [ct; fst v; snd v; Nb (blen f / 256); Nb (blen f mod 256)]).
  assert (Lh : blen h = 5) by reflexivity.
  assert (D5 : bdrop 5 ((h ++ f) ++ x) = f ++ x) by reflexivity.
  split. { unfold record_length. change (btake 2 (bdrop 3 ((h ++ f) ++ x))) with [Nb (blen f / 256); Nb (blen f mod 256)].
    cbn [of_bytes]. unfold of_bytes. cbn [fold_left]. rewrite !bN_Nb; [|apply N.mod_lt; lia | apply N.div_lt_upper_bound; lia].
    pose proof (N.div_mod (blen f) 256 ltac:(lia)). lia. }
  split; [rewrite !blen_app, Lh; lia|].
  split. { unfold bdrop, blen. rewrite <- app_assoc. rewrite skipn_app. rewrite skipn_all2 by (cbn; lia). cbn [app length].
    rewrite skipn_app. rewrite skipn_all2 by (cbn [h length]; lia). cbn [app]. replace (_ - _ - _)%nat with 0%nat by (cbn [h length]; lia). reflexivity. }
  split; [rewrite D5; unfold btake, blen; rewrite Nat2N.id, firstn_app, firstn_all; replace (length f - length f)%nat with 0%nat by lia; cbn [firstn]; apply app_nil_r|].
  split; reflexivity.
Qed.
Lemma record_skip r x : a_record r -> a_ccs r \/ skip_ccs (r ++ x) = r ++ x.
Proof.
  intros [ct [v [f [L ->]]]]. destruct (skip_cases _ (framed ct v f) (le_n _)) as [E|(b1 & b2 & r & E & _)].
  - right. destruct (framed_parts ct v f [] L) as (P1 & P2 & _). rewrite app_nil_r in P1, P2. change (blen []) with 0 in P2.
    apply skip_done; [exact E | lia |]. rewrite P1. lia.
  - left. exists v. destruct (framed_parts ct v f [] L) as (P1 & _). rewrite app_nil_r, E in P1.
    assert (Lf : blen f = 1) by (rewrite <- P1; reflexivity). unfold framed in E |- *. rewrite Lf in E |- *.
    cbn [app] in E. injection E as -> _ _ Ef. destruct f as [|a [|b f]]; unfold blen in Lf; cbn [length] in Lf; try lia. injection Ef as -> _. reflexivity.
Qed.

(* --- one record ------------------------------------------------------------ *)
Definition put (v : bytes) (c : conn) : conn := cset_in v c.
Lemma put_put v w c : put v (put w c) = put v c. Proof. destruct c; reflexivity. Qed.
Lemma put_same c : put (c_in c) c = c. Proof. destruct c; reflexivity. Qed.
Lemma read_skip C v w c : skip_ccs v = skip_ccs w -> read_next_record C (put v c) = read_next_record C (put w c).
Proof.
  intros H. rewrite !read_record_eq. cbv zeta. change (c_in (put v c)) with v. change (c_in (put w c)) with w. rewrite H.
  destruct c; reflexivity.
Qed.
Lemma unprotect_in C i c : c_in (snd (unprotect C i c)) = c_in c.
Proof.
  pose proof (bl_unprotect C i c (c_in c)) as H. change (cset_in (c_in c) c) with (put (c_in c) c) in H. rewrite put_same in H.
  rewrite H. reflexivity.
Qed.
Lemma rec_sprinkled C x y : sprinkled x y -> forall c r c1, read_next_record C (put x c) = (r, c1) ->
  exists y1, read_next_record C (put y c) = (r, put y1 c1) /\ sprinkled (c_in c1) y1.
Proof.
  induction 1 as [x|u x y Hu _ IH|r x y Hr Hxy IH]; intros c res c1 H.
  - exists (c_in c1). rewrite put_same. split; [exact H | constructor].
  - destruct (IH c res c1 H) as [y1 [E1 E2]]. exists y1. split; [|exact E2]. rewrite <- E1. apply read_skip. apply skip_ccs_one. exact Hu.
  - destruct (record_skip r x Hr) as [Hc|Hx].
    { rewrite (read_skip C (r ++ x) x c (skip_ccs_one r x Hc)) in H. rewrite (read_skip C (r ++ y) y c (skip_ccs_one r y Hc)). apply IH. exact H. }
    destruct (record_skip r y Hr) as [Hc|Hy].
    { rewrite (read_skip C (r ++ x) x c (skip_ccs_one r x Hc)) in H. rewrite (read_skip C (r ++ y) y c (skip_ccs_one r y Hc)). apply IH. exact H. }
    pose proof Hr as Hr0. destruct Hr as [ct [v [f [L ->]]]]. destruct (framed_parts ct v f x L) as (P1 & P2 & P3 & P4 & P5 & P6).
    destruct (framed_parts ct v f y L) as (Q1 & Q2 & Q3 & Q4 & Q5 & Q6). set (r := framed ct v f) in *.
    rewrite read_record_eq in H |- *. cbv zeta in H |- *. change (c_in (put (r ++ x) c)) with (r ++ x) in H. change (c_in (put (r ++ y) c)) with (r ++ y).
    rewrite Hx in H. rewrite Hy. rewrite P1, P2, P3 in H. rewrite Q1, Q2, Q3.
    assert (5 + blen f + blen x <? 5 = false) as Z by (apply N.ltb_ge; lia). rewrite Z in H. clear Z.
    assert (5 + blen f + blen y <? 5 = false) as -> by (apply N.ltb_ge; lia).
    change (rec_max (put (r ++ x) c)) with (rec_max c) in H. change (rec_max (put (r ++ y) c)) with (rec_max c).
    destruct (rec_max c <? blen f).
    { injection H as <- <-. exists (r ++ y). split; [destruct c; reflexivity|].
      match goal with |- sprinkled ?a _ => change a with (r ++ x) end. apply sprinkled_record; assumption. }
    assert (5 + blen f + blen x - 5 <? blen f = false) as Z by (apply N.ltb_ge; lia). rewrite Z in H. clear Z.
    assert (5 + blen f + blen y - 5 <? blen f = false) as -> by (apply N.ltb_ge; lia).
    change (cset_in x (put (r ++ x) c)) with (put x (put (r ++ x) c)) in H. rewrite put_put in H.
    change (cset_in y (put (r ++ y) c)) with (put y (put (r ++ y) c)). rewrite put_put.
    assert (U : forall d, unprotect C (r ++ y) d = unprotect C (r ++ x) d).
    { intro d. unfold unprotect. cbv zeta. rewrite P1, P4, P5, P6, Q1, Q4, Q5, Q6. reflexivity. }
    rewrite U. pose proof (bl_unprotect C (r ++ x) (put x c) y) as B. change (cset_in y (put x c)) with (put y (put x c)) in B. rewrite put_put in B.
    rewrite B. pose proof (unprotect_in C (r ++ x) (put x c)) as I.
    destruct (unprotect C (r ++ x) (put x c)) as [[[ct' f']|e] c2]; cbn [fst snd] in *; [destruct (ct' =? CT_CCS)|]; injection H as <- <-;
      (exists y; split; [reflexivity | rewrite I; exact Hxy]).
Qed.

(* --- one handshake message ------------------------------------------------- *)
Definition like (c c' : conn) : Prop := exists v, c' = put v c /\ sprinkled (c_in c) v.
Lemma like_refl c : like c c. Proof. exists (c_in c). rewrite put_same. split; [reflexivity | constructor]. Qed.
Definition likes {A} (x x' : res A * conn) : Prop := fst x' = fst x /\ like (snd x) (snd x').
Lemma likes_pair {A} (r : res A) c x' : likes (r, c) x' -> exists v, x' = (r, put v c) /\ sprinkled (c_in c) v.
Proof. destruct x' as [r' c']. intros [E [v [E' H]]]. cbn in *. subst. exists v. split; [reflexivity | exact H]. Qed.
Lemma record_like C c c' : like c c' -> likes (read_next_record C c) (read_next_record C c').
Proof.
  intros [v [-> H]]. destruct (read_next_record C c) as [r c1] eqn:E. rewrite <- (put_same c) in E at 1.
  destruct (rec_sprinkled C _ _ H c r c1 E) as [y1 [E1 E2]]. rewrite E1. split; [reflexivity | exists y1; split; [reflexivity | exact E2]].
Qed.
Lemma blind_like A (m : M A) c c' : blind m -> (forall c, c_in (snd (m c)) = c_in c) -> like c c' -> likes (m c) (m c').
Proof.
  intros B K [v [-> H]]. unfold put. rewrite B. split; [reflexivity|]. exists v. split; [reflexivity|]. cbn [snd]. rewrite K. exact H.
Qed.
Lemma fill_like C : forall n m c c', (length (c_in c) < n)%nat -> (length (c_in c') < m)%nat -> like c c' ->
  likes (fill_handshake n C c) (fill_handshake m C c').
Proof.
  induction n as [|n IH]; intros m c c' Hn Hm Hl; [lia|]. destruct m as [|m]; [lia|].
  pose proof Hl as [v [Ec Hv]]. assert (W' : wanting c' = wanting c) by (rewrite Ec; reflexivity).
  destruct (wanting c) eqn:W.
  2:{ rewrite (fill_done (S n) C c W), (fill_done (S m) C c' W'). split; [reflexivity | exact Hl]. }
  rewrite (fill_more n C c W), (fill_more m C c' W').
  pose proof (record_like C c c' Hl) as R. destruct (read_next_record C c) as [r c1] eqn:E. apply likes_pair in R. destruct R as [w [E' Hw]]. rewrite E'.
  pose proof E as I. apply read_record_inv in I. pose proof E' as I'. apply read_record_inv in I'.
  destruct r as [[[ct f]|]|e]; try (split; [reflexivity | exists w; split; [reflexivity | exact Hw]]).
  destruct (negb _); [split; [reflexivity | exists w; split; [reflexivity | exact Hw]]|].
  destruct I as [(I & _)|[(I & _)|(I & _)]]; try discriminate. destruct I' as [(I' & _)|[(I' & _)|(I' & _)]]; try discriminate.
  unfold blen in I, I'. apply IH; [cbn [c_in cset_inhs]; lia | cbn [c_in cset_inhs]; lia |].
  exists w. split; [reflexivity | exact Hw].
Qed.
Lemma content_like C c c' : like c c' -> likes (read_next_content C c) (read_next_content C c').
Proof.
  intros Hl. rewrite !content_eq. pose proof (record_like C c c' Hl) as R. destruct (read_next_record C c) as [r c1]. apply likes_pair in R.
  destruct R as [w [-> Hw]]. destruct r as [[[ct f]|]|e]; cbn [after_record]; try (split; [reflexivity | exists w; split; [reflexivity | exact Hw]]).
  change (c_inhs (put w c1)) with (c_inhs c1). destruct (_ && _); [split; [reflexivity | exists w; split; [reflexivity | exact Hw]]|].
  destruct (negb _); [split; [reflexivity | exists w; split; [reflexivity | exact Hw]]|]. cbv zeta.
  change (cset_inhs (c_inhs c1 ++ f) (put w c1)) with (put w (cset_inhs (c_inhs c1 ++ f) c1)). set (c2 := cset_inhs (c_inhs c1 ++ f) c1).
  assert (L2 : like c2 (put w c2)) by (exists w; split; [reflexivity | exact Hw]).
  change (c_inhs (put w c2)) with (c_inhs c2). destruct (_ <? 4); [split; [reflexivity | exact L2]|].
  pose proof (fill_like C (S (length (c_in c2))) (S (length (c_in (put w c2)))) c2 (put w c2) ltac:(lia) ltac:(lia) L2) as F.
  destruct (fill_handshake (S (length (c_in c2))) C c2) as [rf c3]. apply likes_pair in F. destruct F as [w3 [-> Hw3]].
  destruct rf as [[|]|e]; cbn [after_fill]; try (split; [reflexivity | exists w3; split; [reflexivity | exact Hw3]]).
  change (c_inhs (put w3 c3)) with (c_inhs c3).
  destruct (_ <? _); (split; [reflexivity | exists w3; split; [reflexivity | exact Hw3]]).
Qed.

(* --- the loop ----------------------------------------------------------------- *)
Lemma guarded_like C c c' : like c c' -> likes (guarded C (receive_one C) c) (guarded C (receive_one C) c').
Proof.
  intros Hl.
  assert (G : forall e x x', like x x' -> likes (guarded C (raise e) x) (guarded C (raise e) x')).
  { intros e x x' Hx. unfold guarded, raise.
    match goal with |- context [fail C ?a x] => pose proof (blind_like _ (fail C a) x x' (bl_fail C a) (fail_in C a) Hx) as F;
      destruct (fail C a x) as [r0 x0]; apply likes_pair in F; destruct F as [w [-> Hw]] end.
    destruct r0; (split; [reflexivity | exists w; split; [reflexivity | exact Hw]]). }
  assert (U : forall x, guarded C (receive_one C) x =
    match read_next_content C x with
    | (Ok None, x1) => (Ok false, x1)
    | (Ok (Some (ct, d)), x1) => match handle_content C ct d x1 with (Ok _, x2) => (Ok true, x2) | (Err e, x2) => guarded C (raise e) x2 end
    | (Err e, x1) => guarded C (raise e) x1
    end).
  { intro x. unfold guarded, receive_one, bind, raise, ret.
    destruct (read_next_content C x) as [[[[ct d]|]|e] x1]; try reflexivity.
    destruct (handle_content C ct d x1) as [[?|e] x2]; reflexivity. }
  rewrite !U. pose proof (content_like C c c' Hl) as R. destruct (read_next_content C c) as [r c1]. apply likes_pair in R. destruct R as [w [-> Hw]].
  assert (L1 : like c1 (put w c1)) by (exists w; split; [reflexivity | exact Hw]).
  destruct r as [[[ct d]|]|e]; [| split; [reflexivity | exact L1] | apply G; exact L1].
  pose proof (blind_like _ _ c1 (put w c1) (bl_handle C ct d) (handle_in C ct d) L1) as H.
  destruct (handle_content C ct d c1) as [r2 c2]. apply likes_pair in H. destruct H as [w2 [-> Hw2]].
  assert (L2 : like c2 (put w2 c2)) by (exists w2; split; [reflexivity | exact Hw2]).
  destruct r2 as [?|e]; [split; [reflexivity | exact L2] | apply G; exact L2].
Qed.
Lemma loops_like C c x : loops C c x -> forall c', like c c' -> exists x', loops C c' x' /\ likes x x'.
Proof.
  induction 1 as [c c1 H|c e c1 H|c c1 x H L IH]; intros c' Hl; pose proof (guarded_like C c c' Hl) as G; rewrite H in G; apply likes_pair in G;
    destruct G as [w [E Hw]].
  - exists (Ok tt, put w c1). split; [apply loops_stop; exact E | split; [reflexivity | exists w; split; [reflexivity | exact Hw]]].
  - exists (Err e, put w c1). split; [apply loops_err; exact E | split; [reflexivity | exists w; split; [reflexivity | exact Hw]]].
  - destruct (IH (put w c1)) as [x' [L' Hx']]; [exists w; split; [reflexivity | exact Hw]|]. exists x'. split; [eapply loops_more; [exact E | exact L'] | exact Hx'].
Qed.
Lemma sprinkled_len x y : sprinkled x y -> (length x <= length y)%nat.
Proof. induction 1; rewrite ?app_length in *; lia. Qed.
Lemma receive_like C c v d d' : d <> [] -> d' <> [] -> sprinkled (c_in c) v -> sprinkled (c_in c ++ d) (v ++ d') ->
  likes (receive_data C d c) (receive_data C d' (put v c)).
Proof.
  intros Hd Hd' H0 H. destruct (can_receive (c_state c)) eqn:Cr.
  - pose proof (loop_terminates C (length (c_in (ext d c))) (ext d c) (le_n _)) as T. set (x := receive_loop _ C _) in T.
    rewrite (receive_loops C d c x Hd Cr T).
    assert (Hl : like (ext d c) (ext d' (put v c))) by (exists (v ++ d'); split; [destruct c; reflexivity | exact H]).
    destruct (loops_like C _ _ T _ Hl) as [x' [T' Hx]].
    rewrite (receive_loops C d' (put v c) x' Hd' Cr T'). destruct x as [r c1]. apply likes_pair in Hx. destruct Hx as [w [-> Hw]].
    destruct r as [?|e]; cbn [finish]; (split; [reflexivity | exists w; split; [reflexivity | exact Hw]]).
  - unfold receive_data. replace (is_nil d) with false by (destruct d; [congruence | reflexivity]).
    replace (is_nil d') with false by (destruct d'; [congruence | reflexivity]). rewrite !bind_get.
    change (c_state (put v c)) with (c_state c). rewrite Cr. cbn [negb]. split; [reflexivity | exists v; split; [reflexivity | exact H0]].
Qed.
(* nothing else arrived *)
Lemma skip_all us : Forall a_ccs us -> skip_ccs (concat us) = [].
Proof. induction 1 as [|u us Hu _ IH]; [reflexivity|]. cbn [concat]. rewrite skip_ccs_one by exact Hu. exact IH. Qed.
Lemma receive_nothing C c us : us <> [] -> Forall a_ccs us -> c_in c = [] -> can_receive (c_state c) = true -> rekey_due c = false ->
  receive_data C (concat us) c = (Ok tt, c).
Proof.
  intros Hn Hu Hi Cr Rk.
  assert (Hd : concat us <> []).
  { destruct us as [|u us]; [congruence|]. inversion Hu as [|? ? [v ->]]; subst. discriminate. }
  rewrite (receive_loops C (concat us) c (Ok tt, c) Hd Cr).
  - cbn [finish]. rewrite (rekeying_due c Rk). reflexivity.
  - apply loops_stop. unfold guarded, receive_one, bind. rewrite content_eq, read_record_eq. cbv zeta.
    change (c_in (ext (concat us) c)) with (c_in c ++ concat us). rewrite Hi. cbn [app]. rewrite (skip_all us Hu). cbn [blen length N.of_nat N.ltb]. cbn.
    f_equal. destruct c; cbn in *; subst; reflexivity.
Qed.
