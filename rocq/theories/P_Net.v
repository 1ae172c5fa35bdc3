(* Two wrapped sockets over a network. *)
From Verif Require Import Base Iana Crypto Config Cipher Conn S_Hist S_Conn S_Send S_Deliver S_Split S_State S_Honest Wrapper S_Net P_Base P_Monad P_Hist P_Frame P_Nonce P_Rec P_Split P_Pieces P_Buf P_State P_Mute P_Honest10 P_Honest12.

Definition fl (c : conn) : conn := cset_out [] c.
Lemma fl_id c : c_out c = [] -> fl c = c. Proof. intro H. unfold fl. rewrite <- H. destruct c; reflexivity. Qed.
Lemma turn_eq C p c k x : sk_accept k = [] -> receive_data C p c = (Ok tt, x) ->
  turn C p (c, k) = (Ok tt, (fl x, mkSock (sk_recv k) [] (sk_sent k ++ c_out x))).
Proof.
  intros Hk E. unfold turn, wfinally, on_conn. cbn [fst snd]. rewrite E. unfold flush, wbind, on_conn. cbn [fst snd].
  unfold data_to_send. rewrite bind_get. cbn. destruct (c_out x) as [|b o] eqn:Eo.
  - cbn. unfold wret. rewrite app_nil_r. unfold fl. destruct k as [a b l]. cbn [sk_accept] in Hk. subst. reflexivity.
  - cbn. unfold sock_send. cbn [snd fst]. rewrite Hk. reflexivity.
Qed.

(* --- one message left ----------------------------------------------------- *)
Definition alike (c c' : conn) : Prop :=
  c_state c' = c_state c /\ c_out c' = c_out c /\ max_frag c' = max_frag c /\ rekeying c' = rekeying c.
Lemma alike_reading q c c' : reading (ext q c) c' -> alike c c'.
Proof.
  intros [E R]. unfold alike. rewrite E. split; [reflexivity|]. split; [reflexivity|]. split; [reflexivity|].
  unfold rekeying. cbn [c_cipher cset_cipher c_state cset_inhs cset_in]. change (c_cipher (ext q c)) with (c_cipher c) in R.
  unfold olift in R. destruct (c_cipher c) as [x|], (c_cipher c') as [y|]; try contradiction; [|reflexivity].
  destruct R as [-> _]. reflexivity.
Qed.
Lemma owes_piece C e q r : one_left C (q ++ r) e -> r <> [] -> q <> [] -> 1 <= max_frag e -> can_receive (c_state e) = true -> rekeying e = Ok tt ->
  exists e', receive_data C q e = (Ok tt, e') /\ alike e e' /\ read_next_content C (ext r e') = read_next_content C (ext (q ++ r) e).
Proof.
  intros (m & z & E & Ez) Nr Nq M R K. destruct (read_next_content C (ext q e)) as [ro e'] eqn:Q.
  assert (M' : 1 <= max_frag (ext q e)) by exact M.
  destruct (content_ext C (ext q e) r ro e' M' Q) as [H1 H2]. rewrite ext_app in H1, H2.
  assert (Ero : ro = Ok None).
  { destruct ro as [[x|]|x]; [|reflexivity|]; exfalso; rewrite H1 in E by discriminate.
    - assert (Z : z = ext r e') by congruence. rewrite Z in Ez. cbn in Ez. apply app_eq_nil in Ez. tauto.
    - discriminate. }
  subst ro. assert (A : alike e e') by (pose proof (reading_content C (ext q e)) as Rd; rewrite Q in Rd; exact (alike_reading q e e' Rd)).
  exists e'. split; [|split; [exact A|]].
  - rewrite (receive_loops C q e (Ok tt, e') Nq R).
    + unfold finish. destruct A as (_ & _ & _ & ->). rewrite K. reflexivity.
    + apply loops_stop. unfold guarded, receive_one, bind. rewrite Q. reflexivity.
  - destruct (H2 eq_refl) as [H|H]; [symmetry; exact H | rewrite H in E; discriminate].
Qed.
Lemma loops_same C c c' x : read_next_content C c = read_next_content C c' -> loops C c x -> loops C c' x.
Proof.
  intros E L. assert (G : guarded C (receive_one C) c' = guarded C (receive_one C) c) by (unfold guarded, receive_one, bind; rewrite E; reflexivity).
  destruct L as [c c1 H|c e c1 H|c c1 x H L]; rewrite <- G in H; [apply loops_stop | apply loops_err | eapply loops_more]; eassumption.
Qed.
Lemma owes_end C e r e0 b : read_next_content C (ext r e) = read_next_content C (ext b e0) -> r <> [] -> b <> [] ->
  can_receive (c_state e) = true -> can_receive (c_state e0) = true -> receive_data C r e = receive_data C b e0.
Proof.
  intros E Nr Nb R R0. pose proof (loop_terminates C _ (ext b e0) (le_n _)) as L.
  rewrite (receive_loops C b e0 _ Nb R0 L). apply (receive_loops C r e _ Nr R). eapply loops_same; [|exact L]. symmetry. exact E.
Qed.

(* --- in the middle of a flight ---------------------------------------------- *)
Lemma feed_split C : forall a b c y, feed C (a ++ b) c = (Ok tt, y, []) -> exists x, feed C a c = (Ok tt, x, []) /\ feed C b x = (Ok tt, y, []).
Proof.
  induction a as [|d a IH]; intros b c y F; [exists c; split; [reflexivity | exact F]|]. cbn [app feed] in F |- *.
  destruct (receive_data C d c) as [[[]|e] c1]; [apply IH; exact F | discriminate].
Qed.
Lemma feed_join C : forall a b c x r, feed C a c = (Ok tt, x, []) -> feed C b x = r -> feed C (a ++ b) c = r.
Proof.
  induction a as [|d a IH]; intros b c x r F G; [cbn in F; assert (c = x) by congruence; subst; reflexivity|]. cbn [app feed] in F |- *.
  destruct (receive_data C d c) as [[[]|e] c1]; [eapply IH; eassumption | discriminate].
Qed.
Definition at_ (C : crypto) (w : conn) (p : bytes) (e : conn) (o : bytes) : Prop :=
  exists ds x, (forall d, In d ds -> d <> []) /\ concat ds = p /\ feed C ds w = (Ok tt, x, []) /\ e = fl x /\ o = c_out x.
Lemma at_start C w : c_out w = [] -> at_ C w [] w [].
Proof. intro H. exists [], w. split; [intros d []|]. split; [reflexivity|]. split; [reflexivity|]. split; [symmetry; apply fl_id; exact H | symmetry; exact H]. Qed.
Definition tail (r : bytes) : list bytes := if is_nil r then [] else [r].
Lemma tail_in r d : In d (tail r) -> d <> []. Proof. unfold tail. destruct r; [intros [] | intros [<-|[]]; discriminate]. Qed.
Lemma tail_concat r : concat (tail r) = r. Proof. destruct r; [reflexivity | cbn; f_equal; apply app_nil_r]. Qed.
Lemma pre_fl x : pre (c_out x) (fl x) = x. Proof. unfold pre, fl. cbn [c_out cset_out]. rewrite app_nil_r. destruct x; reflexivity. Qed.
Lemma mute_receive C q x y : receive_data C q x = (Ok tt, y) -> exists x', receive_data C q (fl x) = (Ok tt, x') /\ fl x' = fl y /\ c_out y = c_out x ++ c_out x'.
Proof.
  intro E. pose proof (mu_receive C q (fl x) (c_out x)) as H. rewrite pre_fl, E in H. destruct (receive_data C q (fl x)) as [r x']. cbn [fst snd] in H.
  assert (Er : r = Ok tt) by congruence. assert (Ey : y = pre (c_out x) x') by congruence. subst. exists x'. split; [reflexivity|]. split; [reflexivity|]. reflexivity.
Qed.
Lemma calm_hungry m : calm m -> hungry m /\ (length (c_log m) < 1000)%nat.
Proof. intros [Ci Ll]. split; [|exact Ll]. split; [rewrite Ci; split; [reflexivity | left; cbn; lia] | rewrite Ci; cbn; lia]. Qed.

Section flight.
Variables (C : crypto) (g : config) (w m : conn) (T : bytes).
Hypothesis Rw : reachable C g w.
Hypothesis ET : receive_data C T w = (Ok tt, m).
Hypothesis Cm : calm m.
Lemma at_rest p e o r : at_ C w p e o -> T = p ++ r -> T <> [] -> exists x, feed C (tail r) x = (Ok tt, m, []) /\ e = fl x /\ o = c_out x /\ reachable C g x.
Proof.
  intros (ds & x & Hd & Ep & F & -> & ->) E N. destruct (calm_hungry m Cm) as [Hu Ll].
  assert (Al : feed C (ds ++ tail r) w = (Ok tt, m, [])).
  { apply (accepted C g w (ds ++ tail r) m Rw).
    - intros d Hi. apply in_app_or in Hi. destruct Hi as [Hi|Hi]; [apply Hd; exact Hi | exact (tail_in _ _ Hi)].
    - intro Z. apply N. rewrite E, <- Ep. apply app_eq_nil in Z. destruct Z as [-> Z]. unfold tail in Z. destruct r; [reflexivity | discriminate].
    - rewrite concat_app, tail_concat, Ep, <- E. exact ET.
    - exact Hu.
    - exact Ll. }
  destruct (feed_split C ds (tail r) w m Al) as (x' & F1 & F2). assert (x' = x) by congruence. subst x'. exists x. split; [exact F2|]. split; [reflexivity|]. split; [reflexivity|].
  destruct Rw as (c0 & ops & Cr & Ec). exists c0, (ops ++ map ORecv ds). split; [exact Cr|]. rewrite run_app, <- Ec. symmetry. apply feed_run. exact F.
Qed.
Lemma at_piece p e o q r : at_ C w p e o -> T = p ++ q ++ r -> q <> [] ->
  exists x', receive_data C q e = (Ok tt, x') /\ at_ C w (p ++ q) (fl x') (o ++ c_out x').
Proof.
  intros Hat E Nq. assert (NT : T <> []) by (intro Z; rewrite Z in E; symmetry in E; apply app_eq_nil in E; destruct E as [_ E]; apply app_eq_nil in E; tauto).
  destruct Hat as (ds & x & Hd & Ep & F & -> & ->). destruct (calm_hungry m Cm) as [Hu Ll].
  assert (Al : feed C ((ds ++ [q]) ++ tail r) w = (Ok tt, m, [])).
  { apply (accepted C g w _ m Rw).
    - intros d Hi. apply in_app_or in Hi. destruct Hi as [Hi|Hi]; [|exact (tail_in _ _ Hi)]. apply in_app_or in Hi. destruct Hi as [Hi|[<-|[]]]; [apply Hd; exact Hi | exact Nq].
    - destruct ds; discriminate.
    - rewrite !concat_app, tail_concat, Ep. cbn [concat]. rewrite app_nil_r, <- app_assoc, <- E. exact ET.
    - exact Hu.
    - exact Ll. }
  destruct (feed_split C (ds ++ [q]) (tail r) w m Al) as (y & F1 & F2). pose proof F1 as F1'. destruct (feed_split C ds [q] w y F1) as (x1 & F3 & F4).
  assert (x1 = x) by congruence. subst x1. cbn [feed] in F4. destruct (receive_data C q x) as [[[]|er] y1] eqn:Eq; [|discriminate].
  assert (y1 = y) by congruence. subst y1. destruct (mute_receive C q x y Eq) as (x' & R1 & R2 & R3).
  exists x'. split; [exact R1|]. exists (ds ++ [q]), y. split; [|split; [|split; [exact F1' | split; [exact R2 | symmetry; exact R3]]]].
  - intros d Hi. apply in_app_or in Hi. destruct Hi as [Hi|[<-|[]]]; [apply Hd; exact Hi | exact Nq].
  - rewrite concat_app, Ep. cbn [concat]. rewrite app_nil_r. reflexivity.
Qed.
Lemma at_total e o : at_ C w T e o -> T <> [] -> e = fl m /\ o = c_out m.
Proof.
  intros H N. destruct (at_rest T e o [] H) as (x & F & -> & -> & _); [symmetry; apply app_nil_r | exact N|]. cbn in F. assert (x = m) by congruence. subst. auto.
Qed.
Lemma at_prefix p e o r : at_ C w p e o -> T = p ++ r -> T <> [] -> exists t, c_out m = o ++ t.
Proof.
  intros H E N. destruct (at_rest p e o r H E N) as (x & F & -> & -> & _). unfold tail in F. destruct r as [|b r].
  - cbn in F. assert (x = m) by congruence. subst. exists []. symmetry. apply app_nil_r.
  - cbn [is_nil feed] in F. destruct (receive_data C (b :: r) x) as [[[]|er] y1] eqn:Eq; [|discriminate]. assert (y1 = m) by congruence. subst y1.
    destruct (step_out C (ORecv (b :: r)) x) as [t Et]; [discriminate|]. exists t. unfold after, step, bind in Et. rewrite Eq in Et. exact Et.
Qed.
Lemma at_post p e o r : at_ C w p e o -> T = p ++ r -> T <> [] -> is_post_handshake m = false -> is_post_handshake e = false.
Proof.
  intros H E N Pm. destruct (at_rest p e o r H E N) as (x & F & -> & -> & Rx). change (is_post_handshake (fl x)) with (is_post_handshake x).
  destruct (is_post_handshake x) eqn:Px; [|reflexivity]. exfalso.
  assert (Ih : forall y, in_handshake (c_state y) = negb (is_post_handshake y)) by (intro y; unfold is_post_handshake; destruct (c_state y); reflexivity).
  assert (Q : in_handshake (c_state (run C (map ORecv (tail r)) x)) = false).
  { apply (state_over C g); [exact Rx | rewrite Ih, Px; reflexivity]. }
  rewrite (proj1 (feed_run C _ _ _ F)), Ih, Pm in Q. discriminate.
Qed.
End flight.
