(* Every schedule of the network lets both endpoints finish. *)
From Verif Require Import Base Iana Crypto Config Cipher Conn S_Hist S_Conn S_Send S_Deliver S_Split S_State S_Honest Wrapper S_Net P_Base P_Monad P_Hist P_Frame P_Nonce P_Rec P_Split P_Pieces P_Buf P_State P_Mute P_Honest P_Honest10 P_Honest12 P_Net.

Lemma cut_at (q t r b : bytes) : q ++ t = r ++ b -> (exists r', r = q ++ r' /\ t = r' ++ b) \/ (exists q', q = r ++ q' /\ q' <> [] /\ b = q' ++ t).
Proof.
  revert r. induction q as [|x q IH]; intros r E.
  - left. exists r. auto.
  - destruct r as [|y r].
    + right. exists (x :: q). split; [reflexivity|]. split; [discriminate | symmetry; exact E].
    + cbn [app] in E. assert (x = y) by congruence. subst y. assert (E' : q ++ t = r ++ b) by congruence.
      destruct (IH r E') as [(r' & -> & Et)|(q' & -> & Nq & Eb)]; [left; exists r'; auto | right; exists q'; auto].
Qed.
Lemma pre_inj o a b : pre o a = pre o b -> a = b.
Proof.
  intro H. assert (E : c_out a = c_out b) by (apply (app_inv_head o); exact (f_equal c_out H)).
  assert (K : forall x, x = cset_out (c_out x) (pre o x)) by (intro x; destruct x; reflexivity).
  rewrite (K a), (K b), H, E. reflexivity.
Qed.
Lemma read_fl C a b : c_out a = c_out b -> read_next_content C a = read_next_content C b -> read_next_content C (fl a) = read_next_content C (fl b).
Proof.
  intros Eo E. pose proof (mu_content C (fl a) (c_out a)) as Ha. pose proof (mu_content C (fl b) (c_out b)) as Hb.
  rewrite pre_fl in Ha, Hb. rewrite Ha, Hb, <- Eo in E.
  destruct (read_next_content C (fl a)) as [ra ca], (read_next_content C (fl b)) as [rb cb]. cbn [fst snd] in E.
  f_equal; [congruence|]. apply (pre_inj (c_out a)). congruence.
Qed.
Lemma one_left_fl C b m : one_left C b m -> one_left C b (fl m).
Proof.
  intros (x & z & E & Ez). pose proof (mu_content C (fl (ext b m)) (c_out m)) as H. change (c_out m) with (c_out (ext b m)) in H. rewrite pre_fl, E in H.
  unfold one_left. change (ext b (fl m)) with (fl (ext b m)). destruct (read_next_content C (fl (ext b m))) as [r c1]. cbn [fst snd] in H.
  exists x, c1. split; [f_equal; congruence|]. assert (Z : z = pre (c_out (ext b m)) c1) by congruence. rewrite Z in Ez. exact Ez.
Qed.
Lemma unfl C b m : one_left C b (fl m) -> one_left C b m.
Proof.
  intros (x & z & E & Ez). pose proof (mu_content C (fl (ext b m)) (c_out m)) as H. change (c_out m) with (c_out (ext b m)) in H. rewrite pre_fl in H.
  change (ext b (fl m)) with (fl (ext b m)) in E. rewrite E in H. exists x, (pre (c_out (ext b m)) z). split; [exact H | exact Ez].
Qed.
Lemma receive_inv C q e x : receive_data C q e = (Ok tt, x) -> loops C (ext q e) (Ok tt, x).
Proof.
  intro E. assert (Q : exists r, fst (step C (ORecv q) e) = Ok r) by (unfold step, bind; rewrite E; eexists; reflexivity).
  destruct (recv_ok _ _ _ Q) as [Nq Rq]. pose proof (loop_terminates C _ (ext q e) (le_n _)) as L.
  rewrite (receive_loops C q e _ Nq Rq L) in E. destruct (receive_loop _ C (ext q e)) as [[[]|er] x1]; cbn [finish] in E; [|discriminate].
  assert (x1 = x) by congruence. subst. exact L.
Qed.
Lemma alike_ok c c' : alike c c' -> c_out c = [] -> is_post_handshake c = false -> is_post_handshake c' = false /\ fl c' = c' /\ c_out c' = [].
Proof.
  intros (A1 & A2 & _ & _) Eo P. split; [unfold is_post_handshake in *; rewrite A1; exact P|]. rewrite Eo in A2. split; [apply fl_id; exact A2 | exact A2].
Qed.
Lemma alike_trans a b c : alike a b -> alike b c -> alike a c.
Proof. unfold alike. intuition congruence. Qed.
Lemma alike_refl a : alike a a. Proof. unfold alike. auto. Qed.
Lemma young C g c : reachable C g c -> (length (c_log c) < 1000)%nat -> rekeying c = Ok tt /\ 1 <= max_frag c.
Proof.
  intros (c0 & ops & Cr & Ec) Ll.
  assert (N : nonceI c) by (rewrite Ec; apply nonceI_run; eapply nonceI_created; exact Cr).
  assert (K : cntI c) by (rewrite Ec; apply cntI_run; eapply cntI_created; exact Cr).
  assert (M : mfl_good c) by (rewrite Ec; apply mfl_good_run; eapply created_mfl; exact Cr).
  split; [apply young_no_rekey; assumption | apply mfl_pos; exact M].
Qed.

(* an endpoint ready to receive one message *)
Record stands (C : crypto) (c : conn) (b : bytes) : Prop := {
  st_left : one_left C b c; st_out : c_out c = []; st_post : is_post_handshake c = false;
  st_recv : can_receive (c_state c) = true; st_key : rekeying c = Ok tt; st_mfl : 1 <= max_frag c; st_some : b <> [] }.
Definition inside (C : crypto) (c0 : conn) (b : bytes) (e : conn) (rest : bytes) : Prop :=
  alike c0 e /\ rest <> [] /\ read_next_content C (ext rest e) = read_next_content C (ext b c0).
Lemma inside_start C c b : stands C c b -> inside C c b c b.
Proof. intro S. split; [apply alike_refl|]. split; [exact (st_some _ _ _ S) | reflexivity]. Qed.
Lemma inside_left C c b e rest : stands C c b -> inside C c b e rest -> one_left C rest e.
Proof. intros S (_ & _ & E). destruct (st_left _ _ _ S) as (m & z & E1 & E2). exists m, z. rewrite E. auto. Qed.
Lemma inside_more C c b e q r : stands C c b -> inside C c b e (q ++ r) -> q <> [] -> r <> [] ->
  exists e', receive_data C q e = (Ok tt, e') /\ inside C c b e' r.
Proof.
  intros S I Nq Nr. pose proof (inside_left _ _ _ _ _ S I) as L. destruct I as ((A1 & A2 & A3 & A4) & _ & E).
  destruct (owes_piece C e q r L Nr Nq) as (e' & R & Al & E').
  - rewrite A3. exact (st_mfl _ _ _ S).
  - rewrite A1. exact (st_recv _ _ _ S).
  - rewrite A4. exact (st_key _ _ _ S).
  - exists e'. split; [exact R|]. split; [eapply alike_trans; [|exact Al]; unfold alike; auto|]. split; [exact Nr|]. rewrite E'. exact E.
Qed.
Lemma inside_end C c b e rest : stands C c b -> inside C c b e rest -> receive_data C rest e = receive_data C b c.
Proof.
  intros S ((A1 & _) & N & E). apply owes_end; [exact E | exact N | exact (st_some _ _ _ S) | rewrite A1 | ]; exact (st_recv _ _ _ S).
Qed.
Lemma inside_calm C c b e rest : stands C c b -> inside C c b e rest -> is_post_handshake e = false /\ fl e = e /\ c_out e = [].
Proof. intros S (A & _). exact (alike_ok _ _ A (st_out _ _ _ S) (st_post _ _ _ S)). Qed.

Definition same {X} (a b : X) : Prop := a = b. (* out of reach of [subst] *)
Section network.
Variables (C : crypto) (gc : config) (W V S3 m c3 s2 s4 : conn) (F1 F2 F3 A B : bytes).
Hypothesis RW : reachable C gc W.
Hypothesis OW : c_out W = [].
Hypothesis EF2_ : same (F2) (A ++ B).
Lemma EF2 : F2 = A ++ B. Proof. exact EF2_. Qed.
Hypothesis NA : A <> [].
Hypothesis RA : receive_data C A W = (Ok tt, m).
Hypothesis CmA : calm m.
Hypothesis PmA : is_post_handshake m = false.
Hypothesis R2 : receive_data C F2 W = (Ok tt, c3).
Hypothesis Cm3 : calm c3.
Hypothesis O3_ : same (c_out c3) (F3).
Lemma O3 : c_out c3 = F3. Proof. exact O3_. Qed.
Hypothesis P3 : is_post_handshake c3 = true.
Hypothesis St1 : stands C V F1.
Hypothesis R1 : receive_data C F1 V = (Ok tt, s2).
Hypothesis Os2_ : same (c_out s2) (F2).
Lemma Os2 : c_out s2 = F2. Proof. exact Os2_. Qed.
Hypothesis Fs2_ : same (fl s2) (S3).
Lemma Fs2 : fl s2 = S3. Proof. exact Fs2_. Qed.
Hypothesis St3 : stands C S3 F3.
Hypothesis R3 : receive_data C F3 S3 = (Ok tt, s4).
Hypothesis Os4 : c_out s4 = [].
Hypothesis P4 : is_post_handshake s4 = true.
Hypothesis StB : stands C (fl m) B.

Lemma NF2 : F2 <> []. Proof. rewrite EF2. destruct A; [contradiction | discriminate]. Qed.
Lemma last_bit : exists x, receive_data C B (fl m) = (Ok tt, x) /\ fl x = fl c3 /\ F3 = c_out m ++ c_out x.
Proof.
  assert (At : at_ C W A (fl m) (c_out m)).
  { exists [A], m. split; [intros d [<-|[]]; exact NA|]. split; [apply app_nil_r|]. cbn [feed]. rewrite RA. auto. }
  destruct (at_piece C gc W c3 F2 RW R2 Cm3 A (fl m) (c_out m) B []) as (x & E & At'); [exact At | rewrite app_nil_r; exact EF2 | exact (st_some _ _ _ StB)|].
  exists x. split; [exact E|]. rewrite <- EF2 in At'. destruct (at_total C gc W c3 F2 RW R2 Cm3 _ _ At' NF2) as [E1 E2].
  split; [exact E1 | rewrite E2; symmetry; exact O3].
Qed.

(* the client has received [p] and sent [o] *)
Inductive client_at : bytes -> conn -> bytes -> Prop :=
| ca_most p r e o : at_ C W p e o -> A = p ++ r -> client_at (r ++ B) e o
| ca_last rest e : inside C (fl m) B e rest -> client_at rest e (c_out m)
| ca_done : client_at [] (fl c3) F3.
(* the server has [rest] to receive *)
Inductive server_at : bytes -> conn -> Prop :=
| sa_wait rest e : inside C S3 F3 e rest -> server_at rest e
| sa_done : server_at [] s4.
Inductive good_net : nat -> net -> Prop :=
| gn_hello rest e : inside C V F1 e rest -> good_net (length rest + length F2 + length F3) (mkNet W e rest [])
| gn_more down e o up late e' : client_at down e o -> server_at (up ++ late) e' -> F3 = o ++ late ->
    good_net (length down + length (up ++ late)) (mkNet e e' up down).

Lemma client_moves q rest e o : client_at (q ++ rest) e o -> q <> [] -> is_post_handshake e = false ->
  exists x, receive_data C q e = (Ok tt, x) /\ client_at rest (fl x) (o ++ c_out x).
Proof.
  intros H Nq Pe. inversion H as [p r e0 o0 At E Ed Ee Eo | rest0 e0 I Ed Ee Eo | Ed Ee Eo]; subst e0 || idtac; subst.
  - symmetry in Ed. destruct (cut_at _ _ _ _ Ed) as [(r' & -> & ->)|(q' & -> & Nq' & Eb)].
    + destruct (at_piece C gc W m A RW RA CmA p e o q r' At E Nq) as (x & R & At'). exists x. split; [exact R|].
      apply ca_most with (p := p ++ q); [exact At' | rewrite <- app_assoc; exact E].
    + destruct rest as [|b rest].
      * (* the flight is complete *)
        destruct (at_piece C gc W c3 F2 RW R2 Cm3 p e o (r ++ q') [] At) as (x & R & At'); [rewrite app_nil_r in *; rewrite EF2, E, Eb, <- app_assoc; reflexivity | exact Nq|].
        exists x. split; [exact R|]. assert (Ef : p ++ r ++ q' = F2) by (rewrite EF2, E, Eb, app_nil_r, <- app_assoc; reflexivity).
        rewrite Ef in At'. destruct (at_total C gc W c3 F2 RW R2 Cm3 _ _ At' NF2) as [-> ->]. rewrite O3. apply ca_done.
      * set (t := b :: rest) in *. assert (Nt : t <> []) by discriminate. clearbody t. rename t into rest'.
        (* x: after the first messages, before the flush *)
        assert (X : exists x, fl x = fl m /\ c_out m = o ++ c_out x /\ c_out x = c_out x /\ (r = [] -> x = e) /\ (r <> [] -> receive_data C r e = (Ok tt, x))).
        { destruct r as [|y r].
          - rewrite app_nil_r in E. subst p. destruct (at_total C gc W m A RW RA CmA _ _ At NA) as [-> ->]. exists (fl m).
            split; [reflexivity|]. split; [cbn; rewrite app_nil_r; reflexivity|]. split; [reflexivity|]. split; [reflexivity | congruence].
          - destruct (at_piece C gc W m A RW RA CmA p e o (y :: r) [] At) as (x & R & At'); [rewrite app_nil_r; exact E | discriminate|].
            exists x. rewrite <- E in At'. destruct (at_total C gc W m A RW RA CmA _ _ At' NA) as [E1 E2]. split; [exact E1|]. split; [symmetry; exact E2|].
            split; [reflexivity|]. split; [discriminate | intros _; exact R]. }
        destruct X as (x & X1 & X2 & _ & X3 & X4).
        assert (Ox : one_left C B x) by (apply unfl; rewrite X1; exact (st_left _ _ _ StB)).
        assert (Al0 : c_state x = c_state (fl m) /\ max_frag x = max_frag (fl m) /\ rekeying x = rekeying (fl m)) by (rewrite <- X1; auto).
        destruct Al0 as (B1 & B2 & B3).
        assert (Y : exists y, receive_data C (r ++ q') e = (Ok tt, y) /\ alike x y /\ read_next_content C (ext rest' y) = read_next_content C (ext B x)).
        { rewrite Eb in Ox. destruct (owes_piece C x q' rest' Ox Nt Nq') as (y & Ry & Ay & Ey).
          { rewrite B2. exact (st_mfl _ _ _ StB). } { rewrite B1. exact (st_recv _ _ _ StB). } { rewrite B3. exact (st_key _ _ _ StB). }
          rewrite <- Eb in Ey. destruct r as [|z r].
          - rewrite <- (X3 eq_refl). exists y. auto.
          - assert (Ne : z :: r <> []) by discriminate. specialize (X4 Ne). clear X3. set (rr := z :: r) in *. clearbody rr.
            assert (Rc : rr <> [] /\ can_receive (c_state e) = true) by (apply (recv_ok C rr e); unfold step, bind; rewrite X4; eexists; reflexivity).
            destruct Rc as [_ Rc]. apply receive_inv in X4. pose proof (receive_inv _ _ _ _ Ry) as Ly.
            assert (Mg : mfl_good (ext rr e)).
            { destruct (at_rest C gc W m A RW RA CmA p e o rr At E NA) as (x0 & _ & Ex0 & _ & Rx0). destruct Rx0 as (c0 & ops & Cr & Ec).
              assert (M : mfl_good x0) by (rewrite Ec; apply mfl_good_run; eapply created_mfl; exact Cr). rewrite Ex0. exact M. }
            pose proof (loops_ext C q' _ _ X4 Mg) as Lx. cbv beta iota in Lx. rewrite ext_app in Lx. destruct Lx as [Lx|Lx].
            + exists y. split; [|auto]. rewrite (receive_loops C (rr ++ q') e (Ok tt, y)); [|destruct rr; [congruence|discriminate] | exact Rc | apply Lx; exact Ly].
              unfold finish. destruct Ay as (_ & _ & _ & Ay). rewrite Ay, B3, (st_key _ _ _ StB). reflexivity.
            + exists (ext q' x). split; [|split; [unfold alike; auto | rewrite ext_app, <- Eb; reflexivity]].
              rewrite (receive_loops C (rr ++ q') e (Ok tt, ext q' x)); [|destruct rr; [congruence|discriminate] | exact Rc | exact Lx].
              unfold finish. change (rekeying (ext q' x)) with (rekeying x). rewrite B3, (st_key _ _ _ StB). reflexivity. }
        destruct Y as (y & Ry & Ay & Ey). exists y. split; [exact Ry|]. destruct Ay as (Y1 & Y2 & Y3 & Y4). rewrite Y2, <- X2. apply ca_last.
        split; [|split; [exact Nt|]].
        { unfold alike. change (c_state (fl y)) with (c_state y). change (max_frag (fl y)) with (max_frag y). change (rekeying (fl y)) with (rekeying y).
          rewrite Y1, Y3, Y4. split; [exact B1|]. split; [reflexivity|]. auto. }
        change (ext rest' (fl y)) with (fl (ext rest' y)). change (ext B (fl m)) with (fl (ext B m)).
        assert (Q : fl (ext B m) = fl (ext B x)) by (change (fl (ext B m)) with (ext B (fl m)); rewrite <- X1; reflexivity).
        rewrite Q. apply read_fl; [exact Y2 | exact Ey].
  - destruct rest as [|b rest].
    + rewrite app_nil_r in I. destruct last_bit as (x & E1 & E2 & E3). exists x. split; [rewrite (inside_end _ _ _ _ _ StB I); exact E1|].
      rewrite <- E3, E2. apply ca_done.
    + destruct (inside_more _ _ _ _ _ _ StB I Nq) as (e' & R & I'); [discriminate|]. exists e'. split; [exact R|].
      destruct (inside_calm _ _ _ _ _ StB I') as (_ & -> & ->). rewrite app_nil_r. apply ca_last. exact I'.
  - destruct q; [congruence | discriminate].
Qed.
Lemma server_moves q rest e : server_at (q ++ rest) e -> q <> [] ->
  exists x, receive_data C q e = (Ok tt, x) /\ server_at rest (fl x) /\ c_out x = [].
Proof.
  intros H Nq. inversion H as [rest0 e0 I Ed Ee | Ed Ee]; subst.
  - destruct rest as [|b rest].
    + rewrite app_nil_r in I. exists s4. split; [rewrite (inside_end _ _ _ _ _ St3 I); exact R3|]. split; [|exact Os4]. rewrite (fl_id _ Os4). apply sa_done.
    + destruct (inside_more _ _ _ _ _ _ St3 I Nq) as (e' & R & I'); [discriminate|]. exists e'. split; [exact R|].
      destruct (inside_calm _ _ _ _ _ St3 I') as (_ & Ef & Eo). rewrite Ef. split; [apply sa_wait; exact I' | exact Eo].
  - destruct q; [congruence | discriminate].
Qed.
Lemma nonempty (q : bytes) : q <> [] -> (1 <= length q)%nat. Proof. destruct q; [congruence | cbn; lia]. Qed.
Lemma net_keeps k w r w' : good_net k w -> net_step C w r w' -> r = Ok tt /\ exists k', good_net k' w' /\ (k' < k)%nat.
Proof.
  intros G St. destruct St as [c s up p rest r c' kk Pc Np _ E | c s p rest down r s' kk Ps Np _ E].
  - inversion G as [rest0 e0 I E0 E1 | down e o up' late e' Hc Hs Hl E0 E1]; subst.
    { destruct p; [congruence | discriminate]. }
    destruct (client_moves _ _ _ _ Hc Np Pc) as (x & R & Hc'). rewrite (turn_eq C p c fresh x eq_refl R) in E.
    injection E as <- <- <-. cbn [sk_sent fresh app]. split; [reflexivity|].
    assert (Hx : exists late', late = c_out x ++ late').
    { assert (P : exists t, F3 = (o ++ c_out x) ++ t).
      { inversion Hc' as [p1 r1 e1 o1 At EA Ed Ee Eo | rest1 e1 I1 Ed Ee Eo | Ed Ee Eo].
        - destruct (at_prefix C gc W m A RW RA CmA p1 _ _ r1 At EA NA) as (t & Et). destruct last_bit as (y & _ & _ & Ey). rewrite Ey, Et, <- app_assoc. eexists; reflexivity.
        - destruct last_bit as (y & _ & _ & Ey). exists (c_out y). exact Ey.
        - exists []. rewrite app_nil_r. reflexivity. }
      destruct P as (t & Et). exists t. apply (app_inv_head o). rewrite app_assoc, <- Et. congruence. }
    destruct Hx as (late' & El). exists (length rest + length ((up ++ c_out x) ++ late'))%nat. split.
    + apply gn_more with (o := o ++ c_out x); [exact Hc' | rewrite <- app_assoc, <- El; exact Hs | rewrite <- app_assoc, <- El; exact Hl].
    + rewrite <- app_assoc, <- El. rewrite (app_length p). pose proof (nonempty p Np). lia.
  - inversion G as [rest0 e0 I E0 E1 | down0 e o up' late e' Hc Hs Hl E0 E1]; subst.
    + destruct rest as [|b rest].
      * rewrite app_nil_r in I. pose proof (inside_end _ _ _ _ _ St1 I) as R. rewrite R1 in R. rewrite (turn_eq C p s fresh s2 eq_refl R) in E.
        injection E as <- <- <-. cbn [sk_sent fresh app]. split; [reflexivity|]. rewrite Fs2, Os2. exists (length F2 + length ([] ++ F3))%nat. split.
        { assert (Hc : client_at F2 W []); [|apply gn_more with (o := []); [exact Hc|apply sa_wait; apply inside_start; exact St3 | reflexivity]].
          rewrite EF2. apply ca_most with (p := []); [apply at_start; exact OW | reflexivity]. }
        rewrite app_nil_r. cbn [app]. pose proof (nonempty p Np). lia.
      * destruct (inside_more _ _ _ _ _ _ St1 I Np) as (x & R & I'); [discriminate|]. rewrite (turn_eq C p s fresh x eq_refl R) in E.
        injection E as <- <- <-. destruct (inside_calm _ _ _ _ _ St1 I') as (_ & Ef & Eo). cbn [sk_sent fresh app]. rewrite Eo. split; [reflexivity|].
        eexists. split; [rewrite Ef; apply gn_hello; exact I'|]. rewrite (app_length p). pose proof (nonempty p Np). lia.
    + rewrite <- app_assoc in Hs. destruct (server_moves _ _ _ Hs Np) as (x & R & Hs' & Eo). rewrite (turn_eq C p s fresh x eq_refl R) in E.
      injection E as <- <- <-. cbn [sk_sent fresh app]. rewrite Eo, app_nil_r. split; [reflexivity|].
      eexists. split; [apply gn_more with (o := o); [exact Hc | exact Hs' | exact Hl]|]. rewrite <- app_assoc, (app_length p). pose proof (nonempty p Np). lia.
Qed.
Lemma client_left down e o : client_at down e o -> is_post_handshake e = false -> down <> [] /\ 1 <= max_frag e.
Proof.
  intros H P. destruct H as [p r e o At E | rest e I |].
  - split; [pose proof (st_some _ _ _ StB); destruct r; [assumption | discriminate]|].
    destruct (at_rest C gc W m A RW RA CmA p e o r At E NA) as (x & _ & -> & _ & (c0 & ops & Cr & Ec)).
    change (max_frag (fl x)) with (max_frag x). apply mfl_pos. rewrite Ec. apply mfl_good_run. eapply created_mfl. exact Cr.
  - destruct I as ((_ & _ & Em & _) & N & _). split; [exact N | rewrite Em; exact (st_mfl _ _ _ StB)].
  - change (is_post_handshake (fl c3)) with (is_post_handshake c3) in P. congruence.
Qed.
Lemma client_over down e o : client_at down e o -> is_post_handshake e = true -> down = [] /\ e = fl c3 /\ o = F3.
Proof.
  intros H P. destruct H as [p r e o At E | rest e I |]; [exfalso | exfalso | auto].
  - rewrite (at_post C gc W m A RW RA CmA p e o r At E NA PmA) in P. discriminate.
  - destruct (inside_calm _ _ _ _ _ StB I) as (P' & _). congruence.
Qed.
Lemma server_over rest e : server_at rest e -> is_post_handshake e = true -> rest = [] /\ e = s4.
Proof. intros H P. destruct H as [rest e I|]; [exfalso | auto]. destruct (inside_calm _ _ _ _ _ St3 I) as (P' & _). congruence. Qed.
Lemma server_left rest e : server_at rest e -> is_post_handshake e = false -> rest <> [] /\ 1 <= max_frag e.
Proof.
  intros H P. destruct H as [rest e I|]; [|congruence]. destruct I as ((_ & _ & Em & _) & N & _). split; [exact N | rewrite Em; exact (st_mfl _ _ _ St3)].
Qed.
Lemma some_client_turn c s up b rest : is_post_handshake c = false -> 1 <= max_frag c -> exists r w', net_step C (mkNet c s up (b :: rest)) r w'.
Proof.
  intros P M. destruct (turn C [b] (c, fresh)) as [r [c' k]] eqn:E. exists r. eexists.
  apply (client_turn C c s up [b] rest r c' k); [exact P | discriminate | exact M | exact E].
Qed.
Lemma some_server_turn c s b rest down : is_post_handshake s = false -> 1 <= max_frag s -> exists r w', net_step C (mkNet c s (b :: rest) down) r w'.
Proof.
  intros P M. destruct (turn C [b] (s, fresh)) as [r [c' k]] eqn:E. exists r. eexists.
  apply (server_turn C c s [b] rest down r c' k); [exact P | discriminate | exact M | exact E].
Qed.
Lemma net_goes_on k w : good_net k w -> net_done w \/ exists r w', net_step C w r w'.
Proof.
  intros [rest e I | down e o up late e' Hc Hs Hl].
  - right. destruct (inside_calm _ _ _ _ _ St1 I) as (P & _). destruct I as ((_ & _ & Em & _) & N & _). destruct rest as [|b rest]; [congruence|].
    apply some_server_turn; [exact P | rewrite Em; exact (st_mfl _ _ _ St1)].
  - destruct (is_post_handshake e) eqn:Pe.
    + destruct (client_over _ _ _ Hc Pe) as (-> & _ & Eo). destruct (is_post_handshake e') eqn:Pe'; [left; split; assumption|]. right.
      destruct (server_left _ _ Hs Pe') as [N M]. assert (L : late = []) by (apply (app_inv_head o); rewrite app_nil_r, <- Hl; symmetry; exact Eo).
      subst late. rewrite app_nil_r in N. destruct up as [|b up]; [congruence|]. apply some_server_turn; assumption.
    + right. destruct (client_left _ _ _ Hc Pe) as [N M]. destruct down as [|b down]; [congruence|]. apply some_client_turn; assumption.
Qed.
Lemma net_ends k w : good_net k w -> net_done w -> w = mkNet (fl c3) s4 [] [].
Proof.
  intros [rest e I | down e o up late e' Hc Hs Hl] [Dc Ds]; cbn [n_client n_server] in Dc, Ds.
  - destruct (inside_calm _ _ _ _ _ St1 I) as (P & _). congruence.
  - destruct (client_over _ _ _ Hc Dc) as (-> & -> & _). destruct (server_over _ _ Hs Ds) as (E & ->). apply app_eq_nil in E. destruct E as [-> _]. reflexivity.
Qed.
Lemma net_good n w w' : net_run C n w w' -> w = mkNet W V F1 [] -> exists k, good_net k w' /\ (n + k <= length F1 + length F2 + length F3)%nat.
Proof.
  induction 1 as [w|n w w1 w2 R IH St]; intro E.
  - subst w. eexists. split; [apply gn_hello; apply inside_start; exact St1 | lia].
  - destruct (IH E) as (k & G & L). destruct (net_keeps _ _ _ _ G St) as (_ & k' & G' & Lk). exists k'. split; [exact G' | lia].
Qed.
Lemma net_all n w : net_run C n (mkNet W V F1 []) w ->
  (n <= length F1 + length F2 + length F3)%nat /\ (forall r w', net_step C w r w' -> r = Ok tt) /\
  (net_done w \/ exists w', net_step C w (Ok tt) w') /\ (net_done w -> w = mkNet (fl c3) s4 [] []).
Proof.
  intro R. destruct (net_good _ _ _ R eq_refl) as (k & G & L). split; [lia|]. split; [intros r w' St; exact (proj1 (net_keeps _ _ _ _ G St))|]. split; [|exact (net_ends _ _ G)].
  destruct (net_goes_on _ _ G) as [D|(r & w' & St)]; [left; exact D | right]. exists w'. rewrite (proj1 (net_keeps _ _ _ _ G St)) in St. exact St.
Qed.

(* the loop of do_handshake *)
Lemma loop_turn fuel d ds e z x : is_post_handshake e = false -> d <> [] -> receive_data C d e = (Ok tt, x) ->
  handshake_loop (S fuel) C (e, mkSock (Ok d :: ds) [] z) = handshake_loop fuel C (fl x, mkSock ds [] (z ++ c_out x)).
Proof.
  intros P N R. cbn [handshake_loop fst]. rewrite P. unfold wbind, sock_recv. cbn [snd fst sk_recv sk_accept sk_sent].
  destruct d as [|b d]; [congruence|]. cbn [is_nil]. rewrite (turn_eq C (b :: d) e (mkSock ds [] z) x eq_refl R). reflexivity.
Qed.
Lemma loop_stop fuel e k : is_post_handshake e = true -> handshake_loop fuel C (e, k) = (Ok tt, (e, k)).
Proof. intro P. destruct fuel; cbn [handshake_loop fst]; rewrite P; reflexivity. Qed.
Lemma client_loop : forall ds fuel e o z, (forall d, In d ds -> d <> []) -> (length ds < fuel)%nat -> client_at (concat ds) e o ->
  exists late, F3 = o ++ late /\ handshake_loop fuel C (e, mkSock (map Ok ds) [] z) = (Ok tt, (fl c3, mkSock [] [] (z ++ late))).
Proof.
  induction ds as [|d ds IH]; intros fuel e o z Ne Lf Hc.
  - destruct (is_post_handshake e) eqn:P; [|destruct (client_left _ _ _ Hc P) as [N _]; contradiction N; reflexivity].
    destruct (client_over _ _ _ Hc P) as (_ & -> & ->). exists []. split; [rewrite app_nil_r; reflexivity|]. rewrite app_nil_r. apply loop_stop. exact P.
  - assert (Nd : d <> []) by (apply Ne; left; reflexivity). destruct (is_post_handshake e) eqn:P.
    { destruct (client_over _ _ _ Hc P) as (E & _). cbn [concat] in E. apply app_eq_nil in E. tauto. }
    destruct fuel as [|fuel]; [cbn in Lf; lia|]. cbn [concat] in Hc. destruct (client_moves _ _ _ _ Hc Nd P) as (x & R & Hc').
    cbn [map]. rewrite (loop_turn fuel d _ e z x P Nd R). destruct (IH fuel (fl x) (o ++ c_out x) (z ++ c_out x)) as (late & E1 & E2).
    { intros d' Hd. apply Ne. right. exact Hd. } { cbn [length] in Lf. lia. } { exact Hc'. }
    exists (c_out x ++ late). split; [rewrite app_assoc; exact E1|]. rewrite app_assoc. exact E2.
Qed.
Lemma server_loop : forall ds fuel e z, (forall d, In d ds -> d <> []) -> (length ds < fuel)%nat -> server_at (concat ds) e ->
  handshake_loop fuel C (e, mkSock (map Ok ds) [] z) = (Ok tt, (s4, mkSock [] [] z)).
Proof.
  induction ds as [|d ds IH]; intros fuel e z Ne Lf Hs.
  - destruct (is_post_handshake e) eqn:P; [|destruct (server_left _ _ Hs P) as [N _]; contradiction N; reflexivity].
    destruct (server_over _ _ Hs P) as (_ & ->). apply loop_stop. exact P.
  - assert (Nd : d <> []) by (apply Ne; left; reflexivity). destruct (is_post_handshake e) eqn:P.
    { destruct (server_over _ _ Hs P) as (E & _). cbn [concat] in E. apply app_eq_nil in E. tauto. }
    destruct fuel as [|fuel]; [cbn in Lf; lia|]. cbn [concat] in Hs. destruct (server_moves _ _ _ Hs Nd) as (x & R & Hs' & Eo).
    cbn [map]. rewrite (loop_turn fuel d _ e z x P Nd R), Eo, app_nil_r. apply IH; [|cbn [length] in Lf; lia | exact Hs'].
    intros d' Hd. apply Ne. right. exact Hd.
Qed.
Lemma hello_loop : forall ds1 ds3 fuel e z, (forall d, In d ds1 -> d <> []) -> (forall d, In d ds3 -> d <> []) -> concat ds3 = F3 ->
  (length (ds1 ++ ds3) < fuel)%nat -> inside C V F1 e (concat ds1) ->
  handshake_loop fuel C (e, mkSock (map Ok (ds1 ++ ds3)) [] z) = (Ok tt, (s4, mkSock [] [] (z ++ F2))).
Proof.
  induction ds1 as [|d ds1 IH]; intros ds3 fuel e z Ne1 Ne3 E3 Lf Hi.
  - destruct Hi as (_ & N & _). contradiction N. reflexivity.
  - assert (Nd : d <> []) by (apply Ne1; left; reflexivity). destruct fuel as [|fuel]; [cbn in Lf; lia|].
    destruct (inside_calm _ _ _ _ _ St1 Hi) as (P & _). cbn [app map concat length] in *. destruct (concat ds1) as [|b rest] eqn:Ec.
    + assert (ds1 = []) by (destruct ds1 as [|d1 ds1]; [reflexivity|]; exfalso; cbn in Ec; apply app_eq_nil in Ec; apply (Ne1 d1); [cbn; auto | tauto]).
      subst ds1. rewrite app_nil_r in Hi. pose proof (inside_end _ _ _ _ _ St1 Hi) as R. rewrite R1 in R.
      rewrite (loop_turn fuel d _ e z s2 P Nd R), Fs2, Os2. cbn [app]. apply server_loop; [exact Ne3 | cbn [app] in Lf; lia|].
      rewrite E3. apply sa_wait. apply inside_start. exact St3.
    + destruct (inside_more _ _ _ _ _ _ St1 Hi Nd) as (x & R & I'); [discriminate|]. destruct (inside_calm _ _ _ _ _ St1 I') as (_ & Ef & Eo).
      rewrite (loop_turn fuel d _ e z x P Nd R), Ef, Eo, app_nil_r. apply IH; [|exact Ne3 | exact E3 | lia | exact I'].
      intros d' Hd. apply Ne1. right. exact Hd.
Qed.
Lemma loops_all ds1 ds2 ds3 : cut F1 ds1 -> cut F2 ds2 -> cut F3 ds3 ->
  (forall fuel z, (length ds2 < fuel)%nat -> handshake_loop fuel C (W, mkSock (map Ok ds2) [] z) = (Ok tt, (fl c3, mkSock [] [] (z ++ F3)))) /\
  (forall fuel, (length (ds1 ++ ds3) < fuel)%nat -> handshake_loop fuel C (V, mkSock (map Ok (ds1 ++ ds3)) [] []) = (Ok tt, (s4, mkSock [] [] F2))).
Proof.
  intros [K1 N1] [K2 N2] [K3 N3]. split.
  - intros fuel z Lf. destruct (client_loop ds2 fuel W [] z N2 Lf) as (late & E1 & E2).
    { rewrite K2, EF2. apply ca_most with (p := []); [apply at_start; exact OW | reflexivity]. }
    cbn [app] in E1. subst late. exact E2.
  - intros fuel Lf. apply (hello_loop ds1 ds3 fuel V []); try assumption. rewrite K1. apply inside_start. exact St1.
Qed.
Definition net_both : Prop :=
  (forall n w, net_run C n (mkNet W V F1 []) w ->
  (n <= length F1 + length F2 + length F3)%nat /\ (forall r w', net_step C w r w' -> r = Ok tt) /\
  (net_done w \/ exists w', net_step C w (Ok tt) w') /\ (net_done w -> w = mkNet (fl c3) s4 [] [])) /\
  (forall ds1 ds2 ds3, cut F1 ds1 -> cut F2 ds2 -> cut F3 ds3 ->
  (forall fuel z, (length ds2 < fuel)%nat -> handshake_loop fuel C (W, mkSock (map Ok ds2) [] z) = (Ok tt, (fl c3, mkSock [] [] (z ++ F3)))) /\
  (forall fuel, (length (ds1 ++ ds3) < fuel)%nat -> handshake_loop fuel C (V, mkSock (map Ok (ds1 ++ ds3)) [] []) = (Ok tt, (s4, mkSock [] [] F2)))).
Lemma net_both_holds : net_both.
Proof. split; [exact net_all | exact loops_all]. Qed.
End network.
