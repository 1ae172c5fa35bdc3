(* C57: when read returns the empty string. *)
From Verif Require Import Base P_Base Iana Crypto Config Cipher Conn Wrapper S_Hist S_Conn P_Monad P_Frame P_Rec P_Hist P_Buf P_Heed.

Section eof.
Variable C : crypto.
Lemma guarded_est c b c' : established (c_state c) = true -> guarded C (receive_one C) c = (Ok b, c') -> established (c_state c') = true.
Proof.
  intros O H. unfold guarded in H. destruct (receive_one C c) as [[b1|e] c1] eqn:E1.
  2:{ destruct (fail C _ c1) as [[]]; discriminate H. }
  injection H; intros <- <-. unfold receive_one, bind at 1 in E1.
  pose proof (reading_content C c) as Rd. destruct (read_next_content C c) as [[rc|e] c2]; [|discriminate E1]. cbn [snd] in Rd.
  apply reading_state in Rd. destruct rc as [[ct d]|].
  - pose proof (handle_est C ct d c2) as K. unfold bind in E1. destruct (handle_content C ct d c2) as [[[]|e] c3]; [|discriminate E1].
    injection E1; intros <- _. cbn [snd] in K. apply K. rewrite Rd. exact O.
  - injection E1; intros <- _. rewrite Rd. exact O.
Qed.
Lemma loops_est c x : loops C c x -> established (c_state c) = true -> fst x = Ok tt -> established (c_state (snd x)) = true.
Proof.
  induction 1 as [c c1 H|c e c1 H|c c1 x H L IH]; intros O E; [|discriminate E|].
  - cbn [snd]. eapply guarded_est; eassumption.
  - apply IH; [eapply guarded_est; eassumption | exact E].
Qed.
Lemma recv_est p c c' : established (c_state c) = true -> receive_data C p c = (Ok tt, c') -> established (c_state c') = true.
Proof.
  intros O H. destruct p as [|b p]; [discriminate H|].
  destruct (receive_data_loops C (b :: p) c) as ([[[]|e] c1] & L & X1 & X2); [discriminate | | |].
  - destruct (c_state c); try discriminate O; try reflexivity. destruct can_recv; [reflexivity | discriminate O].
  - rewrite H in X1. cbn [snd] in X1. subst c1. apply (loops_est _ _ L); [exact O | reflexivity].
  - specialize (X2 e eq_refl). rewrite H in X2. discriminate X2.
Qed.
Lemma est_conn c : is_connected c = established (c_state c).
Proof. unfold is_connected, established. destruct (c_state c) as [ | | | | | | | | | | |[] w| ]; reflexivity. Qed.
Lemma turn_est p c k c' k' : established (c_state c) = true -> turn C p (c, k) = (Ok tt, (c', k')) ->
  established (c_state c') = true /\ sk_recv k' = sk_recv k.
Proof.
  intros O H. unfold turn, wfinally, on_conn in H. cbn [fst snd] in H. destruct (receive_data C p c) as [r c1] eqn:E.
  unfold flush, wbind, on_conn, data_to_send, bind, get, modify, ret, sock_send, wret in H. cbn [fst snd] in H.
  destruct (c_out c1); cbn [is_nil fst snd] in H; [|destruct (sk_accept k)]; injection H; intros <- <- ->;
  (split; [exact (recv_est p c c1 O E) | reflexivity]).
Qed.
Lemma loop_eof n : forall c k c' k', established (c_state c) = true -> read_loop n C [] (c, k) = (Ok [], (c', k')) ->
  (exists w, c_state c' = Closed false w) /\ exists l, sk_recv k = l ++ Ok [] :: sk_recv k'.
Proof.
  induction n as [|n IH]; intros c k c' k' O H; cbn [read_loop fst] in H; rewrite est_conn, O in H; cbn [andb is_nil] in H; [discriminate H|].
  unfold wbind at 1, sock_recv in H. cbn [snd fst] in H. destruct (sk_recv k) as [|[p|e] l] eqn:Ek; try discriminate H.
  destruct p as [|b p]; cbn [is_nil] in H.
  - unfold wbind, on_conn in H. cbn [fst snd] in H. destruct (close_receiving_end C c) as [r c1] eqn:Ec.
    assert (K : r = Ok tt /\ exists w, c_state c1 = Closed false w).
    { unfold close_receiving_end in Ec. rewrite bind_get in Ec.
      assert (P : is_post_handshake c = true) by (unfold is_post_handshake, established in *; destruct (c_state c); (reflexivity || discriminate O)).
      rewrite P in Ec. cbn [negb] in Ec. destruct (c_state c) eqn:Es; try discriminate O; injection Ec; intros <- <-; (split; [reflexivity | eexists; reflexivity]). }
    destruct K as (-> & w & Es).
    destruct n; cbn [read_loop fst] in H; rewrite est_conn, Es in H; cbn [established andb] in H; injection H; intros <- <-; (split; [eauto | exists []; reflexivity]).
  - unfold wbind at 1 in H. destruct (turn C (b :: p) (c, mkSock l (sk_accept k) (sk_sent k))) as [[[]|e] [c1 k1]] eqn:Et; [|discriminate H].
    destruct (turn_est _ _ _ _ _ O Et) as [O1 Ek1]. cbn [sk_recv] in Ek1.
    change (wbind (on_conn data_to_read) ?f (c1, ?x)) with (f (c_app c1) (cset_app [] c1, x)) in H. cbv beta in H. cbn [app] in H.
    destruct (c_app c1) as [|y z].
    + apply IH in H; [|exact O1]. destruct H as (X & l' & Y). rewrite Ek1 in Y. split; [exact X|]. exists (Ok (b :: p) :: l'). rewrite Y. reflexivity.
    + destruct n; cbn [read_loop is_nil] in H; rewrite andb_false_r in H; discriminate H.
Qed.
Lemma read_eof c k c' k' : is_connected c = true -> wread C (c, k) = (Ok [], (c', k')) ->
  (exists w, c_state c' = Closed false w) /\ exists l, sk_recv k = l ++ Ok [] :: sk_recv k'.
Proof.
  intros O H. rewrite est_conn in O. unfold wread in H.
  change (wbind (on_conn data_to_read) ?f (c, ?x)) with (f (c_app c) (cset_app [] c, x)) in H. cbv beta in H.
  destruct (c_app c) as [|y z].
  - apply loop_eof in H; [exact H | exact O].
  - cbn [read_loop is_nil] in H. rewrite andb_false_r in H. discriminate H.
Qed.
End eof.
