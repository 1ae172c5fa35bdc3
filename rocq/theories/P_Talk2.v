(* The pieces in which two wrapped sockets receive a whole conversation. *)
From Verif Require Import Base Iana Crypto Config Ext Msg Cipher Conn S_Hist S_Conn S_Send S_Deliver S_Split S_State S_Honest Wrapper S_Net P_Base P_Monad P_Hist P_Frame P_Nonce P_Rec P_Split P_Deliver P_Pieces P_Buf P_State P_Mute P_Honest P_Honest10 P_Honest12 P_Net P_Net2 P_Net3.

(* what follows the last message of a flight is treated after it *)
Lemma coalesce C e p x q : one_left C p e -> 1 <= max_frag e -> p <> [] -> q <> [] -> can_receive (c_state e) = true ->
  receive_data C p e = (Ok tt, x) -> can_receive (c_state x) = true -> receive_data C (p ++ q) e = receive_data C q x.
Proof.
  intros (m & z & E & Ez) M Np Nq R Rx Cx. pose proof (loop_terminates C _ (ext q x) (le_n _)) as L.
  rewrite (receive_loops C q x _ Nq Cx L). apply receive_loops; [destruct p; [congruence | discriminate] | exact R |].
  apply receive_inv in Rx.
  assert (G : guarded C (receive_one C) (ext p e) = (Ok true, x)).
  { assert (U : guarded C (receive_one C) (ext p e) = match handle_content C (fst m) (snd m) z with (Ok _, y) => (Ok true, y) | (Err er, y) => guarded C (raise er) y end).
    { unfold guarded, receive_one, bind, raise, ret. rewrite E. destruct m as [ct data]. cbn [fst snd]. destruct (handle_content C ct data z) as [[[]|er] z1]; reflexivity. }
    pose proof (handle_in C (fst m) (snd m) z) as Hi.
    inversion Rx as [c0 c1 H H1 H2 | | c0 c1 x0 H H' H1 H2]; subst.
    - rewrite U in H. destruct (handle_content C (fst m) (snd m) z) as [[[]|er] z1]; [discriminate|].
      unfold guarded, raise in H. destruct (fail C _ z1) as [[[]|e2] z2]; discriminate.
    - rewrite H. f_equal. rewrite U in H. destruct (handle_content C (fst m) (snd m) z) as [[[]|er] z1].
      + cbn [snd] in Hi. assert (z1 = c1) by congruence. subst z1. rewrite Ez in Hi. pose proof (read_empty C c1 Hi) as S. 
        pose proof (loops_fun _ _ _ H' _ (loops_stop C c1 c1 S)). congruence.
      + unfold guarded, raise in H. destruct (fail C _ z1) as [[[]|e2] z2]; discriminate. }
  destruct (one_ext C (ext p e) q _ _ M G) as [G1 _]. rewrite ext_app in G1. eapply loops_more; [apply G1; discriminate | exact L].
Qed.

(* [t] has received the first bytes of [q], which [s] had to receive; [ds] are the pieces left *)
Definition begun (C : crypto) (s : conn) (q : bytes) (ds : list bytes) (t : conn) : Prop :=
  t = s /\ concat ds = q \/ exists p, p <> [] /\ q = p ++ concat ds /\ receive_data C p s = (Ok tt, t).

Section server.
Variables (C : crypto) (V S3 s2 s4 : conn) (F1 F2 F3 q : bytes) (l : list (res bytes)).
Hypothesis St1 : stands C V F1.
Hypothesis R1 : receive_data C F1 V = (Ok tt, s2).
Hypothesis Os2 : c_out s2 = F2.
Hypothesis Fs2 : fl s2 = S3.
Hypothesis St3 : stands C S3 F3.
Hypothesis R3 : receive_data C F3 S3 = (Ok tt, s4).
Hypothesis Os4 : c_out s4 = [].
Hypothesis P4 : is_post_handshake s4 = true.
Hypothesis L4 : can_receive (c_state s4) = true.
Hypothesis Q4 : forall p r, p <> [] -> q = p ++ r -> exists x, receive_data C p s4 = (Ok tt, x) /\ c_out x = [] /\ is_post_handshake x = true.

Lemma finish_pieces : forall ds fuel e rest z, (forall d, In d ds -> d <> []) -> (length ds < fuel)%nat -> inside C S3 F3 e rest ->
  concat ds = rest ++ q ->
  exists ds' t, handshake_loop fuel C (e, mkSock (map Ok ds ++ l) [] z) = (Ok tt, (t, mkSock (map Ok ds' ++ l) [] z)) /\
    begun C s4 q ds' t /\ (forall d, In d ds' -> d <> []).
Proof.
  induction ds as [|d ds IH]; intros fuel e rest z Ne Lf I Ec.
  - destruct I as (_ & N & _). destruct rest; [contradiction N; reflexivity | discriminate].
  - assert (Nd : d <> []) by (apply Ne; left; reflexivity). destruct fuel as [|fuel]; [cbn in Lf; lia|].
    destruct (inside_calm _ _ _ _ _ St3 I) as (P & _). cbn [map app]. cbn [concat] in Ec.
    assert (Ne' : forall d', In d' ds -> d' <> []) by (intros; apply Ne; right; assumption).
    destruct (cut_at _ _ _ _ Ec) as [(r & -> & Er)|(p & -> & Np & Eq)].
    + destruct r as [|b r].
      * rewrite app_nil_r in I. pose proof (inside_end _ _ _ _ _ St3 I) as R. rewrite R3 in R.
        rewrite (loop_turn C fuel d _ e z s4 P Nd R), (fl_id _ Os4), Os4, app_nil_r, (loop_stop C fuel s4 _ P4).
        exists ds, s4. split; [reflexivity|]. split; [left; split; [reflexivity | exact Er] | exact Ne'].
      * destruct (inside_more _ _ _ _ _ _ St3 I Nd) as (x & R & I'); [discriminate|]. destruct (inside_calm _ _ _ _ _ St3 I') as (_ & Ef & Eo).
        rewrite (loop_turn C fuel d _ e z x P Nd R), Ef, Eo, app_nil_r. apply (IH fuel x (b :: r)); try assumption. cbn [length] in Lf. lia.
    + pose proof (inside_left _ _ _ _ _ St3 I) as Lf3. pose proof (inside_end _ _ _ _ _ St3 I) as R. rewrite R3 in R.
      destruct I as ((A1 & A2 & A3 & A4) & Nr & _). destruct (Q4 p (concat ds) Np Eq) as (x & Rx & Ox & Px).
      assert (Rd : receive_data C (rest ++ p) e = (Ok tt, x)).
      { rewrite <- Rx. apply coalesce; try assumption; [rewrite A3; exact (st_mfl _ _ _ St3) | rewrite A1; exact (st_recv _ _ _ St3)]. }
      rewrite (loop_turn C fuel (rest ++ p) _ e z x P Nd Rd), (fl_id _ Ox), Ox, app_nil_r, (loop_stop C fuel x _ Px).
      exists ds, x. split; [reflexivity|]. split; [right; exists p; auto | exact Ne'].
Qed.
Lemma hello_pieces : forall ds1 ds fuel e z, (forall d, In d ds1 -> d <> []) -> (forall d, In d ds -> d <> []) -> concat ds = F3 ++ q ->
  (length (ds1 ++ ds) < fuel)%nat -> inside C V F1 e (concat ds1) ->
  exists ds' t, handshake_loop fuel C (e, mkSock (map Ok (ds1 ++ ds) ++ l) [] z) = (Ok tt, (t, mkSock (map Ok ds' ++ l) [] (z ++ F2))) /\
    begun C s4 q ds' t /\ (forall d, In d ds' -> d <> []).
Proof.
  induction ds1 as [|d ds1 IH]; intros ds fuel e z Ne1 Ne3 E3 Lf Hi.
  - destruct Hi as (_ & N & _). contradiction N. reflexivity.
  - assert (Nd : d <> []) by (apply Ne1; left; reflexivity). destruct fuel as [|fuel]; [cbn in Lf; lia|].
    destruct (inside_calm _ _ _ _ _ St1 Hi) as (P & _). cbn [app map concat length] in *. destruct (concat ds1) as [|b rest] eqn:Ec.
    + assert (ds1 = []) by (destruct ds1 as [|d1 ds1]; [reflexivity|]; exfalso; cbn in Ec; apply app_eq_nil in Ec; apply (Ne1 d1); [cbn; auto | tauto]).
      subst ds1. rewrite app_nil_r in Hi. pose proof (inside_end _ _ _ _ _ St1 Hi) as R. rewrite R1 in R.
      rewrite (loop_turn C fuel d _ e z s2 P Nd R), Fs2, Os2. cbn [app]. apply (finish_pieces ds fuel S3 F3); [exact Ne3 | cbn [app] in Lf; lia | | exact E3].
      apply inside_start. exact St3.
    + destruct (inside_more _ _ _ _ _ _ St1 Hi Nd) as (x & R & I'); [discriminate|]. destruct (inside_calm _ _ _ _ _ St1 I') as (_ & Ef & Eo).
      rewrite (loop_turn C fuel d _ e z x P Nd R), Ef, Eo, app_nil_r. apply IH; [|exact Ne3 | exact E3 | lia | exact I'].
      intros d' Hd. apply Ne1. right. exact Hd.
Qed.
End server.

(* more to receive than the handshake takes *)
Lemma loop_local C l : forall fuel c k r c' k', handshake_loop fuel C (c, k) = (Ok r, (c', k')) -> forall fuel', (fuel <= fuel')%nat ->
  handshake_loop fuel' C (c, mkSock (sk_recv k ++ l) (sk_accept k) (sk_sent k)) = (Ok r, (c', mkSock (sk_recv k' ++ l) (sk_accept k') (sk_sent k'))).
Proof.
  induction fuel as [|fuel IH]; intros c k r c' k' E fuel' L; destruct (is_post_handshake c) eqn:P.
  - rewrite loop_stop in E |- * by exact P. injection E as <- <- <-. reflexivity.
  - cbn [handshake_loop fst] in E. rewrite P in E. discriminate.
  - rewrite loop_stop in E |- * by exact P. injection E as <- <- <-. reflexivity.
  - destruct fuel' as [|fuel']; [lia|]. cbn [handshake_loop fst] in E |- *. rewrite P in E |- *. unfold wbind, sock_recv in E |- *. cbn [snd fst sk_recv sk_accept sk_sent] in E |- *.
    destruct (sk_recv k) as [|i rs] eqn:Ek; [discriminate|]. cbn [app]. destruct i as [i|e]; [|discriminate].
    assert (T : exists o c1 a1 s1, forall rs, (if is_nil i then on_conn (close_receiving_end C) else turn C i) (c, mkSock rs (sk_accept k) (sk_sent k)) = (o, (c1, mkSock rs a1 s1))).
    { destruct (is_nil i).
      - unfold on_conn. cbn [fst snd]. destruct (close_receiving_end C c) as [o c1]. repeat eexists.
      - unfold turn, wfinally, on_conn, flush, wbind, sock_send, wret. cbn [fst snd]. destruct (receive_data C i c) as [o c1]. unfold on_conn. cbn [fst snd].
        destruct (data_to_send c1) as [[out|e] c2]; [|repeat eexists]. destruct (is_nil out); [repeat eexists|]. cbn [fst snd sk_accept sk_recv sk_sent].
        destruct (sk_accept k) as [|n a]; repeat eexists. }
    destruct T as (o & c1 & a1 & s1 & T). rewrite T in E |- *. destruct o as [[]|e]; [|discriminate].
    apply (IH c1 (mkSock rs a1 s1) r c' k' E fuel'). lia.
Qed.
