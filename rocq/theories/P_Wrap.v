(* The wrapped socket. *)
From Verif Require Import Base P_Base Iana Crypto Config Conn S_Hist S_Conn Wrapper S_Wrap P_Monad P_Rec P_Send P_Hist P_Frame P_Buf.

Section wrap.
Variable C : crypto.
Lemma run_app a b c : run C (a ++ b) c = run C b (run C a c).
Proof. revert c. induction a as [|o a IH]; intro c; [reflexivity|]. cbn. apply IH. Qed.
Lemma flushed_app a b c : flushed C (a ++ b) c = flushed C a c ++ flushed C b (run C a c).
Proof. revert c. induction a as [|o a IH]; intro c; [reflexivity|]. cbn [app flushed run]. rewrite IH, app_assoc. reflexivity. Qed.

(* [P] tells what the output may be at the start and at the end *)
Definition tells {A} (P : conn -> Prop) (m : W A) (Q : res A -> conn -> Prop) : Prop :=
  forall c k r c' k', sk_accept k = [] -> P c -> m (c, k) = (r, (c', k')) ->
  exists ops, c' = run C ops c /\ sk_accept k' = [] /\ sk_sent k' = sk_sent k ++ flushed C ops c /\ Q r c'.
Lemma t_mono {A} (P : conn -> Prop) (m : W A) (Q Q' : res A -> conn -> Prop) : tells P m Q -> (forall r c, Q r c -> Q' r c) -> tells P m Q'.
Proof. intros T K c k r c' k' A0 B0 E. destruct (T c k r c' k' A0 B0 E) as (ops & X1 & X2 & X3 & X4). exists ops. auto. Qed.
Lemma t_ret {A} (P : conn -> Prop) (a : A) : tells P (wret a) (fun _ => P).
Proof. intros c k r c' k' A0 B0 E. injection E; intros <- <- <-. exists []. cbn. rewrite app_nil_r. auto. Qed.
Lemma t_bind {A B} (P : conn -> Prop) (m : W A) (f : A -> W B) Qm Q : tells P m Qm -> (forall a, tells (Qm (Ok a)) (f a) Q) ->
  (forall e c, Qm (Err e) c -> Q (Err e) c) -> tells P (wbind m f) Q.
Proof.
  intros T1 T2 TE c k r c' k' A0 B0 E. unfold wbind in E. destruct (m (c, k)) as [[a|e] [c1 k1]] eqn:Em.
  - destruct (T1 _ _ _ _ _ A0 B0 Em) as (o1 & X1 & X2 & X3 & X4). destruct (T2 a _ _ _ _ _ X2 X4 E) as (o2 & Y1 & Y2 & Y3 & Y4).
    exists (o1 ++ o2). rewrite run_app, flushed_app, app_assoc, <- X1, <- X3. auto.
  - injection E; intros <- <- <-. destruct (T1 _ _ _ _ _ A0 B0 Em) as (o1 & X1 & X2 & X3 & X4). exists o1. auto.
Qed.
Lemma t_finally {A} (P : conn -> Prop) (m : W A) (f : W unit) Qm Q : tells P m Qm -> (forall r, tells (Qm r) f (fun r' c => match r' with Ok _ => Q r c | Err e => Q (Err e) c end)) ->
  tells P (wfinally m f) Q.
Proof.
  intros T1 T2 c k r c' k' A0 B0 E. unfold wfinally in E. destruct (m (c, k)) as [r1 [c1 k1]] eqn:Em.
  destruct (T1 _ _ _ _ _ A0 B0 Em) as (o1 & X1 & X2 & X3 & X4).
  destruct (f (c1, k1)) as [r2 [c2 k2]] eqn:Ef. destruct (T2 r1 _ _ _ _ _ X2 X4 Ef) as (o2 & Y1 & Y2 & Y3 & Y4).
  exists (o1 ++ o2). rewrite run_app, flushed_app, app_assoc, <- X1, <- X3. destruct r2; injection E; intros <- <- <-; auto.
Qed.
Lemma t_op {A} (P : conn -> Prop) (m : M A) o (Q : res A -> conn -> Prop) : o <> OFlush -> (forall c, snd (m c) = after C o c) ->
  (forall c, P c -> Q (fst (m c)) (snd (m c))) -> tells P (on_conn m) Q.
Proof.
  intros No S K c k r c' k' A0 B0 E. unfold on_conn in E. cbn [fst snd] in E. specialize (S c). specialize (K c B0). destruct (m c) as [r1 c1].
  cbn [fst snd] in *. injection E; intros <- <- <-. exists [o]. cbn [run flushed]. rewrite S.
  destruct o; try contradiction; cbn [app]; rewrite app_nil_r; (split; [reflexivity|]; split; [exact A0|]; split; [reflexivity|]; rewrite <- S; exact K).
Qed.
Lemma t_recv (P : conn -> Prop) : tells P sock_recv (fun _ => P).
Proof.
  intros c k r c' k' A0 B0 E. unfold sock_recv in E. cbn [snd fst] in E. destruct (sk_recv k); injection E; intros <- <- <-; exists [];
  cbn [flushed run sk_accept sk_sent]; rewrite app_nil_r; auto.
Qed.
Definition dry (c : conn) : Prop := c_out c = [].
Lemma t_send (P : conn -> Prop) : tells P (dow out <- on_conn data_to_send; sock_send out) (fun _ => dry).
Proof.
  intros c k r c' k' A0 B0 E. unfold wbind, on_conn, sock_send in E. cbn in E. rewrite A0 in E. injection E; intros <- <- <-. exists [OFlush].
  cbn. rewrite app_nil_r. unfold dry. auto.
Qed.
Lemma t_flush (P : conn -> Prop) : tells P flush (fun r c => r = Ok tt /\ dry c).
Proof.
  intros c k r c' k' A0 B0 E. unfold flush, wbind, on_conn in E. cbn [data_to_send bind get modify ret fst snd] in E. cbn in E.
  exists [OFlush]. cbn [run flushed]. change (after C OFlush c) with (cset_out [] c). change (returned C OFlush c) with (c_out c).
  destruct (c_out c) eqn:Eo; cbn in E; unfold wret, sock_send in E; cbn [fst snd] in E.
  - injection E; intros <- <- <-. cbn. rewrite app_nil_r. unfold dry. auto.
  - rewrite A0 in E. injection E; intros <- <- <-. cbn. rewrite app_nil_r. unfold dry. auto.
Qed.
Lemma snd_after_unit (m : M unit) c : snd (bind m (fun _ => ret (@nil byte)) c) = snd (m c).
Proof. unfold bind, ret. destruct (m c) as [[]]; reflexivity. Qed.
Lemma t_unit (P : conn -> Prop) (m : M unit) o (Q : res unit -> conn -> Prop) : o <> OFlush -> step C o = bind m (fun _ => ret []) ->
  (forall c, P c -> Q (fst (m c)) (snd (m c))) -> tells P (on_conn m) Q.
Proof. intros No S K. eapply t_op; [exact No | | exact K]. intro c. unfold after. rewrite S, snd_after_unit. reflexivity. Qed.
Lemma t_fun {A} (P : conn -> Prop) (m : conn * sock -> W A) Q : (forall s, tells P (m s) Q) -> tells P (fun s => m s s) Q.
Proof. intros T c k r c' k' A0 B0 E. exact (T (c, k) c k r c' k' A0 B0 E). Qed.

Lemma close_r_dry c : dry c -> dry (snd (close_receiving_end C c)).
Proof.
  intro D. unfold close_receiving_end. rewrite bind_get. destruct (negb _); [exact D|]. destruct (c_state c); exact D.
Qed.
Lemma t_turn input : tells dry (wfinally (on_conn (receive_data C input)) flush) (fun _ => dry).
Proof.
  eapply t_finally with (Qm := fun _ _ => True).
  - eapply t_unit with (o := ORecv input); [discriminate | reflexivity | intros; exact Logic.I].
  - intro r. eapply t_mono; [apply t_flush|]. intros r' c [-> D]. exact D.
Qed.
Lemma t_loop fuel : tells dry (handshake_loop fuel C) (fun _ => dry).
Proof.
  induction fuel as [|fuel IH]; cbn [handshake_loop]; apply (t_fun dry (fun s => if is_post_handshake (fst s) then _ else _)); intro s;
  destruct (is_post_handshake (fst s)); try apply t_ret.
  - intros c k r c' k' A0 B0 E. injection E; intros <- <- <-. exists []. cbn. rewrite app_nil_r. auto.
  - eapply t_bind; [apply t_recv | | intros; assumption]. intro input. eapply t_bind with (Qm := fun _ => dry); [| intros; apply IH | intros; assumption].
    destruct (is_nil input); [|apply t_turn].
    eapply t_unit with (o := OCloseR); [discriminate | reflexivity | intros; apply close_r_dry; assumption].
Qed.
Lemma t_read_loop fuel data : tells dry (read_loop fuel C data) (fun _ => dry).
Proof.
  revert data. induction fuel as [|fuel IH]; intro data; cbn [read_loop]; apply (t_fun dry (fun s => if is_connected (fst s) && is_nil data then _ else _)); intro s;
  destruct (is_connected (fst s) && is_nil data); try apply t_ret.
  - intros c k r c' k' A0 B0 E. injection E; intros <- <- <-. exists []. cbn. rewrite app_nil_r. auto.
  - eapply t_bind; [apply t_recv | | intros; assumption]. intro input. destruct (is_nil input).
    + eapply t_bind with (Qm := fun _ => dry); [| intros; apply IH | intros; assumption].
      eapply t_unit with (o := OCloseR); [discriminate | reflexivity | intros; apply close_r_dry; assumption].
    + eapply t_bind with (Qm := fun _ => dry); [apply t_turn | | intros; assumption]. intro a.
      eapply t_bind with (Qm := fun _ => dry); [| intros; apply IH | intros; assumption].
      eapply t_op with (o := ORead); [discriminate | reflexivity | intros c D; exact D].
Qed.
Lemma t_hands {A} (m : W A) Q : tells dry m Q -> (forall a c, Q (Ok a) c -> dry c) -> hands_over C m.
Proof.
  intros T D c k r c' k' A0 B0 E. destruct (T _ _ _ _ _ A0 B0 E) as (ops & X1 & X2 & X3 & X4).
  destruct (drained_out C ops c) as (e & E1 & E2). exists ops, e. split; [exact X1|]. split; [exact E1|]. split.
  - rewrite X3, <- app_assoc, X1, E2, B0. reflexivity.
  - intros a ->. eapply D. exact X4.
Qed.
Lemma hand_write data : hands_over C (wwrite C data).
Proof.
  eapply t_hands with (Q := fun r c => forall a, r = Ok a -> dry c).
  - unfold wwrite. eapply t_bind with (Qm := fun _ _ => True).
    + eapply t_unit with (o := OSend data); [discriminate | reflexivity | intros; exact Logic.I].
    + intros _. eapply t_mono; [apply t_send|]. intros r c D a _. exact D.
    + intros e c _ a E. discriminate E.
  - intros a c K. eapply K. reflexivity.
Qed.
Lemma hand_close : hands_over C (wclose C).
Proof.
  eapply t_hands with (Q := fun r c => forall a, r = Ok a -> dry c).
  - unfold wclose. eapply t_bind with (Qm := fun _ _ => True).
    + eapply t_unit with (o := OCloseS); [discriminate | reflexivity | intros; exact Logic.I].
    + intros _. eapply t_mono; [apply t_flush|]. intros r c [_ D] a _. exact D.
    + intros e c _ a E. discriminate E.
  - intros a c K. eapply K. reflexivity.
Qed.
Lemma hand_read : hands_over C (wread C).
Proof.
  eapply t_hands with (Q := fun _ => dry); [|auto]. unfold wread. eapply t_bind with (Qm := fun _ => dry).
  - eapply t_op with (o := ORead); [discriminate | reflexivity | intros c D; exact D].
  - intro data. apply (t_fun dry (fun s => read_loop (S (length (sk_recv (snd s)))) C data)). intro s. apply t_read_loop.
  - auto.
Qed.
Definition sideR (a b : conn) : Prop := g_side (c_config b) = g_side (c_config a).
Lemma sideR_stable : stable C sideR.
Proof.
  assert (P : preorder sideR) by (split; unfold sideR; intros; congruence).
  apply make_stable; try exact P; try (intros; reflexivity).
  - intros exts. unfold client_neg_mfl. reli P; apply (rel_upd_nc _ P); intros; reflexivity.
  - intros exts. unfold server_neg_mfl. reli P; apply (rel_upd_nc _ P); intros; reflexivity.
  - intros k c. pose proof (sending_content C k c) as (E & _). rewrite E. reflexivity.
Qed.
Lemma hand_handshake c k r c' k' : g_side (c_config c) = Client \/ c_state c = ServerStart ->
  sk_accept k = [] -> c_out c = [] -> do_handshake C (c, k) = (r, (c', k')) ->
  exists ops e, c' = run C ops c /\ emits C ops c e /\ sk_sent k' ++ c_out c' = sk_sent k ++ e /\
    forall a, r = Ok a -> c_out c' = [].
Proof.
  intros K A0 B0 E.
  assert (T : tells (fun c => dry c /\ (g_side (c_config c) = Client \/ c_state c = ServerStart)) (do_handshake C) (fun r c => forall a, r = Ok a -> dry c)).
  { unfold do_handshake. eapply t_bind with (Qm := fun r c => g_side (c_config c) = Client \/ dry c).
    - eapply t_unit with (o := OInit); [discriminate | reflexivity|]. intros x [D [S|S]].
      + left. rewrite <- S. apply (stable_initiate_connection C _ sideR_stable).
      + right. unfold initiate_connection. rewrite bind_get, S. exact D.
    - intros _. eapply t_bind with (Qm := fun r c => dry c).
      + intros x y r0 x' y' A1 B1 E1. destruct (g_side (c_config (fst (x, y)))) eqn:S in E1; cbn [fst] in S.
        * exact (t_send (fun _ => True) x y r0 x' y' A1 Logic.I E1).
        * destruct B1 as [B1|B1]; [congruence|]. exact (t_ret dry tt x y r0 x' y' A1 B1 E1).
      + intros _. eapply t_mono.
        * apply (t_fun dry (fun s => handshake_loop (S (length (sk_recv (snd s)))) C)). intro s. apply t_loop.
        * intros r0 x D a _. exact D.
      + intros e x D a X. discriminate X.
    - intros e x _ a X. discriminate X. }
  destruct (T _ _ _ _ _ A0 (conj B0 K) E) as (ops & X1 & X2 & X3 & X4).
  destruct (drained_out C ops c) as (e & E1 & E2). exists ops, e. split; [exact X1|]. split; [exact E1|]. split.
  - rewrite X3, <- app_assoc, X1, E2, B0. reflexivity.
  - exact X4.
Qed.
End wrap.
Lemma write_short C c data n : c_out c = [] -> fst (send_data C data c) = Ok tt ->
  (n <? blen (c_out (after C (OSend data) c))) = true ->
  exists c' k' e, wwrite C data (c, mkSock [] [n] []) = (Ok tt, (c', k')) /\ emits C [OSend data; OFlush] c e /\ c_out c' = [] /\
    blen (sk_sent k') < blen e.
Proof.
  intros O F L. unfold wwrite, wbind, on_conn. cbn [fst snd].
  assert (A : after C (OSend data) c = snd (send_data C data c)).
  { unfold after. cbn [step]. apply snd_after_unit. }
  destruct (send_data C data c) as [r c1] eqn:E. cbn [fst snd] in F, A. subst r. cbn. rewrite A in L. apply N.ltb_lt in L.
  exists (cset_out [] c1), (mkSock [] [] (btake n (c_out c1))), (c_out c1 ++ []). split; [reflexivity|]. split.
  { apply emits_cons; [discriminate | |].
    - rewrite A, O. reflexivity.
    - apply emits_flush, emits_nil. }
  split; [reflexivity|]. cbn. rewrite app_nil_r, blen_btake; lia.
Qed.
