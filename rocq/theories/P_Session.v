From Verif Require Import Base P_Base Iana Crypto Config Ext Msg Cipher Conn Wrapper S_Hist S_Conn S_Send S_Nonce S_Alert S_Utils S_Keys S_Auth S_Server S_Codec S_Deliver S_Agree S_Integrity S_Entire S_Heed S_Session
  P_Wrap P_Entire P_Entire2 P_Entire3 P_Heed P_Heed2.

Section session.
Variable C : crypto.
Definition mild (o : op) : Prop := match o with OSend _ | OCloseS => False | _ => True end.
Definition acts {A} (m : W A) (Q : res A -> bytes -> Prop) : Prop :=
  forall c k r c' k', m (c, k) = (r, (c', k')) ->
  exists ops, c' = run C ops c /\ Forall mild ops /\ Q r (readout C ops c) /\ heeded C ops c /\ (forall a, r = Ok a -> calm C ops c).
Lemma calm_heeded l : forall c, calm C l c -> heeded C l c.
Proof.
  induction l as [|o l IH]; intros c H; [exact H|]. destruct H as [H1 H2]. split; [|apply IH; exact H2].
  destruct o; try exact Logic.I. intros e He. rewrite H1 in He. discriminate He.
Qed.
Lemma calm_app l m : forall c, calm C l c -> calm C m (run C l c) -> calm C (l ++ m) c.
Proof. induction l as [|o l IH]; intros c H K; [exact K|]. destruct H as [H1 H2]. split; [exact H1 | apply IH; assumption]. Qed.
Lemma heeded_app l m : forall c, calm C l c -> heeded C m (run C l c) -> heeded C (l ++ m) c.
Proof.
  induction l as [|o l IH]; intros c H K; [exact K|]. destruct H as [H1 H2]. split; [|apply IH; assumption].
  destruct o; try exact Logic.I. intros e He. rewrite H1 in He. discriminate He.
Qed.
Lemma silent_calm m : silent_after m -> forall c, calm C m c.
Proof.
  induction m as [|o m IH]; intros S c; [exact Logic.I|]. split; [|apply IH; eapply silent_tail; exact S].
  destruct o; try exact Logic.I. destruct (S d (or_introl eq_refl)).
Qed.
Lemma heeded_silent l m : silent_after m -> forall c, heeded C l c -> heeded C (l ++ m) c.
Proof.
  intro S. induction l as [|o l IH]; intros c H; [apply calm_heeded, silent_calm; exact S|]. destruct H as [H1 H2]. split; [|apply IH; exact H2].
  destruct o; try exact Logic.I. intros e He d' I. apply in_app_or in I. destruct I as [I|I]; [exact (H1 e He d' I) | exact (S d' I)].
Qed.
Lemma readout_app l m : forall c, readout C (l ++ m) c = readout C l c ++ readout C m (run C l c).
Proof. induction l as [|o l IH]; intro c; [reflexivity|]. cbn [app readout run]. rewrite IH, app_assoc. reflexivity. Qed.
Lemma written_app l m : forall c, written C (l ++ m) c = written C l c ++ written C m (run C l c).
Proof. induction l as [|o l IH]; intro c; [reflexivity|]. cbn [app written run]. rewrite IH, app_assoc. reflexivity. Qed.
Lemma since_app l m : forall c, written_since C (l ++ m) c = written_since C l c ++ written_since C m (run C l c).
Proof. induction l as [|o l IH]; intro c; [reflexivity|]. cbn [app written_since run]. rewrite IH, app_assoc. reflexivity. Qed.
Lemma mild_written ops : Forall mild ops -> forall c, written C ops c = [] /\ written_since C ops c = [].
Proof. induction 1 as [|o ops H _ IH]; intro c; [split; reflexivity|]. cbn [written written_since]. destruct (IH (after C o c)) as [-> ->]. destruct o; (contradiction || split; reflexivity). Qed.
Lemma mild_close ops : Forall mild ops -> ~ In OCloseS ops.
Proof. intros F I. rewrite Forall_forall in F. exact (F _ I). Qed.

Lemma a_mono {A} (m : W A) (Q Q' : res A -> bytes -> Prop) : acts m Q -> (forall r b, Q r b -> Q' r b) -> acts m Q'.
Proof. intros T K c k r c' k' E. destruct (T c k r c' k' E) as (ops & X1 & X2 & X3 & X4). exists ops. auto. Qed.
Lemma a_none {A} (m : W A) (Q : res A -> bytes -> Prop) : (forall c k r c' k', m (c, k) = (r, (c', k')) -> c' = c /\ Q r []) -> acts m Q.
Proof. intros H c k r c' k' E. destruct (H _ _ _ _ _ E) as [-> X]. exists []. cbn. auto 8. Qed.
Lemma a_ret {A} (a : A) : acts (wret a) (fun r b => r = Ok a /\ b = []).
Proof. apply a_none. intros c k r c' k' E. injection E; intros <- <- <-. auto. Qed.
Lemma a_bind {A B} (m : W A) (f : A -> W B) Qm Q : acts m Qm ->
  (forall a b, Qm (Ok a) b -> acts (f a) (fun r b' => Q r (b ++ b'))) -> (forall e b, Qm (Err e) b -> Q (Err e) b) -> acts (wbind m f) Q.
Proof.
  intros T1 T2 TE c k r c' k' E. unfold wbind in E. destruct (m (c, k)) as [[a|e] [c1 k1]] eqn:Em.
  - destruct (T1 _ _ _ _ _ Em) as (o1 & X1 & X2 & X3 & X4 & X5). destruct (T2 a _ X3 _ _ _ _ _ E) as (o2 & Y1 & Y2 & Y3 & Y4 & Y5).
    exists (o1 ++ o2). rewrite run_app, readout_app, <- X1. split; [exact Y1|]. split; [apply Forall_app; split; assumption|]. split; [exact Y3|].
    specialize (X5 a eq_refl). rewrite X1 in Y4, Y5. split; [apply heeded_app; assumption|]. intros b Eb. apply calm_app; [exact X5 | apply (Y5 b Eb)].
  - injection E; intros <- <- <-. destruct (T1 _ _ _ _ _ Em) as (o1 & X1 & X2 & X3 & X4 & X5). exists o1. repeat (split; [assumption|]).
    split; [apply TE; exact X3|]. split; [exact X4|]. intros b Eb. discriminate Eb.
Qed.
Lemma a_fun {A} (m : conn * sock -> W A) Q : (forall s, acts (m s) Q) -> acts (fun s => m s s) Q.
Proof. intros T c k r c' k' E. exact (T (c, k) c k r c' k' E). Qed.
Lemma a_op {A} (m : M A) o (Q : res A -> bytes -> Prop) : mild o -> (forall c, snd (m c) = after C o c) ->
  (forall c a, fst (m c) = Ok a -> calm C [o] c) -> (forall c, Q (fst (m c)) (readout C [o] c)) -> acts (on_conn m) Q.
Proof.
  intros No S Cl K c k r c' k' E. unfold on_conn in E. cbn [fst snd] in E. specialize (S c). specialize (K c). specialize (Cl c). destruct (m c) as [r1 c1].
  cbn [fst snd] in *. injection E; intros <- <- <-. exists [o]. split; [exact S|]. split; [constructor; [exact No | constructor]|]. split; [exact K|].
  split; [|exact Cl]. split; [|exact Logic.I]. destruct o; try exact Logic.I. intros e _ d' [].
Qed.
Lemma a_unit (m : M unit) o : mild o -> o <> ORead -> step C o = bind m (fun _ => ret []) -> acts (on_conn m) (fun _ b => b = []).
Proof.
  intros No Nr S. apply (a_op m o); [exact No | | |].
  - intro c. unfold after. rewrite S, snd_after_unit. reflexivity.
  - intros c a Ea. split; [|exact Logic.I]. destruct o; try exact Logic.I.
    assert (Ef : fst (step C (ORecv d) c) = fst (bind m (fun _ => ret []) c)) by (rewrite S; reflexivity).
    cbn [step] in Ef. unfold bind, ret in Ef. destruct (m c) as [[[]|e] c1]; [|discriminate Ea].
    destruct (receive_data C d c) as [[[]|e] c2]; [reflexivity | discriminate Ef].
  - intro c. cbn [readout]. destruct o; try reflexivity. contradiction.
Qed.
Lemma a_read : acts (on_conn data_to_read) (fun r b => r = Ok b).
Proof. apply (a_op data_to_read ORead); [exact Logic.I | reflexivity | cbn; auto |]. intro c. cbn [readout]. rewrite app_nil_r. reflexivity. Qed.
Lemma a_recv : acts sock_recv (fun _ b => b = []).
Proof. apply a_none. intros c k r c' k' E. unfold sock_recv in E. cbn [fst snd] in E. destruct (sk_recv k); injection E; intros <- <- <-; auto. Qed.
Lemma a_send out : acts (sock_send out) (fun _ b => b = []).
Proof. apply a_none. intros c k r c' k' E. unfold sock_send in E. cbn [fst snd] in E. destruct (sk_accept k); injection E; intros <- <- <-; auto. Qed.
Lemma a_out : acts (on_conn data_to_send) (fun _ b => b = []).
Proof. apply (a_op data_to_send OFlush); [exact Logic.I | reflexivity | cbn; auto | reflexivity]. Qed.
Lemma a_nil {A B} (m : W A) (f : A -> W B) Q : acts m (fun _ b => b = []) -> (forall a, acts (f a) Q) -> (forall e, Q (Err e) []) -> acts (wbind m f) Q.
Proof. intros T1 T2 TE. eapply a_bind; [exact T1 | |]; [intros a b -> ; apply T2 | intros e b ->; apply TE]. Qed.
Lemma a_flush : acts flush (fun _ b => b = []).
Proof.
  unfold flush. apply a_nil; [exact a_out | | reflexivity]. intro out. destruct (is_nil out); [|apply a_send].
  eapply a_mono; [apply a_ret|]. intros r b [_ H]. exact H.
Qed.
Lemma flush_ops c k r c' k' : flush (c, k) = (r, (c', k')) ->
  exists ops, c' = run C ops c /\ Forall mild ops /\ readout C ops c = [] /\ silent_after ops.
Proof.
  intro E. exists [OFlush]. unfold flush, wbind, on_conn, data_to_send, bind, get, modify, ret in E. cbn [fst snd] in E.
  assert (c' = cset_out [] c) as ->.
  { destruct (is_nil _) in E; [unfold wret in E; congruence|]. unfold sock_send in E. cbn [fst snd] in E. destruct (sk_accept k); congruence. }
  split; [reflexivity|]. split; [repeat constructor|]. split; [reflexivity|]. intros d [H|[]]. discriminate H.
Qed.
Lemma a_turn input : acts (turn C input) (fun _ b => b = []).
Proof.
  intros c k r c' k' E. unfold turn, wfinally in E. destruct (on_conn (receive_data C input) (c, k)) as [r1 [c1 k1]] eqn:E1.
  destruct (a_unit (receive_data C input) (ORecv input) Logic.I) with (c := c) (k := k) (r := r1) (c' := c1) (k' := k1) as (o1 & X1 & X2 & X3 & X4 & X5); try exact E1; [discriminate | reflexivity|].
  destruct (flush (c1, k1)) as [r2 [c2 k2]] eqn:E2. destruct (flush_ops _ _ _ _ _ E2) as (o2 & Y1 & Y2 & Y3 & Y4).
  exists (o1 ++ o2). rewrite run_app, readout_app, X3, <- X1. cbn [app].
  assert (c' = c2) as -> by (destruct r2; congruence).
  split; [exact Y1|]. split; [apply Forall_app; split; assumption|]. split; [exact Y3|].
  split; [apply heeded_silent; assumption|]. intros a Ea. apply calm_app; [|apply silent_calm; exact Y4].
  destruct r1 as [u|e]; [exact (X5 u eq_refl)|]. destruct r2; congruence.
Qed.
Lemma a_close_r : acts (on_conn (close_receiving_end C)) (fun _ b => b = []).
Proof. apply (a_unit _ OCloseR); [exact Logic.I | discriminate | reflexivity]. Qed.
Lemma a_loop fuel : acts (handshake_loop fuel C) (fun _ b => b = []).
Proof.
  induction fuel as [|fuel IH]; cbn [handshake_loop]; apply (a_fun (fun s => if is_post_handshake (fst s) then _ else _)); intro s;
  destruct (is_post_handshake (fst s)); try (eapply a_mono; [apply a_ret | intros r b [_ H]; exact H]).
  - apply a_none. intros c k r c' k' E. injection E; intros <- <- <-. auto.
  - apply a_nil; [exact a_recv | | reflexivity]. intro input. apply a_nil; [| intro; exact IH | reflexivity].
    destruct (is_nil input); [exact a_close_r | apply a_turn].
Qed.
Lemma a_handshake : acts (do_handshake C) (fun _ b => b = []).
Proof.
  unfold do_handshake. apply a_nil; [apply (a_unit _ OInit); [exact Logic.I | discriminate | reflexivity] | | reflexivity]. intros _.
  apply a_nil; [| intros _; apply (a_fun (fun s => handshake_loop (S (length (sk_recv (snd s)))) C)); intro; apply a_loop | reflexivity].
  apply (a_fun (fun s => match g_side (c_config (fst s)) with Client => _ | Server => _ end)). intro s. destruct (g_side _).
  - apply a_nil; [exact a_out | intro; apply a_send | reflexivity].
  - eapply a_mono; [apply a_ret | intros r b [_ H]; exact H].
Qed.
Definition got (data : bytes) (r : res bytes) (b : bytes) : Prop := match r with Ok d => d = data ++ b | Err _ => b = [] /\ data = [] end.
Lemma a_read_loop fuel : forall data, acts (read_loop fuel C data) (got data).
Proof.
  induction fuel as [|fuel IH]; intro data; cbn [read_loop]; apply (a_fun (fun s => if is_connected (fst s) && is_nil data then _ else _)); intro s;
  destruct (is_connected (fst s)); cbn [andb]; try (eapply a_mono; [apply a_ret | intros r b [-> ->]; cbn; rewrite app_nil_r; reflexivity]);
  destruct data as [|x data]; cbn [is_nil]; try (eapply a_mono; [apply a_ret | intros r b [-> ->]; cbn; rewrite app_nil_r; reflexivity]).
  - apply a_none. intros c k r c' k' E. injection E; intros <- <- <-. cbn. auto.
  - apply a_nil; [exact a_recv | | split; reflexivity]. intro input. destruct (is_nil input).
    + apply a_nil; [exact a_close_r | intro; apply IH | split; reflexivity].
    + apply a_nil; [apply a_turn | | split; reflexivity]. intros _. eapply a_bind; [exact a_read | | intros e b H; discriminate H].
      intros a b H. injection H; intros ->. cbn [app]. eapply a_mono; [apply IH|]. intros r b' G. destruct r; cbn in *; [exact G|].
      destruct G as [-> ->]. auto.
Qed.
Lemma a_wread : acts (wread C) (got []).
Proof.
  unfold wread. eapply a_bind; [exact a_read | | intros e b H; discriminate H]. intros a b H. injection H; intros ->.
  apply (a_fun (fun s => read_loop (S (length (sk_recv (snd s)))) C b)). intro s. eapply a_mono; [apply a_read_loop|].
  intros r b' G. destruct r; cbn in *; [exact G|]. destruct G as [-> ->]. auto.
Qed.

(* every call is a piece of history *)
Lemma call_ops w c k r c' k' : call C w (c, k) = (r, (c', k')) ->
  exists ops, c' = run C ops c /\ readout C ops c = (match w with CRead => match r with Ok d => d | Err _ => [] end | _ => [] end) /\
    written C ops c = (match w with CWrite d => if can_send_app (c_state c) then d else [] | _ => [] end) /\
    (w <> CClose -> ~ In OCloseS ops) /\ (match w with CHandshake | CRead => Forall mild ops | _ => True end) /\
    heeded C ops c /\ (if listens w then forall a, r = Ok a -> calm C ops c else silent_after ops).
Proof.
  intro E. destruct w; cbn [call] in E.
  - assert (acts (do_handshake C ;;; wret (@nil byte)) (fun _ b => b = [])) as A.
    { apply a_nil; [exact a_handshake | intro; eapply a_mono; [apply a_ret | intros r0 b [_ H]; exact H] | reflexivity]. }
    destruct (A _ _ _ _ _ E) as (ops & X1 & X2 & X3 & X4). exists ops. split; [exact X1|]. split; [exact X3|]. split; [apply mild_written; exact X2|].
    split; [intros _; apply mild_close; exact X2|]. split; [exact X2 | exact X4].
  - destruct (a_wread _ _ _ _ _ E) as (ops & X1 & X2 & X3 & X4). exists ops. split; [exact X1|]. split; [destruct r; cbn in X3; [congruence | tauto]|].
    split; [apply mild_written; exact X2|]. split; [intros _; apply mild_close; exact X2|]. split; [exact X2 | exact X4].
  - assert (So : silent_after [OSend d; OFlush] /\ silent_after [OSend d]) by (split; intros d' H; repeat (destruct H as [H|H]; [discriminate H|]); destruct H).
    destruct So as [So1 So2]. unfold wwrite, wbind, on_conn in E. cbn [fst snd] in E.
    assert (Sa : snd (send_data C d c) = after C (OSend d) c) by (unfold after; cbn [step]; rewrite snd_after_unit; reflexivity).
    destruct (send_data C d c) as [[[]|e] c1]; cbn [snd] in Sa.
    + exists [OSend d; OFlush]. cbn [data_to_send bind get modify ret fst snd] in E. cbn [run readout written].
      assert (c' = cset_out [] c1) as ->.
      { unfold sock_send in E. cbn in E. destruct (sk_accept k); cbn in E; unfold wret in E; congruence. }
      rewrite <- Sa. split; [reflexivity|]. split; [reflexivity|]. split; [rewrite !app_nil_r; reflexivity|].
      split; [intros _ [H|[H|[]]]; discriminate H|]. split; [exact Logic.I|]. split; [apply calm_heeded, silent_calm; exact So1 | exact So1].
    + exists [OSend d]. cbn [run readout written]. assert (c' = c1) as -> by congruence. rewrite <- Sa.
      split; [reflexivity|]. split; [reflexivity|]. split; [rewrite !app_nil_r; reflexivity|]. split; [intros _ [H|[]]; discriminate H|]. split; [exact Logic.I|]. split; [apply calm_heeded, silent_calm; exact So2 | exact So2].
  - unfold wclose, wbind, on_conn in E. cbn [fst snd] in E.
    assert (Sa : snd (close_sending_end C c) = after C OCloseS c) by (unfold after; cbn [step]; rewrite snd_after_unit; reflexivity).
    destruct (close_sending_end C c) as [[[]|e] c1]; cbn [snd] in Sa.
    + destruct (flush (c1, k)) as [r1 [c2 k2]] eqn:Ef. destruct (flush_ops _ _ _ _ _ Ef) as (ops & X1 & X2 & X3 & X4).
      assert (So : silent_after (OCloseS :: ops)) by (intros d' [H|H]; [discriminate H | exact (X4 d' H)]).
      exists (OCloseS :: ops). cbn [run readout written]. rewrite <- Sa.
      assert (c' = c2) as -> by (destruct r1; unfold wret in E; congruence).
      split; [exact X1|]. split; [exact X3|]. split; [apply mild_written; exact X2|]. split; [intro H; contradiction|]. split; [exact Logic.I|].
      split; [apply (calm_heeded (OCloseS :: ops)), silent_calm; exact So | exact So].
    + exists [OCloseS]. cbn [run readout written]. rewrite <- Sa. split; [congruence|]. split; [reflexivity|]. split; [reflexivity|].
      split; [intro H; contradiction|]. split; [exact Logic.I|]. split; [cbn; auto|]. intros d' [H|[]]. discriminate H.
Qed.
Lemma session_ops l : forall s, exists ops, fst (session C l s) = run C ops (fst s) /\ readout C ops (fst s) = reads C l s /\
  written C ops (fst s) = writes C l s /\ (~ In CClose l -> ~ In OCloseS ops) /\
  (prudent C l s -> heeded C ops (fst s)) /\ ((forall w, In w l -> listens w = false) -> silent_after ops).
Proof.
  induction l as [|w l IH]; intros [c k].
  - exists []. split; [reflexivity|]. split; [reflexivity|]. split; [reflexivity|]. split; [intros _ []|]. split; [intros _; exact Logic.I|]. intros _ d [].
  - cbn [session reads writes]. destruct (call C w (c, k)) as [r [c1 k1]] eqn:E. cbn [fst snd].
    destruct (call_ops w c k r c1 k1 E) as (o1 & X1 & X2 & X3 & X4 & _ & X5 & X6). destruct (IH (c1, k1)) as (o2 & Y1 & Y2 & Y3 & Y4 & Y5 & Y6). cbn [fst] in *.
    exists (o1 ++ o2). rewrite run_app, readout_app, written_app, <- X1. split; [exact Y1|]. split; [rewrite X2, Y2; reflexivity|]. split; [rewrite X3, Y3; reflexivity|].
    split; [|split].
    2: { cbn [prudent]. rewrite E. cbn [fst snd]. intros [P1 P2]. specialize (Y5 P2). rewrite X1 in Y5.
         destruct (listens w) eqn:Lw; [|apply heeded_app; [apply silent_calm; exact X6 | exact Y5]].
         destruct r as [a|e]; [apply heeded_app; [exact (X6 a eq_refl) | exact Y5]|].
         apply heeded_silent; [exact (Y6 (P1 eq_refl e eq_refl)) | exact X5]. }
    2: { intros L d I. rewrite (L w (or_introl eq_refl)) in X6. apply in_app_or in I. destruct I as [I|I]; [exact (X6 d I)|].
         exact (Y6 (fun w' I' => L w' (or_intror I')) d I). }
    intros N I. apply in_app_or in I. destruct I as [I|I].
    + apply X4 in I; [destruct I|]. intros ->. apply N. left. reflexivity.
    + apply Y4 in I; [destruct I|]. intro H. apply N. right. exact H.
Qed.
End session.

Section Wrapped.
Variable C : crypto.
Hypothesis As : aead_sized C.
Hypothesis Hs : hmac_sized C.
Hypothesis Hh : hash_sized C.
Variables (gc gs : config) (c0 s0 : conn) (kc ks : sock) (lc ls : list wcall) (sd : bytes).
Hypothesis Gc : g_side gc = Client.
Hypothesis Gs : g_side gs = Server.
Hypothesis Zc : created gc c0.
Hypothesis Zs : created gs s0.
Hypothesis Os : own_random s0.
Let wc := snd (call C CHandshake (c0, kc)).
Let ws := snd (call C CHandshake (s0, ks)).
Hypothesis Sc : c_state (fst wc) = Connected.
Hypothesis Ss : c_state (fst ws) = Connected.
Hypothesis Fc : few (fst wc).
Hypothesis Fs : few (fst ws).
Hypothesis Al : Forall (Forall (fun b => 32 <= bN b <= 126)) (g_alpn gc).
Hypothesis Hf : host_fine C (c_host (fst wc)).
Hypothesis Dh : dh_commutes C (c_rng (fst wc)) (c_rng (fst ws)).
Hypothesis Ic : In (SFin sd) (c_hs (fst wc)).
Hypothesis Is : In (SFin sd) (c_hs (fst ws)).
Lemma handshake_ops c k : exists ops, fst (snd (call C CHandshake (c, k))) = run C ops c /\ readout C ops c = [] /\ written C ops c = [] /\ written_since C ops c = [] /\
  (fst (call C CHandshake (c, k)) = Ok [] -> calm C ops c).
Proof.
  destruct (call C CHandshake (c, k)) as [r [c' k']] eqn:E. destruct (call_ops C _ _ _ _ _ _ E) as (ops & X1 & X2 & X3 & _ & X5 & X6 & X7).
  exists ops. split; [exact X1|]. split; [exact X2|]. split; [exact X3|]. split; [apply mild_written; exact X5|].
  exact (X7 []).
Qed.
Lemma wrapped_server : unforgeable C (fst wc) (c_log (fst (session C lc wc))) -> ~ In CClose ls -> few (fst (session C ls ws)) ->
  prefix (reads C ls ws) (writes C lc wc) \/ finished_clash C (fst wc) (fst ws) \/ digest_mixup C gc (fst wc) (fst ws).
Proof.
  intros Un No F.
  destruct (handshake_ops c0 kc) as (oc & X1 & X2 & X3 & X4 & X5). destruct (handshake_ops s0 ks) as (os & Y1 & Y2 & Y3 & Y4 & Y5). fold wc in X1. fold ws in Y1.
  destruct (session_ops C lc wc) as (mc & P1 & P2 & P3 & P4 & P5 & P6). destruct (session_ops C ls ws) as (ms & Q1 & Q2 & Q3 & Q4 & Q5 & Q6).
  rewrite P1 in Un. rewrite Q1 in F. rewrite X1 in *. rewrite Y1 in *.
  destruct (final_server C As Hs Hh gc gs c0 s0 oc os mc ms sd) as [H|H]; try assumption; [apply Q4; exact No | left | right; exact H].
  rewrite readout_app, written_app, X3, Y2, P3, Q2 in H. exact H.
Qed.
Lemma wrapped_client : unforgeable C (fst ws) (c_log (fst (session C ls ws))) -> ~ In CClose lc -> few (fst (session C lc wc)) ->
  prefix (reads C lc wc) (writes C ls ws) \/ finished_clash C (fst wc) (fst ws) \/ digest_mixup C gc (fst wc) (fst ws).
Proof.
  intros Un No F.
  destruct (handshake_ops c0 kc) as (oc & X1 & X2 & X3 & X4 & X5). destruct (handshake_ops s0 ks) as (os & Y1 & Y2 & Y3 & Y4 & Y5). fold wc in X1. fold ws in Y1.
  destruct (session_ops C lc wc) as (mc & P1 & P2 & P3 & P4 & P5 & P6). destruct (session_ops C ls ws) as (ms & Q1 & Q2 & Q3 & Q4 & Q5 & Q6).
  rewrite Q1 in Un. rewrite P1 in F. rewrite X1 in *. rewrite Y1 in *.
  destruct (final_keys C As Hs Hh gc gs c0 s0 oc os sd) as [[_ K]|K]; try assumption; [|right; exact K].
  destruct (final_client C As Hs Hh gc gs c0 s0 oc os mc ms sd) as [H|H]; try assumption; [apply P4; exact No | left | right; exact H].
  rewrite readout_app, since_app, X2, Y4, P2 in H. destruct K as (x & _ & _ & _ & Ex & _).
  rewrite (post_written C x ms), Q3 in H; [exact H|]. split; [exists x; split; [exact Ex | apply same_keys_refl] | unfold is_post_handshake; rewrite Ss; reflexivity].
Qed.
Lemma prudent_server : unforgeable C (fst wc) (c_log (fst (session C lc wc))) ->
  fst (call C CHandshake (s0, ks)) = Ok [] -> prudent C ls ws ->
  prefix (reads C ls ws) (writes C lc wc) \/ finished_clash C (fst wc) (fst ws) \/ digest_mixup C gc (fst wc) (fst ws).
Proof.
  intros Un Ok Pr.
  destruct (handshake_ops c0 kc) as (oc & X1 & X2 & X3 & X4 & X5). destruct (handshake_ops s0 ks) as (os & Y1 & Y2 & Y3 & Y4 & Y5). fold wc in X1. fold ws in Y1.
  destruct (session_ops C lc wc) as (mc & P1 & P2 & P3 & P4 & P5 & P6). destruct (session_ops C ls ws) as (ms & Q1 & Q2 & Q3 & Q4 & Q5 & Q6).
  assert (Hd : heeded C (os ++ ms) s0) by (apply heeded_app; [exact (Y5 Ok) | rewrite <- Y1; exact (Q5 Pr)]).
  rewrite P1 in Un. rewrite X1 in *. rewrite Y1 in *.
  destruct (heed_server C As Hs Hh gc gs c0 s0 oc os mc ms sd) as [H|H]; try assumption; [left | right; exact H].
  rewrite readout_app, written_app, X3, Y2, P3, Q2 in H. cbn [app] in H. eapply prefix_trans; [|exact H]. eexists. reflexivity.
Qed.
Lemma prudent_client : unforgeable C (fst ws) (c_log (fst (session C ls ws))) ->
  fst (call C CHandshake (c0, kc)) = Ok [] -> prudent C lc wc ->
  prefix (reads C lc wc) (writes C ls ws) \/ finished_clash C (fst wc) (fst ws) \/ digest_mixup C gc (fst wc) (fst ws).
Proof.
  intros Un Ok Pr.
  destruct (handshake_ops c0 kc) as (oc & X1 & X2 & X3 & X4 & X5). destruct (handshake_ops s0 ks) as (os & Y1 & Y2 & Y3 & Y4 & Y5). fold wc in X1. fold ws in Y1.
  destruct (session_ops C lc wc) as (mc & P1 & P2 & P3 & P4 & P5 & P6). destruct (session_ops C ls ws) as (ms & Q1 & Q2 & Q3 & Q4 & Q5 & Q6).
  assert (Hd : heeded C (oc ++ mc) c0) by (apply heeded_app; [exact (X5 Ok) | rewrite <- X1; exact (P5 Pr)]).
  rewrite Q1 in Un. rewrite X1 in *. rewrite Y1 in *.
  destruct (final_keys C As Hs Hh gc gs c0 s0 oc os sd) as [[_ K]|K]; try assumption; [|right; exact K].
  destruct (heed_client C As Hs Hh gc gs c0 s0 oc os mc ms sd) as [H|H]; try assumption; [left | right; exact H].
  rewrite readout_app, since_app, X2, Y4, P2 in H. destruct K as (x & _ & _ & _ & Ex & _).
  rewrite (post_written C x ms), Q3 in H; [|split; [exists x; split; [exact Ex | apply same_keys_refl] | unfold is_post_handshake; rewrite Ss; reflexivity]].
  cbn [app] in H. eapply prefix_trans; [|exact H]. eexists. reflexivity.
Qed.
End Wrapped.
