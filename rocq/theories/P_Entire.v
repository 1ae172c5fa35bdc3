(* The moment at which a connection becomes connected, and what it has read and
   written before. *)
From Verif Require Import Base P_Base Iana Crypto Config Serial Ext Msg Hkdf Cipher Kex Sig Ocsp Transcript Conn
  S_Hist S_Conn S_State S_Send S_Nonce S_Alert S_Keys S_Auth S_Deliver S_Integrity S_Entire
  P_Monad P_Frame P_Rec P_Send P_Nonce P_Pieces P_Alert P_Buf P_Hist P_Wire P_Wp P_State P_Auth P_Count P_Integ P_Integ2 P_Integ3 P_Integ4.
Require Import Coq.Relations.Relation_Operators.

(* a direction of which nothing was used yet *)
Definition unused (suite : N) (d : dir) : Prop :=
  exists k iv lim, d_key d = Some k /\ d_iv d = Some iv /\ usage_limit suite = Some lim /\ d_seq d = Some (mkSeq 0 lim).
Definition fresh (c : conn) : Prop :=
  c_state c = Connected /\ exists x, c_cipher c = Some x /\ unused (cs_suite x) (cs_w x) /\ unused (cs_suite x) (cs_r x).

Lemma install_unused s k iv d d' : install s k iv d = (Ok tt, d') -> unused s d'.
Proof.
  unfold install. destruct (usage_limit s) as [lim|] eqn:E; [|discriminate].
  intro H. injection H; intros <-. exists k, (of_bytes iv), lim. repeat split; assumption.
Qed.
Lemma install_both_unused ck civ sk siv x x' : install_both ck civ sk siv x = (Ok tt, x') ->
  cs_suite x' = cs_suite x /\ unused (cs_suite x') (cs_w x') /\ unused (cs_suite x') (cs_r x').
Proof.
  unfold install_both. intro H.
  destruct (cs_side x).
  all: match type of H with context [install ?s ?k ?iv ?d] => destruct (install s k iv d) as [[[]|?] w] eqn:Ew end; [|discriminate].
  all: cbv zeta in H; match type of H with context [install ?s ?k ?iv ?d] => destruct (install s k iv d) as [[[]|?] r] eqn:Er end; [|discriminate].
  all: injection H; intros <-; (split; [reflexivity|]); split; eapply install_unused; eassumption.
Qed.
Lemma msk_unused C a b x v x' : derive_master_secrets C a b x = (Ok v, x') ->
  unused (cs_suite x') (cs_w x') /\ unused (cs_suite x') (cs_r x').
Proof.
  unfold derive_master_secrets. destruct (negb _); [discriminate|].
  destruct (derive_ap _ _ _ _ _) as [s|]; [|discriminate].
  destruct (install_both _ _ _ _ x) as [[[]|e] x1] eqn:E; [|discriminate]. intro H. injection H; intros <- _.
  apply install_both_unused in E. destruct E as (_ & E). exact E.
Qed.

Definition connects (r : res unit) (c' : conn) : Prop := c_state c' = Connected -> r = Ok tt /\ fresh c'.
Lemma base_connects k c : c_state c <> Connected -> wp (base_process k) c connects.
Proof. intro H. unfold base_process, connects. wrun; try (intro E; destruct (H E)). intro E. discriminate E. Qed.
Lemma client_connects C m h k c : c_state c = ClientWaitFinished m h -> wp (process_client_finished C m h k) c connects.
Proof.
  intro S. assert (N : c_state c <> Connected) by (rewrite S; discriminate). unfold process_client_finished.
  destruct k as [| |[]| |]; try (apply base_connects; exact N).
  wrun; try (intro E; destruct (N E)). apply wpb_send. intros [[]|e] oc0 t0 hs0 lg0 o0 _ _ _; [|intro E; destruct (N E)].
  wrun; try (intro E; destruct (N E)).
  apply wpb_on_cipher; [intros _ E; destruct (N E)|]. intros y r y' _ D. destruct r as [v|]; [|intro E; destruct (N E)]. wrun.
  intros _. split; [reflexivity|]. split; [reflexivity|]. exists y'. split; [reflexivity|]. eapply msk_unused. exact D.
Qed.
Lemma server_connects C h k c : c_state c = ServerWaitFinished h -> wp (process_server_finished C h k) c connects.
Proof.
  intro S. assert (N : c_state c <> Connected) by (rewrite S; discriminate). unfold process_server_finished.
  destruct k as [| |[]| |]; try (apply base_connects; exact N).
  wrun; try (intro E; destruct (N E)).
  apply wpb_on_cipher; [intros _ E; destruct (N E)|]. intros y r y' _ D. destruct r as [v|]; [|intro E; destruct (N E)]. wrun.
  intros _. split; [reflexivity|]. split; [reflexivity|]. exists y'. split; [reflexivity|]. eapply msk_unused. exact D.
Qed.

(* the other states are not left for Connected *)
Definition outR (p q : phase) : Prop := p <> PConnected -> q <> PConnected.
Lemma outR_trans p q r : outR p q -> outR q r -> outR p r.
Proof. unfold outR. auto. Qed.
Lemma outR_edge p q : edge p q -> q <> PConnected -> outR p q.
Proof. intros _ H _. exact H. Qed.
Lemma phase_connected s : phase_of s = PConnected -> s = Connected.
Proof. destruct s; cbn; congruence. Qed.
Lemma stay_out c c' : outR (phase_of (c_state c)) (phase_of (c_state c')) -> c_state c <> Connected -> c_state c' <> Connected.
Proof.
  intros H N E. apply (H (fun K => N (phase_connected _ K))). rewrite E. reflexivity.
Qed.
Lemma process_connects C k c : in_handshake (c_state c) = true -> wp (process C k) c connects.
Proof.
  intro Hs. destruct (last_wait (c_state c)) eqn:L.
  - unfold process. wstep. destruct (c_state c) eqn:S; try discriminate L; [apply client_connects | apply server_connects]; exact S.
  - assert (N : c_state c <> Connected) by (intro E; rewrite E in Hs; discriminate).
    assert (W : wp (process C k) c (fun _ c' => outR (phase_of (c_state c)) (phase_of (c_state c')))).
    { apply (p_process C outR outR_trans outR_edge (phase_of (c_state c))); [rewrite L; discriminate | exact (fun H => H)]. }
    eapply wp_mono; [exact W|]. intros r c' H E. destruct (stay_out c c' H N E).
Qed.
Lemma handle_connects C ct d c : in_handshake (c_state c) = true -> wp (handle_content C ct d) c connects.
Proof.
  intro Hs. assert (N : c_state c <> Connected) by (intro E; rewrite E in Hs; discriminate).
  unfold handle_content. wrun; try (intro E; destruct (N E)); try (apply process_connects; exact Hs).
Qed.
Lemma fail_out C a c : c_state c <> Connected -> c_state (snd (fail C a c)) <> Connected.
Proof. apply stay_out. apply (p_fail C outR outR_trans outR_edge). exact (fun H => H). Qed.
Lemma handle_hs_app C ct d c : in_handshake (c_state c) = true -> c_app (snd (handle_content C ct d c)) = c_app c.
Proof.
  intro H. rewrite handle_app. unfold delivered. replace (established (c_state c)) with false by (destruct (c_state c); try discriminate H; reflexivity).
  apply app_nil_r.
Qed.
Lemma guarded_connects C c : in_handshake (c_state c) = true -> c_app c = [] ->
  c_app (snd (guarded C (receive_one C) c)) = [] /\
  (c_state (snd (guarded C (receive_one C) c)) = Connected -> fresh (snd (guarded C (receive_one C) c))).
Proof.
  intros Hs Ha. unfold guarded, receive_one. unfold bind at 1 3 5.
  destruct (read_next_content C c) as [rc c1] eqn:E2.
  pose proof (reading_content C c) as Rd. rewrite E2 in Rd. cbn [snd] in Rd.
  pose proof (read_content_app C c rc c1 E2) as Ap. pose proof (reading_state _ _ Rd) as St.
  rewrite Ha in Ap. rewrite <- St in Hs.
  assert (N : c_state c1 <> Connected) by (intro E; rewrite E in Hs; discriminate).
  assert (F : forall (e : exn) c2, c_app c2 = [] -> c_state c2 <> Connected ->
    let x := match fail C (Some match alert_of e with Some code => code | None => INTERNAL_ERROR end) c2 with
             | (Ok _, c2) => (Err e : res bool, c2)
             | (Err e2, c2) => (Err e2, c2)
             end in c_app (snd x) = [] /\ (c_state (snd x) = Connected -> fresh (snd x))).
  { intros e c2 A2 N2. cbv zeta. set (al := Some _). pose proof (fail_app C al c2) as FA. pose proof (fail_out C al c2 N2) as FO.
    destruct (fail C al c2) as [[]]; cbn [snd] in *; (split; [congruence | intro E; destruct (FO E)]). }
  destruct rc as [[[ct d]|]|e]; [| |apply F; assumption].
  2: { split; [exact Ap | intro E; destruct (N E)]. }
  pose proof (handle_connects C ct d c1 Hs) as W. unfold wp, connects in W. pose proof (handle_hs_app C ct d c1 Hs) as A2. rewrite Ap in A2.
  unfold bind. destruct (handle_content C ct d c1) as [[[]|e] c2]; cbn [fst snd] in *.
  - split; [exact A2|]. intro E. apply W. exact E.
  - apply F; [exact A2|]. intro E. destruct (W E) as [X _]. discriminate X.
Qed.

(* [c2] comes out of the receive loop entered with [c1] *)
Definition later (C : crypto) (c1 c2 : conn) : Prop := c2 = c1 \/ exists x, loops C c1 x /\ c2 = snd x.
Lemma guarded_path C c : path (phase_of (c_state c)) (phase_of (c_state (snd (guarded C (receive_one C) c)))).
Proof.
  unfold guarded, receive_one. unfold bind at 1.
  destruct (read_next_content C c) as [rc c1] eqn:E2.
  pose proof (reading_content C c) as Rd. rewrite E2 in Rd. cbn [snd] in Rd. rewrite <- (reading_state _ _ Rd).
  assert (F : forall (e : exn) c2, path (phase_of (c_state c1)) (phase_of (c_state c2)) -> path (phase_of (c_state c1)) (phase_of (c_state (snd
    match fail C (Some match alert_of e with Some code => code | None => INTERNAL_ERROR end) c2 with
             | (Ok _, c2) => (Err e : res bool, c2)
             | (Err e2, c2) => (Err e2, c2)
             end)))).
  { intros e c2 D2. set (al := Some _). pose proof (p_fail C path path_trans path_edge (phase_of (c_state c1)) al c2 D2) as FD. destruct (fail C al c2) as [[]]; exact FD. }
  destruct rc as [[[ct d]|]|e]; [|apply rt_refl|apply F, rt_refl].
  assert (D2 : wp (handle_content C ct d) c1 (fun _ c' => path (phase_of (c_state c1)) (phase_of (c_state c')))).
  { apply (p_handle C path path_trans path_edge); [intros _; split; apply rt_step; constructor | apply rt_refl]. }
  unfold wp in D2. unfold bind. destruct (handle_content C ct d c1) as [[[]|e] c2]; [exact D2 | apply F; exact D2].
Qed.
Lemma loops_path C c x : loops C c x -> path (phase_of (c_state c)) (phase_of (c_state (snd x))).
Proof.
  induction 1 as [c c1 H|c e c1 H|c c1 x H L IH]; pose proof (guarded_path C c) as K; rewrite H in K; cbn [snd] in *; [exact K | exact K|].
  eapply path_trans; eassumption.
Qed.
Lemma loops_done C c x : loops C c x -> done (c_state c) = true -> done (c_state (snd x)) = true.
Proof. intro L. apply done_path. eapply loops_path. exact L. Qed.
Lemma loops_over C c x : loops C c x -> in_handshake (c_state c) = false -> in_handshake (c_state (snd x)) = false.
Proof.
  assert (E : forall s, in_handshake s = handshaking (phase_of s)) by (intros []; reflexivity). rewrite !E.
  intros L. apply path_over. eapply loops_path. exact L.
Qed.
Lemma state_cases s : in_handshake s = true \/ s = Connected \/ done s = true.
Proof. destruct s; auto. Qed.
Lemma loops_connects C c x : loops C c x -> in_handshake (c_state c) = true -> c_app c = [] ->
  c_state (snd x) = Connected -> side_ok c -> exists c1, fresh c1 /\ c_app c1 = [] /\ side_ok c1 /\ later C c1 (snd x).
Proof.
  induction 1 as [c c1 H|c e c1 H|c c1 x H L IH]; intros Hs Ha E Sd;
    destruct (guarded_connects C c Hs Ha) as (A & F); pose proof (guarded_side C c Sd) as S1; rewrite H in A, F, S1; cbn [snd] in *.
  - exists c1. repeat (split; [auto|]). left. reflexivity.
  - exists c1. repeat (split; [auto|]). left. reflexivity.
  - destruct (state_cases (c_state c1)) as [Hc|[Hc|Hc]].
    + apply IH; assumption.
    + exists c1. repeat (split; [auto|]). right. exists x. split; [exact L | reflexivity].
    + apply (loops_done C c1 x L) in Hc. rewrite E in Hc. discriminate Hc.
Qed.
Lemma loops_hs_app C c x : loops C c x -> in_handshake (c_state c) = true -> c_app c = [] ->
  in_handshake (c_state (snd x)) = true -> c_app (snd x) = [].
Proof.
  induction 1 as [c c1 H|c e c1 H|c c1 x H L IH]; intros Hs Ha E;
    destruct (guarded_connects C c Hs Ha) as (A & F); rewrite H in A; cbn [snd] in *; auto.
  destruct (in_handshake (c_state c1)) eqn:Hc; [auto|].
  apply (loops_over C c1 x L) in Hc. congruence.
Qed.

(* one call during the handshake *)
Lemma hs_step C g o c : reachable C g c -> in_handshake (c_state c) = true -> c_app c = [] ->
  c_app (after C o c) = [] /\ in_handshake (c_state (after C o c)) = true \/
  done (c_state (after C o c)) = true \/
  c_state (after C o c) = Connected /\ exists d c1, o = ORecv d /\ fresh c1 /\ c_app c1 = [] /\ side_ok c1 /\ later C c1 (after C o c).
Proof.
  intros R Hs Ha. destruct (state_cases (c_state (after C o c))) as [K|[K|K]]; [left|right; right|right; left; exact K].
  - split; [|exact K]. destruct (op_eq_read o) as [->|Nr]; [reflexivity|].
    destruct o; try (rewrite others_app; [exact Ha | intros; discriminate | exact Nr]).
    unfold after, step in *. rewrite snd_ret in *. destruct d as [|b d]; [exact Ha|].
    destruct (can_receive (c_state c)) eqn:Cr.
    + destruct (receive_data_loops C (b :: d) c ltac:(discriminate) Cr) as (x & L & E1 & _). rewrite E1 in *.
      eapply loops_hs_app; [exact L | exact Hs | exact Ha | exact K].
    + destruct (c_state c); try discriminate.
  - split; [exact K|].
    assert (N : c_state c <> Connected) by (intro E; rewrite E in Hs; discriminate).
    destruct o.
    + exfalso. unfold after, step in K. rewrite snd_ret in K. revert K. apply (stay_out c); [|exact N].
      apply (p_initiate C outR outR_trans outR_edge). exact (fun H => H).
    + exists d. unfold after, step in *. rewrite snd_ret in *. destruct d as [|b d]. { exfalso. exact (N K). }
      destruct (can_receive (c_state c)) eqn:Cr; [|destruct (c_state c); discriminate].
      destruct (receive_data_loops C (b :: d) c ltac:(discriminate) Cr) as (x & L & E1 & _). rewrite E1 in *.
      destruct (loops_connects C _ x L Hs Ha K) as (c1 & F1 & F2 & F3 & F4); [exact (reachable_side C g c R)|].
      exists c1. auto 6.
    + exfalso. unfold after, step in K. rewrite snd_ret in K. unfold send_data in K. rewrite send_state in K. exact (N K).
    + exfalso. exact (N K).
    + exfalso. exact (N K).
    + exfalso. unfold after, step, rekey in K. rewrite snd_ret, bind_get in K. destruct (negb _); exact (N K).
    + exfalso. unfold after, step in K. rewrite snd_ret in K. pose proof (done_close_r C c) as D. rewrite K in D. discriminate D.
    + exfalso. unfold after, step in K. rewrite snd_ret in K. pose proof (done_close_s C c) as D. rewrite K in D. discriminate D.
Qed.
Lemma reachable_step C g c o : reachable C g c -> reachable C g (after C o c).
Proof.
  intros (c0 & l & R & ->). exists c0, (l ++ [o]). split; [exact R|].
  clear. revert c0. induction l as [|a l IH]; intro c0; [reflexivity|]. cbn [app run]. apply IH.
Qed.
Lemma done_run C g ops : forall c, reachable C g c -> done (c_state c) = true -> done (c_state (run C ops c)) = true.
Proof.
  induction ops as [|o ops IH]; intros c R D; [exact D|]. cbn [run]. apply IH; [apply reachable_step; exact R|].
  eapply done_path; [eapply state_path; exact R | exact D].
Qed.

(* a connected endpoint was once fresh; it had read nothing before *)
Lemma connect C g : forall ops c, reachable C g c -> in_handshake (c_state c) = true -> c_app c = [] ->
  c_state (run C ops c) = Connected ->
  exists c1 c2 rest, fresh c1 /\ c_app c1 = [] /\ side_ok c1 /\ later C c1 c2 /\ run C rest c2 = run C ops c /\
    (forall more, readout C (ops ++ more) c = readout C (rest ++ more) c2) /\
    (forall more, written_since C (ops ++ more) c = written_since C (rest ++ more) c2) /\
    in_handshake (c_state c2) = false /\ (forall o, In o rest -> In o ops).
Proof.
  induction ops as [|o ops IH]; intros c R Hs Ha E; cbn [run] in E.
  { rewrite E in Hs. discriminate Hs. }
  assert (Rd : (match o with ORead => returned C o c | _ => [] end) = []).
  { destruct o; try reflexivity. unfold returned, step, data_to_read. rewrite bind_get, bind_modify. exact Ha. }
  assert (Wr : (match o with OSend d => if can_send_app (c_state c) && negb (in_handshake (c_state c)) then d else [] | _ => [] end) = []).
  { destruct o; try reflexivity. rewrite Hs. rewrite andb_false_r. reflexivity. }
  cbn [app readout written_since run]. 
  destruct (hs_step C g o c R Hs Ha) as [(Ha' & Hs')|[D|(K & d & c1 & -> & F1 & F2 & F3 & F4)]].
  - destruct (IH (after C o c) (reachable_step C g c o R) Hs' Ha' E) as (c1 & c2 & rest & A1 & A2 & A3 & A4 & A5 & A6 & A7 & A8 & A9).
    exists c1, c2, rest. repeat (split; [assumption|]). split; [intro more; rewrite Rd; apply A6|]. split; [intro more; rewrite Wr; apply A7|].
    split; [exact A8|]. intros o1 I1. right. apply A9. exact I1.
  - apply (done_run C g ops) in D; [|apply reachable_step; exact R]. rewrite E in D. discriminate D.
  - exists c1, (after C (ORecv d) c), ops. repeat (split; [assumption|]). split; [reflexivity|]. split; [reflexivity|]. split; [reflexivity|].
    split; [rewrite K; reflexivity|]. intros o1 I1. right. exact I1.
Qed.
