(* Lifting to histories; the fragment lengths in force are legal. *)
From Verif Require Import Base P_Base Iana Crypto Config Serial Ext Msg Hkdf Cipher Kex Sig Ocsp Transcript Conn S_Hist S_Conn S_Send P_Monad P_Frame P_Rec P_Send.

Lemma stable_step C R o : stable C R ->
  (forall c v, R c (cset_app (c_app c ++ v) c)) ->
  (forall c v, R c (cset_in v c)) -> (forall c v, R c (cset_inhs v c)) ->
  (o = OFlush -> forall c, R c (cset_out [] c)) -> (o = ORead -> forall c, R c (cset_app [] c)) ->
  rel R (step C o).
Proof.
  intros S Sa Si Sh So Sr. pose proof (st_pre C R S) as P. unfold step. destruct o; try (reli P).
  - apply (stable_initiate_connection C _ S).
  - apply (stable_receive_data C _ S); assumption.
  - apply (stable_send_data C _ S).
  - unfold data_to_read. reli P. apply rel_modify. apply Sr. reflexivity.
  - unfold data_to_send. reli P. apply rel_modify. apply So. reflexivity.
  - apply (stable_rekey C _ S).
  - apply (stable_close_receiving_end C _ S).
  - apply (stable_close_sending_end C _ S).
Qed.
Lemma keeps_run C (I : conn -> Prop) : (forall o, keeps I (step C o)) ->
  forall ops c, I c -> I (run C ops c).
Proof.
  intros H. induction ops as [|o ops IH]; intros c Hc; cbn [run]; [exact Hc|].
  apply IH. apply H. exact Hc.
Qed.
Lemma rel_run C R : preorder R -> (forall o, rel R (step C o)) -> forall ops c, R c (run C ops c).
Proof.
  intros P H. induction ops as [|o ops IH]; intros c; cbn [run]; [apply P|].
  eapply (pre_trans _ P); [apply H | apply IH].
Qed.

Definition mfl_good (c : conn) : Prop :=
  valid_mfl (g_mfl (c_config c)) /\
  forall n m, c_nc c = Some n -> n_mfl n = Some m -> valid_mfl m.
Lemma mfl_good_max c : mfl_good c -> valid_mfl (max_frag c).
Proof.
  intros [A B]. unfold max_frag. destruct (c_nc c) as [n|]; [|exact A].
  destruct (n_mfl n) as [m|] eqn:E; [|exact A]. eapply B; [reflexivity | exact E].
Qed.
Lemma valid_mfl_range m : valid_mfl m -> 512 <= m <= 16384.
Proof. unfold valid_mfl. cbn. intuition lia. Qed.
Lemma mfl_octets_valid code o : mfl_octets code = Some o -> valid_mfl o.
Proof.
  unfold mfl_octets, valid_mfl. repeat (destruct (code =? _); [intro H; injection H; intros <-; cbn; tauto|]).
  discriminate.
Qed.
Definition mflR (c c' : conn) : Prop := mfl_good c -> mfl_good c'.
Lemma mflR_pre : preorder mflR. Proof. apply impl_preorder. Qed.
Lemma mfl_upd c n f m : c_nc c = Some n -> valid_mfl m -> n_mfl (f n) = Some m -> mflR c (cset_nc (Some (f n)) c).
Proof.
  intros E V F [A B]. split; [exact A|]. cbn. intros n0 m0 H H0. injection H; intros; subst. rewrite F in H0; injection H0; intros <-; exact V.
Qed.
Lemma mflR_stable C : stable C mflR.
Proof.
  pose proof mflR_pre as P.
  apply make_stable; try exact P; try (intros; intros [A B]; split; assumption).
  - intros c s [A B]. split; [exact A|]. cbn. intros n m H H0. injection H; intros; subst. discriminate.
  - intros c n f E F [A B]. split; [exact A|]. cbn. intros n0 m0 H H0. injection H; intros; subst.
    rewrite F in H0. eapply B; eassumption.
  - intros exts. unfold client_neg_mfl. apply rel_get. intro c.
    destruct (ext_get MAX_FRAGMENT_LENGTH exts) as [[]|]; try apply P.
    + destruct (mfl_octets code) as [o|] eqn:Eo; [|apply P]. destruct (negb _); [apply P|].
      unfold upd_nc. rewrite bind_get. destruct (c_nc c) eqn:En; [|apply P].
      eapply mfl_upd with (f := fun n => nset_mfl n (Some o)); [exact En | eapply mfl_octets_valid; exact Eo | reflexivity].
    + unfold upd_nc. rewrite bind_get. destruct (c_nc c) eqn:En; [|apply P].
      apply mfl_upd with (m := 16384) (f := fun n => nset_mfl n (Some 16384)); [exact En | cbn; tauto | reflexivity].
  - intros exts. unfold server_neg_mfl. apply rel_get. intro c.
    assert (U : forall m (l : list ext), (mfl_good c -> valid_mfl m) ->
      mflR c (snd ((upd_nc (fun n => nset_mfl n (Some m)) ;; ret l) c))).
    { intros m l V. unfold upd_nc. unfold bind at 1. rewrite bind_get. destruct (c_nc c) eqn:En; [|apply P].
      intro G. revert G. intro G. eapply mfl_upd with (f := fun n => nset_mfl n (Some m)); [exact En | auto | reflexivity | exact G]. }
    destruct (ext_get MAX_FRAGMENT_LENGTH exts) as [[]|]; try apply P.
    + destruct (mfl_octets code) as [o|] eqn:Eo; [|apply P]. apply U. intros _. eapply mfl_octets_valid; exact Eo.
    + apply U. intros [A _]. exact A.
  - intros k c. pose proof (sending_content C k c) as (E & _). rewrite E. exact (fun H => H).
Qed.
Lemma mfl_good_run C ops c : mfl_good c -> mfl_good (run C ops c).
Proof.
  revert ops c. apply keeps_run. intro o. apply of_rel.
  apply (stable_step C mflR o (mflR_stable C)); intros; exact (fun H => H).
Qed.
Lemma created_cases g c : created g c ->
  (g_side g = Client /\ exists host ocsp unique rng t, 
     c = mkConn g host ocsp None None None t [] [] [] [] (Some unique) None (ClientStart None) rng 0 [] [] /\
     exists flip, tr_new flip (g_suites g) = Ok t) \/
  (g_side g = Server /\ exists ocsp unique rng t,
     c = mkConn g None ocsp None None None t [] [] [] [] None (Some unique) ServerStart rng 0 [] [] /\
     exists flip, tr_new flip (g_suites g) = Ok t).
Proof.
  intros (_ & _ & flip & host & ocsp & unique & rng & H). unfold new_conn in H.
  destruct (tr_new flip (g_suites g)) as [t|] eqn:T; [|discriminate]. cbn [rbind] in H.
  destruct (g_side g).
  - left. split; [reflexivity|]. injection H; intros <-. exists host, ocsp, unique, rng, t. eauto.
  - right. split; [reflexivity|]. destruct (match host with Some (_ :: _) => true | _ => false end); [discriminate|].
    injection H; intros <-. exists ocsp, unique, rng, t. eauto.
Qed.
Lemma created_mfl g c : created g c -> mfl_good c.
Proof.
  intro H. pose proof H as (_ & V & _). apply created_cases in H.
  destruct H as [(_ & host & ocsp & unique & rng & t & -> & _) | (_ & ocsp & unique & rng & t & -> & _)];
    (split; [exact V | intros n m E; discriminate]).
Qed.
Lemma reachable_mfl C g c : reachable C g c -> valid_mfl (max_frag c).
Proof.
  intros (c0 & ops & H & ->). apply mfl_good_max, mfl_good_run. eapply created_mfl; exact H.
Qed.
