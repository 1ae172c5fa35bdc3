(* The log of sealing operations against the output. *)
From Verif Require Import Base P_Base Iana Crypto Config Serial Ext Msg Hkdf Cipher Kex Sig Ocsp Transcript Conn S_Hist S_Send S_Nonce P_Monad P_Frame P_Hist P_Send P_Wire.

Lemma carried_app C rs ss : carried C rs ss -> forall rs2 ss2, carried C rs2 ss2 -> carried C (rs ++ rs2) (ss ++ ss2).
Proof. induction 1; intros; cbn [app]; [assumption | apply carried_clear | apply carried_sealed | apply carried_lost]; auto. Qed.
Lemma carried_lose C ss : carried C [] ss.
Proof. induction ss; [constructor | apply carried_lost; assumption]. Qed.
Lemma carried_plain C ty l : carried C (map (record ty) l) [].
Proof. induction l; cbn [map]; [constructor | apply carried_clear; assumption]. Qed.
Lemma carried_seal C suite ss : Forall (fun s => se_suite s = suite) ss -> carried C (map (sealed_record C suite) ss) ss.
Proof. induction 1; cbn [map]; [constructor|]. subst. apply carried_sealed. assumption. Qed.
Lemma seals_suite ct mfl : forall l x, Forall (fun s => se_suite s = cs_suite x) (seals ct mfl x l).
Proof. induction l as [|f l IH]; intro x; cbn [seals]; constructor; [reflexivity|]. apply (IH (bump_w x)). Qed.

Definition carries (C : crypto) (c c' : conn) : Prop :=
  exists rs ss, c_out c' = c_out c ++ concat rs /\ c_log c' = rev ss ++ c_log c /\ carried C rs ss.
Definition carryR (C : crypto) (c c' : conn) : Prop := mflR c c' /\ (mfl_good c -> carries C c c').
Lemma carries_same C c c' : c_out c' = c_out c -> c_log c' = c_log c -> carries C c c'.
Proof. intros A B. exists [], []. rewrite A, B. cbn. rewrite app_nil_r. repeat split. constructor. Qed.
Lemma carryR_same C c c' : mflR c c' -> c_out c' = c_out c -> c_log c' = c_log c -> carryR C c c'.
Proof. intros A B D. split; [exact A|]. intros _. apply carries_same; assumption. Qed.
Lemma carryR_pre C : preorder (carryR C).
Proof.
  split.
  - intro c. split; [exact (fun H => H) | intros _; apply carries_same; reflexivity].
  - intros a b c [A1 A2] [B1 B2]. split; [exact (fun H => B1 (A1 H))|].
    intro G. destruct (A2 G) as (ra & sa & Ea & La & Fa). destruct (B2 (A1 G)) as (rb & sb & Eb & Lb & Fb).
    exists (ra ++ rb), (sa ++ sb). rewrite Eb, Ea, Lb, La, concat_app, rev_app_distr, !app_assoc.
    repeat split. apply carried_app; assumption.
Qed.
Lemma carryR_send C k : rel (carryR C) (send_content C k).
Proof.
  intro c. pose proof (st_send C mflR (mflR_stable C) k c) as M.
  split; [exact M|]. intro G. clear M. pose proof (mfl_good_max c G) as V. pose proof (valid_mfl_range _ V) as Vr.
  pose proof (sending_content C k c) as (_ & _ & _ & (l & L) & _).
  destruct (send_content C k c) as [[[]|e] c'] eqn:E; cbn [snd] in *.
  2:{ exists [], (rev l). cbn. rewrite app_nil_r, rev_involutive.
      split; [eapply send_failed_out; exact E|]. split; [exact L | apply carried_lose]. }
  destruct (enc_on c) eqn:En.
  - apply enc_on_inv in En. destruct En as (x & Ex & Em).
    pose proof (tag_small (cs_suite x)) as T.
    destruct (send_enc C k c c' x Ex Em) as (data & frags & _ & _ & H); [lia | exact E |]. cbv zeta in H.
    set (ss := seals (content_type k) (max_frag c) x frags) in *.
    exists (map (sealed_record C (cs_suite x)) ss), ss. destruct H as (H1 & H2 & _).
    split; [exact H1|]. split; [tauto|]. apply carried_seal. apply seals_suite.
  - destruct (send_plain C k c c' En) as (data & frags & _ & _ & D & F); [lia | exact E |].
    exists (map (record (content_type k)) frags), []. split; [exact D|]. split; [exact F | apply carried_plain].
Qed.
Lemma carryR_stable C : stable C (carryR C).
Proof.
  pose proof (mflR_stable C) as M. pose proof (carryR_pre C) as P.
  apply make_stable; try exact P; try (intros; apply carryR_same; [apply M; assumption | reflexivity | reflexivity]);
    try (intros; apply carryR_same; [first [apply M | exact (fun H => H)] | reflexivity | reflexivity]).
  - intros exts c. apply carryR_same; [apply M | |]; unfold client_neg_mfl; rewrite bind_get;
    (destruct (ext_get MAX_FRAGMENT_LENGTH exts) as [[]|]; try reflexivity;
      [destruct (mfl_octets code); [|reflexivity]; destruct (negb _); [reflexivity|]|];
      unfold upd_nc; rewrite bind_get; destruct (c_nc c); reflexivity).
  - intros exts c. apply carryR_same; [apply M | |]; unfold server_neg_mfl; rewrite bind_get;
    (destruct (ext_get MAX_FRAGMENT_LENGTH exts) as [[]|]; try reflexivity;
      [destruct (mfl_octets code); [|reflexivity]|];
      unfold upd_nc, bind, get; destruct (c_nc c); reflexivity).
  - apply carryR_send.
Qed.
Lemma carry_step C g c o : reachable C g c -> o <> OFlush -> carries C c (after C o c).
Proof.
  intros H Ho. assert (G : mfl_good c).
  { destruct H as (c0 & ops & H & ->). apply mfl_good_run. eapply created_mfl; exact H. }
  refine (proj2 (stable_step C (carryR C) o (carryR_stable C) _ _ _ _ _ c) G);
    try (intros; apply carryR_same; [exact (fun H => H) | reflexivity | reflexivity]).
  intros ->. congruence.
Qed.
Lemma flush_log C c : c_log (after C OFlush c) = c_log c.
Proof. reflexivity. Qed.
Lemma seals_key ct mfl : forall l x, must_encrypt x = true ->
  Forall (fun s => se_epoch s = d_epoch (cs_w x) /\ Some (se_key s) = d_key (cs_w x)) (seals ct mfl x l).
Proof.
  induction l as [|f l IH]; intros x M; cbn [seals]; constructor.
  - cbn. split; [reflexivity|]. unfold must_encrypt in M. unfold key_of. destruct (d_key (cs_w x)); [reflexivity | discriminate].
  - assert (M' : must_encrypt (bump_w x) = true) by (unfold must_encrypt in *; cbn; rewrite bump_key; exact M).
    specialize (IH (bump_w x) M'). cbn [bump_w cs_set_w cs_w] in IH. rewrite bump_key in IH.
    replace (d_epoch (bump_dir (cs_w x))) with (d_epoch (cs_w x)) in IH by (unfold bump_dir; destruct (d_seq (cs_w x)); reflexivity).
    exact IH.
Qed.
Lemma send_logged C k c c' x : valid_mfl (max_frag c) -> c_cipher c = Some x -> enc_on c = true ->
  send_content C k c = (Ok tt, c') ->
  exists ss, c_log c' = rev ss ++ c_log c /\
    c_out c' = c_out c ++ concat (map (fun s => sealed_record C (se_suite s) s) ss) /\
    Forall (fun s => se_epoch s = epoch_w c /\ Some (se_key s) = d_key (cs_w x)) ss.
Proof.
  intros V Ex En H. pose proof (valid_mfl_range _ V) as Vr. pose proof (tag_small (cs_suite x)) as T.
  unfold enc_on in En. rewrite Ex in En.
  destruct (send_enc C k c c' x Ex En) as (data & frags & _ & _ & S); [lia | exact H |]. cbv zeta in S.
  set (ss := seals (content_type k) (max_frag c) x frags) in *.
  destruct S as (S1 & S2 & _ & _). exists ss. split; [exact S2|]. split.
  - rewrite S1. do 2 f_equal. apply map_ext_in. intros s Hs.
    pose proof (seals_suite (content_type k) (max_frag c) frags x) as Q. fold ss in Q.
    rewrite Forall_forall in Q. rewrite (Q s Hs). reflexivity.
  - unfold epoch_w. rewrite Ex. apply seals_key. exact En.
Qed.
