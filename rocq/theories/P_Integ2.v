(* Integrity against an active attacker, the sending side over a history. *)
From Verif Require Import Base P_Base Iana Crypto Config Serial Ext Msg Hkdf Cipher Kex Sig Ocsp Transcript Conn
  S_Hist S_Conn S_Send S_Nonce S_Alert S_Deliver S_Integrity P_Monad P_Frame P_Rec P_Send P_Nonce P_Pieces P_Alert P_Buf P_Hist P_Wire P_Integ.

Section Writer.
Variable C : crypto.
Hypothesis As : aead_sized C.
Variable x0 : cs.
Variable L0 : list sealing.
Hypothesis W0 : wired x0.

Definition sealedI (wr : bytes) (c : conn) : Prop :=
  exists E x, c_cipher c = Some x /\ cs_suite x = cs_suite x0 /\ cs_w x = dbump (length E) (cs_w x0) /\
    c_log c = rev E ++ L0 /\ chain (cs_suite x0) (cs_w x0) E /\
    (payload E = wr \/ stuck (cs_w x) /\ prefix (payload E) wr).
Definition writeI (wr : bytes) (c : conn) : Prop := sealedI wr c /\ mfl_good c /\ is_post_handshake c = true.

Lemma dbump_wired n : forall d, (exists k iv q, d_key d = Some k /\ d_iv d = Some iv /\ d_seq d = Some q /\ iv < 256 ^ 12 /\ q_limit q <= 2 ^ 64) ->
  exists k iv q, d_key (dbump n d) = Some k /\ d_iv (dbump n d) = Some iv /\ d_seq (dbump n d) = Some q /\ iv < 256 ^ 12 /\ q_limit q <= 2 ^ 64.
Proof.
  intros d (k & iv & q & A & B & D & F). rewrite (dbump_some n d q D). cbn [d_key d_iv d_seq].
  exists k, iv. eexists. split; [exact A|]. split; [exact B|]. split; [reflexivity|]. exact F.
Qed.
Lemma stuck_chain suite d E : stuck d -> chain suite d E -> E = [].
Proof.
  intros (q & Q1 & Q2). destruct E as [|s E]; [reflexivity|]. intros (_ & _ & _ & _ & (k & iv & q' & _ & _ & R1 & R2 & _) & _ & _).
  rewrite Q1 in R1. injection R1; intros <-. lia.
Qed.
Lemma sealed_same wr c c' : c_cipher c' = c_cipher c -> c_log c' = c_log c -> sealedI wr c -> sealedI wr c'.
Proof. unfold sealedI. intros -> ->. auto. Qed.

Definition asks (k : content) (c : conn) : bytes :=
  match k with KAppData d => if can_send_app (c_state c) then d else [] | _ => [] end.
Lemma sealed_send wr k c : match k with KAppData _ | KAlert _ _ => True | _ => False end -> mfl_good c ->
  sealedI wr c -> sealedI (wr ++ asks k c) (snd (send_content C k c)).
Proof.
  intros Hk M (E & x & Ex & Es & Ew & El & Ec & Ep).
  destruct (send_content C k c) as [r c'] eqn:H. cbn [snd].
  assert (W : wired x) by (unfold wired; rewrite Ew; apply dbump_wired, W0).
  destruct (send_log C k c r c' x As M Ex W Hk H) as (F & A & B & D & G). 
  change (payload F = asks k c \/ stuck (cs_w (bumps (length F) x)) /\ prefix (payload F) (asks k c)) in G.
  exists (E ++ F), (bumps (length F) x). split; [exact B|]. split; [rewrite bumps_out; exact Es|].
  split; [rewrite bumps_w, Ew, <- dbump_add, app_length; reflexivity|].
  split; [rewrite A, El, rev_app_distr, app_assoc; reflexivity|].
  split; [apply chain_app; [exact Ec|]; rewrite <- Ew, <- Es; exact D|].
  rewrite payload_app. destruct Ep as [Ep|[S Ep]].
  - rewrite Ep. destruct G as [G|[G (t & G2)]]; [left; rewrite G; reflexivity|].
    right. split; [exact G|]. exists t. rewrite G2, app_assoc. reflexivity.
  - right. rewrite (stuck_chain _ _ _ S D). cbn [length bumps]. split; [exact S|].
    destruct Ep as (t & ->). exists (t ++ asks k c). cbn [payload map concat]. rewrite app_nil_r, app_assoc. reflexivity.
Qed.
Lemma write_send wr k c : match k with KAppData _ | KAlert _ _ => True | _ => False end ->
  writeI wr c -> writeI (wr ++ asks k c) (snd (send_content C k c)).
Proof.
  intros Hk (S & M & P). split; [apply sealed_send; assumption|]. split; [apply (st_send C _ (mflR_stable C)); exact M|].
  unfold is_post_handshake in *. rewrite send_state. exact P.
Qed.
Lemma write_alert wr l d : keeps (writeI wr) (send_content C (KAlert l d)).
Proof. intros c H. rewrite <- (app_nil_r wr). apply (write_send wr (KAlert l d) c I H). Qed.
Lemma write_state wr s : (match s with Connected | Closed _ _ | Failed => true | _ => false end = true) -> keeps (writeI wr) (set_state s).
Proof. intros Hs c (S & M & P). split; [eapply sealed_same; [| |exact S]; reflexivity|]. split; [exact M | exact Hs]. Qed.
Lemma write_fail wr a : keeps (writeI wr) (fail C a).
Proof.
  apply of_rel. pose proof (impl_preorder (writeI wr)) as P. unfold fail. reli P.
  - apply to_rel, write_alert.
  - apply to_rel. apply write_state. reflexivity.
Qed.
Lemma write_reading wr c c' : reading c c' -> writeI wr c -> writeI wr c'.
Proof.
  intros [E O] ((Es & x & Ex & A & B & D & F & G) & M & P).
  rewrite Ex in O. destruct (c_cipher c') as [x'|] eqn:E'; [|contradiction]. cbn [olift] in O. destruct O as [O _].
  assert (Hs : cs_suite x' = cs_suite x) by (rewrite O; reflexivity).
  assert (Hw : cs_w x' = cs_w x) by (rewrite O; reflexivity).
  split; [|split].
  - exists Es, x'. split; [exact E'|]. split; [congruence|]. split; [congruence|]. split; [rewrite E; exact D|]. split; [exact F|].
    rewrite Hw. exact G.
  - rewrite E. exact M.
  - rewrite E. exact P.
Qed.
Lemma write_handle wr ct d : keeps (writeI wr) (handle_content C ct d).
Proof.
  apply of_rel. pose proof (impl_preorder (writeI wr)) as P.
  assert (SM : forall A (m : M A), (forall c, c_cipher (snd (m c)) = c_cipher c /\ c_log (snd (m c)) = c_log c /\ c_state (snd (m c)) = c_state c /\ mflR c (snd (m c))) ->
    rel (fun c c' => writeI wr c -> writeI wr c') m).
  { intros A m H c (S & G & Po). destruct (H c) as (H1 & H2 & H3 & H4). split; [eapply sealed_same; eassumption|].
    split; [apply H4; exact G | unfold is_post_handshake; rewrite H3; exact Po]. }
  unfold handle_content. reli P.
  - apply SM. intro c1. unfold transcribe, on_tr, bind, modify. destruct (tr_update _ _ _ _) as [[?|?] ?]; repeat (split; [reflexivity|]); intro G; exact G.
  - intros c1 H. pose proof H as (S & G & Po). unfold process. rewrite bind_get.
    unfold is_post_handshake in Po.
    assert (B : forall k, rel (fun c c' => writeI wr c -> writeI wr c') (base_process k)).
    { intro k0. unfold base_process. reli P. all: try (apply to_rel; apply write_state; reflexivity). }
    destruct (c_state c1) eqn:Ec; try discriminate.
    + match goal with |- context [match ?k with KCcs => _ | _ => _ end] => destruct k end; try (apply B; exact H). unfold modify. cbn [snd]. split; [|split; [exact G | unfold is_post_handshake; cbn; rewrite Ec; reflexivity]].
      eapply sealed_same; [| |exact S]; reflexivity.
    + destruct can_recv; [|exact H].
      match goal with |- context [match ?k with KCcs => _ | _ => _ end] => destruct k end; try (apply B; exact H). unfold modify. cbn [snd]. split; [|split; [exact G | unfold is_post_handshake; cbn; rewrite Ec; reflexivity]].
      eapply sealed_same; [| |exact S]; reflexivity.
    + exact H.
Qed.
Lemma write_guarded wr : keeps (writeI wr) (guarded C (receive_one C)).
Proof.
  pose proof (impl_preorder (writeI wr)) as P.
  assert (One : keeps (writeI wr) (receive_one C)).
  { apply of_rel. unfold receive_one. reli P; [intro c; apply write_reading, reading_content | apply to_rel, write_handle]. }
  intros c H. specialize (One c H). unfold guarded. destruct (receive_one C c) as [[b|e] c1]; [exact One|]. cbn [snd] in One.
  pose proof (write_fail wr (Some match alert_of e with Some code => code | None => INTERNAL_ERROR end) c1 One) as K.
  destruct (fail _ _ c1) as [[]]; exact K.
Qed.
Lemma write_receive wr d : keeps (writeI wr) (receive_data C d).
Proof.
  pose proof (impl_preorder (writeI wr)) as P.
  assert (L : forall n, rel (fun c c' => writeI wr c -> writeI wr c') (receive_loop n C)).
  { induction n; cbn [receive_loop]; reli P; try (apply to_rel; apply write_guarded); apply IHn. }
  apply of_rel. unfold receive_data, rekey. reli P; [|apply L].
  apply rel_modify. intros c1 (S & M & Po). split; [|split; [exact M | exact Po]]. eapply sealed_same; [| |exact S]; reflexivity.
Qed.
Definition op_writes (o : op) (c : conn) : bytes := match o with OSend d => if can_send_app (c_state c) then d else [] | _ => [] end.
Lemma snd_ret A B (m : M A) (v : B) c : snd ((m ;; ret v) c) = snd (m c).
Proof. unfold bind. destruct (m c) as [[?|?] ?]; reflexivity. Qed.
Lemma write_step wr o c : writeI wr c -> writeI (wr ++ op_writes o c) (after C o c).
Proof.
  intros H. unfold after, step. pose proof H as (S & M & Po).
  assert (Z : forall f : conn -> conn, c_cipher (f c) = c_cipher c -> c_log (f c) = c_log c -> c_state (f c) = c_state c -> c_config (f c) = c_config c -> c_nc (f c) = c_nc c ->
     writeI (wr ++ []) (f c)).
  { intros f F1 F2 F3 F4 F5. rewrite app_nil_r. split; [eapply sealed_same; eassumption|]. split; [unfold mfl_good in *; rewrite F4, F5; exact M|].
    unfold is_post_handshake. rewrite F3. exact Po. }
  destruct o; cbn [op_writes]; try rewrite snd_ret.
  - rewrite app_nil_r. unfold initiate_connection. rewrite bind_get. unfold is_post_handshake in Po. destruct (c_state c); try discriminate; exact H.
  - rewrite app_nil_r. apply write_receive. exact H.
  - apply (write_send wr (KAppData d) c I H).
  - apply (Z (cset_app [])); reflexivity.
  - apply (Z (cset_out [])); reflexivity.
  - rewrite app_nil_r. unfold rekey. rewrite bind_get. destruct (negb _); exact H.
  - rewrite app_nil_r. unfold close_receiving_end. rewrite bind_get, Po. cbn [negb].
    destruct (c_state c); apply write_state; try reflexivity; exact H.
  - rewrite app_nil_r. unfold close_sending_end. rewrite bind_get.
    pose proof (impl_preorder (writeI wr)) as P. revert H.
    match goal with |- writeI wr c -> writeI wr (snd (?m c)) => cut (keeps (writeI wr) m); [intros K; apply K|] end.
    clear - As W0 P. apply of_rel. reli P; try (apply to_rel; apply write_state; reflexivity); try (apply to_rel; apply write_alert).
    apply rel_modify. intros c1 (S & M & Po). unfold is_post_handshake in Po.
    destruct (c_state c1) eqn:Ec; try (split; [exact S | split; [exact M | unfold is_post_handshake; rewrite Ec; exact Po]]).
    split; [eapply sealed_same; [| |exact S]; reflexivity|]. split; [exact M | reflexivity].
Qed.
Lemma write_run : forall ops wr c, writeI wr c -> writeI (wr ++ written C ops c) (run C ops c).
Proof.
  induction ops as [|o ops IH]; intros wr c H; cbn [run written]; [rewrite app_nil_r; exact H|].
  rewrite app_assoc. apply IH. apply (write_step wr o c H).
Qed.
End Writer.

(* the whole of what a connected endpoint seals from some point on *)
Lemma sealed_after C ops c x : aead_sized C -> mfl_good c -> is_post_handshake c = true -> c_cipher c = Some x -> wired x ->
  exists E, c_log (run C ops c) = rev E ++ c_log c /\ chain (cs_suite x) (cs_w x) E /\ prefix (payload E) (written C ops c).
Proof.
  intros As M Po Ex W.
  assert (H : writeI x (c_log c) [] c).
  { split; [|split; assumption]. exists [], x. cbn [length dbump rev app chain]. repeat (split; [assumption || reflexivity || exact I|]). left. reflexivity. }
  apply (write_run C As x (c_log c) W ops [] c) in H. destruct H as ((E & y & _ & _ & _ & A & B & D) & _).
  exists E. split; [exact A|]. split; [exact B|]. cbn [app] in D.
  destruct D as [->|[_ D]]; [exists []; rewrite app_nil_r; reflexivity | exact D].
Qed.
