(* Key changes and messages after the handshake. *)
From Verif Require Import Base P_Base Iana Crypto Config Serial Ext Msg Hkdf Cipher Transcript Conn S_Hist S_Conn S_Send S_Nonce S_Alert S_Pack P_Monad P_Frame P_Rec P_Buf P_Send P_Hist P_Wire P_Nonce P_Alert P_Alert2 P_Split P_Memory P_Inner P_Pack.

(* --- the key that protects what is read, and the pieces of a message ------ *)
Definition same_key (c c' : conn) : Prop := reading_key c' = reading_key c.
Lemma same_key_pre : preorder same_key.
Proof. split; unfold same_key; congruence. Qed.
Lemma decrypt_key C d a x : d_key (cs_r (snd (decrypt C d a x))) = d_key (cs_r x) /\ d_iv (cs_r (snd (decrypt C d a x))) = d_iv (cs_r x).
Proof.
  unfold decrypt. destruct (d_key (cs_r x)) as [k|] eqn:K; [|cbn; auto].
  unfold next_nonce. destruct (d_iv (cs_r x)) as [iv|] eqn:I; [|cbn; auto]. destruct (d_seq (cs_r x)) as [q|]; [|cbn; auto].
  destruct (seq_next q) as [[n|e] q1]; [|cbn; auto]. destruct (to_bytes 12 _); [|cbn; auto]. destruct (cr_open _ _ _ _ _ _); cbn; auto.
Qed.
Lemma read_record_key C : rel same_key (read_next_record C).
Proof.
  pose proof same_key_pre as P. unfold read_next_record. cbv zeta. reli P; try (apply rel_modify; reflexivity).
  unfold unprotect. cbv zeta. reli P. apply (rel_on_cipher _ P). intros y c0 E. unfold same_key, reading_key. cbn. rewrite E.
  match goal with |- context [decrypt ?a ?b ?d y] => destruct (decrypt_key a b d y) as [A B] end. rewrite A, B. reflexivity.
Qed.
Lemma fill_key C n : rel same_key (fill_handshake n C).
Proof.
  pose proof same_key_pre as P. induction n as [|n IH]; cbn [fill_handshake]; reli P; try apply read_record_key; try apply IH; apply rel_modify; reflexivity.
Qed.
Lemma content_key C : rel same_key (read_next_content C).
Proof.
  pose proof same_key_pre as P. unfold read_next_content. reli P; try apply read_record_key; try apply fill_key; apply rel_modify; reflexivity.
Qed.
Lemma key_boundary C c r c' : receive_one C c = (r, c') -> reading_key c' <> reading_key c -> c_inhs c' = [].
Proof.
  unfold receive_one, bind. pose proof (content_key C c) as K. destruct (read_next_content C c) as [[[[t d]|]|e] c1] eqn:E; cbn [snd] in K.
  - apply content_some_inhs in E. assert (c_inhs (snd (handle_content C t d c1)) = []) as Z.
    { rewrite <- E. apply (stable_handle C _ (keep_in_stable C)). intros; split; reflexivity. }
    destruct (handle_content C t d c1) as [[|] c2]; intros H _; injection H; intros <- _; exact Z.
  - intros H N; injection H; intros <- _. contradiction.
  - intros H N; injection H; intros <- _. contradiction.
Qed.

(* --- after the handshake -------------------------------------------------- *)
Lemma parse_hs_content C pct m k : parse_content C pct CT_HANDSHAKE m = Ok k -> exists h, k = KHandshake h.
Proof.
  unfold parse_content. change (CT_HANDSHAKE =? CT_CCS) with false. change (CT_HANDSHAKE =? CT_ALERT) with false. change (CT_HANDSHAKE =? CT_HANDSHAKE) with true. cbv iota.
  destruct (parse_hs C pct (stream_of m)) as [[h s]|e]; cbn [rbind].
  - destruct (assert_eof s); cbn [rbind]; [intro H; injection H; eauto | destruct (is_buffer_error _); discriminate].
  - destruct (is_buffer_error _); discriminate.
Qed.
Definition settled (c c' : conn) : Prop := c_state c' = c_state c /\ c_out c' = c_out c /\ c_cipher c' = c_cipher c /\ c_in c' = c_in c.
Lemma settled_pre : preorder settled.
Proof. split; unfold settled; [auto | intros a b c (?&?&?&?) (?&?&?&?); repeat split; congruence]. Qed.
Lemma settled_room c c' : settled c c' -> room c -> room c'.
Proof. intros (_ & _ & E & _) Rm x. unfold enc_on. rewrite E. apply Rm. Qed.
Lemma transcribe_settled m sd ty : rel settled (transcribe m sd ty).
Proof.
  pose proof settled_pre as P. unfold transcribe. reli P; [apply rel_on_tr; intro; repeat split | apply rel_modify; intro; repeat split].
Qed.
Definition linked (s : state) : bool := match s with Connected | Closed true _ => true | _ => false end.
Lemma handle_late C c m : linked (c_state c) = true ->
  exists e c1, handle_content C CT_HANDSHAKE m c = (Err e, c1) /\ settled c c1.
Proof.
  intro L. unfold handle_content. rewrite bind_get. destruct (parse_content C (peer_cert_type c) CT_HANDSHAKE m) as [k|e] eqn:E.
  2:{ exists e, c. split; [reflexivity | apply settled_pre]. }
  apply parse_hs_content in E as (h & ->). change (bind (lift (Ok ?v)) ?k c) with (k v c). cbv beta iota.
  destruct (msg_type h) as [ty|]; [|exists XAttr, c; split; [reflexivity | apply settled_pre]].
  unfold bind. pose proof (transcribe_settled m (other_side (g_side (c_config c))) ty c) as S.
  destruct (transcribe m _ ty c) as [[[]|e] c1]; cbn [snd] in S.
  - exists (XAlert UNEXPECTED_MESSAGE), c1. split; [|exact S]. unfold process. rewrite bind_get. destruct S as (-> & _).
    destruct (c_state c); try discriminate L; [reflexivity|]. repeat match goal with b : bool |- _ => destruct b end; try discriminate L; reflexivity.
  - exists e, c1. split; [reflexivity | exact S].
Qed.
(* the messages that a peer sends on its own *)
Lemma parse_solo C pct ty body : ty = Nb NEW_SESSION_TICKET \/ ty = Nb KEY_UPDATE -> body <> [] -> blen body < 2 ^ 24 ->
  parse_content C pct CT_HANDSHAKE (ty :: be_bytes 3 (blen body) ++ body) = Err (XAlert DECODE_ERROR).
Proof.
  intros Ht Nb_ L. unfold parse_content. change (CT_HANDSHAKE =? CT_CCS) with false. change (CT_HANDSHAKE =? CT_ALERT) with false.
  change (CT_HANDSHAKE =? CT_HANDSHAKE) with true. cbv iota.
  assert (parse_hs C pct (stream_of (ty :: be_bytes 3 (blen body) ++ body)) = Err XTooMuch) as ->; [|reflexivity].
  set (s0 := stream_of _). unfold parse_hs.
  assert (read_int 1 s0 = Ok (bN ty, P_Serial.adv s0 1)) as ->.
  { change (read_int 1 s0) with (read_int (N.of_nat 1) s0). rewrite (P_Serial.reads_int 1 (bN ty) ltac:(lia) (bN_lt ty) s0 (be_bytes 3 (blen body) ++ body)); [reflexivity | | exact Logic.I].
    change (be_bytes 1 (bN ty)) with [Nb (bN ty mod 256)]. rewrite N.mod_small by (exact (bN_lt ty)). rewrite Nb_bN. reflexivity. }
  cbn [rbind].
  assert (read_int 3 (P_Serial.adv s0 1) = Ok (blen body, P_Serial.adv s0 4)) as ->.
  { change (read_int 3 ?v) with (read_int (N.of_nat 3) v). rewrite (P_Serial.reads_int 3 (blen body) ltac:(lia) L (P_Serial.adv s0 1) body); [|reflexivity | exact Logic.I].
    rewrite blen_be_bytes. rewrite P_Serial.adv_adv. reflexivity. }
  cbn [rbind]. cbv zeta.
  assert (forall x, with_limit (blen body) (fun _ s => @Ok (hs * stream) (x, s)) (P_Serial.adv s0 4) = Err XTooMuch) as W.
  { intro x. unfold with_limit. cbn [P_Serial.adv with_pos s_limits s_pos s_data s0 stream_of rbind]. rewrite N.eqb_refl. cbn [negb].
    assert (0 + 4 + blen body =? 0 + 4 = false) as ->; [|reflexivity].
    apply N.eqb_neq. destruct body; [contradiction | unfold blen; cbn [length]; lia]. }
  destruct Ht as [-> | ->]; apply W.
Qed.

Section Late.
Variables (C : crypto) (g : config) (c : conn).
Hypothesis As : aead_sized C.
Hypothesis R : reachable C g c.
Hypothesis Id : idle c.
Hypothesis Cl : linked (c_state c) = true.
Hypothesis Cs : can_send (c_state c) = true.
Hypothesis Rm : room c.
Lemma linked_recv : can_receive (c_state c) = true.
Proof. destruct (c_state c); try discriminate Cl; [reflexivity|]. match goal with |- can_receive (Closed ?b _) = true => destruct b; [reflexivity | discriminate Cl] end. Qed.

Lemma late_fails f l b rest : packed C c 0 (map hsrec (f :: l)) b -> Forall (fun f => f <> []) l ->
  4 <= blen f -> whole (f ++ concat l) ->
  exists e c' r, receive_data C (b ++ rest) c = (Err e, c') /\ c_state c' = Failed /\ alert_record C (alert_for e) r /\ c_out c' = c_out c ++ r /\
    (forall ty body, f ++ concat l = ty :: be_bytes 3 (blen body) ++ body -> blen body < 2 ^ 24 -> ty = Nb NEW_SESSION_TICKET \/ ty = Nb KEY_UPDATE -> body <> [] -> e = XAlert DECODE_ERROR).
Proof.
  intros P F L4 W. destruct Id as [Id1 Id2].
  destruct (content_packed C (cset_in (b ++ rest) c) f l b rest) as (c1 & E & _ & _ & S1 & O1 & R1); try assumption; try reflexivity;
    [apply (reachable_iv _ _ _ R) | apply (reachable_mfl _ _ _ R) | apply packed_in; exact P |].
  destruct (handle_late C c1 (f ++ concat l)) as (e & c2 & H & St); [rewrite S1; exact Cl|].
  destruct (fails C g c As R Id1 linked_recv Cs (b ++ rest) e) as (c' & r & A1 & A2 & A3 & A4).
  - cbn [map] in P. apply (packed_ne _ _ _ _ _ _ rest P).
  - exists c2. split; [unfold receive_one, bind; rewrite E, H; reflexivity|].
    destruct St as (B1 & B2 & B3 & B4). split; [rewrite B1; exact S1|]. split; [rewrite B2; exact O1|].
    apply (settled_room c1); [repeat split; assumption | apply R1; exact Rm].
  - exists e, c', r. split; [exact A1|]. split; [exact A2|]. split; [exact A3|]. split; [exact A4|].
    intros ty body Eb Lb Ty Nb_. rewrite Eb in H. unfold handle_content in H. rewrite bind_get, (parse_solo C _ ty body Ty Nb_ Lb) in H.
    change (bind (lift (Err ?v)) ?k c1) with (@Err unit v, c1) in H. injection H; intros _ <-. reflexivity.
Qed.
End Late.

(* --- what an endpoint sends after the handshake --------------------------- *)
Definition theirs (g : config) (l : list (side * N * bytes)) : Prop := Forall (fun e => fst (fst e) = other_side (g_side g)) l.
Definition lateR (c c' : conn) : Prop := is_post_handshake c = true ->
  is_post_handshake c' = true /\ c_config c' = c_config c /\ exists l, c_hs c' = c_hs c ++ l /\ theirs (c_config c) l.
Lemma lateR_pre : preorder lateR.
Proof.
  split.
  - intros c L. split; [exact L|]. split; [reflexivity|]. exists []. split; [symmetry; apply app_nil_r | constructor].
  - intros a b c H K L. destruct (H L) as (L1 & G1 & l1 & E1 & F1). destruct (K L1) as (L2 & G2 & l2 & E2 & F2).
    split; [exact L2|]. split; [congruence|]. exists (l1 ++ l2). split; [rewrite E2, E1, app_assoc; reflexivity|].
    unfold theirs. rewrite G1 in F2. apply Forall_app. split; assumption.
Qed.
Lemma lateR_same c c' : c_state c' = c_state c -> c_config c' = c_config c -> c_hs c' = c_hs c -> lateR c c'.
Proof.
  intros E1 E2 E3 L. split; [unfold is_post_handshake in *; rewrite E1; exact L|]. split; [exact E2|]. exists []. split; [rewrite E3; symmetry; apply app_nil_r | constructor].
Qed.
Lemma lateR_state c s : is_post_handshake (cset_state s c) = true -> lateR c (cset_state s c).
Proof. intros H L. split; [exact H|]. split; [reflexivity|]. exists []. split; [symmetry; apply app_nil_r | constructor]. Qed.
Ltac same := intros; apply lateR_same; reflexivity.
Definition plainR (c c' : conn) : Prop := c_state c' = c_state c /\ c_config c' = c_config c /\ c_hs c' = c_hs c.
Lemma plainR_pre : preorder plainR.
Proof. split; unfold plainR; [auto | intros a b c (?&?&?) (?&?&?); repeat split; congruence]. Qed.
Lemma of_plain A (m : M A) : rel plainR m -> rel lateR m.
Proof. intros H c. destruct (H c) as (A1 & A2 & A3). apply lateR_same; assumption. Qed.
Ltac plain := intros; repeat split.
Lemma plain_frags C ct mfl : forall l, rel plainR (send_fragments C ct mfl l).
Proof.
  pose proof plainR_pre as P. induction l as [|f l IH]; cbn [send_fragments]; reli P; try apply IH.
  unfold encrypt_fragment. cbv zeta. reli P; try solve [apply rel_modify; plain]. intro c1.
  match goal with |- context [on_cipher ?F c1] =>
    assert (K : rel plainR (on_cipher F)) by (apply (rel_on_cipher _ P); plain); specialize (K c1); destruct (on_cipher F c1) as [[|] ?]; exact K end.
Qed.
Lemma plain_send C k : (forall h, k <> KHandshake h) -> rel plainR (send_content C k).
Proof.
  pose proof plainR_pre as P. intro Nk. unfold send_content. apply rel_get'. intro c.
  destruct (_ && _); [apply (rel_raise _ P)|]. destruct (negb _); [apply (rel_raise _ P)|].
  destruct k; try (exfalso; eapply Nk; reflexivity); reli P; try apply plain_frags; apply rel_modify; plain.
Qed.
Lemma late_fail C a : rel lateR (fail C a).
Proof.
  pose proof lateR_pre as P. unfold fail. reli P; [apply of_plain, plain_send; discriminate | apply rel_set_state; intro c; apply lateR_state; reflexivity].
Qed.
Lemma plain_record C : rel plainR (read_next_record C).
Proof.
  pose proof plainR_pre as P. unfold read_next_record. cbv zeta. reli P; try solve [apply rel_modify; plain].
  unfold unprotect. cbv zeta. reli P. apply (rel_on_cipher _ P). plain.
Qed.
Lemma plain_fill C n : rel plainR (fill_handshake n C).
Proof.
  pose proof plainR_pre as P. induction n as [|n IH]; cbn [fill_handshake]; reli P; try apply plain_record; try apply IH; apply rel_modify; plain.
Qed.
Lemma plain_content C : rel plainR (read_next_content C).
Proof.
  pose proof plainR_pre as P. unfold read_next_content. reli P; try apply plain_record; try apply plain_fill; apply rel_modify; plain.
Qed.
Lemma late_base k : rel lateR (base_process k).
Proof. pose proof lateR_pre as P. unfold base_process. reli P. apply rel_set_state. intro c. apply lateR_state. reflexivity. Qed.
Lemma late_process C k : rel lateR (process C k).
Proof.
  pose proof lateR_pre as P. intros c L. revert L. unfold process. rewrite bind_get. intro L. pose proof L as L0. unfold is_post_handshake in L0.
  destruct (c_state c) as [ | | | | | | | | | | |r w|]; try discriminate L0.
  - destruct k; try (apply late_base; exact L). refine (rel_modify lateR _ _ c L); same.
  - destruct r; [|apply (rel_raise _ P); exact L]. destruct k; try (apply late_base; exact L). refine (rel_modify lateR _ _ c L); same.
  - apply (rel_ret _ P). exact L.
Qed.
Lemma late_transcribe m ty c : lateR c (snd (transcribe m (other_side (g_side (c_config c))) ty c)).
Proof.
  unfold transcribe, bind. assert (K : forall sd, plainR c (snd (on_tr (tr_update m sd ty) c))) by (intro sd; apply rel_on_tr; plain).
  specialize (K (other_side (g_side (c_config c)))). destruct (on_tr _ c) as [[[]|e] c1]; cbn [snd] in K; destruct K as (K1 & K2 & K3); [|apply lateR_same; assumption].
  intro L. cbn [snd modify]. split; [unfold is_post_handshake in *; cbn; rewrite K1; exact L|]. split; [exact K2|].
  eexists. split; [cbn; rewrite K3; reflexivity|]. repeat constructor.
Qed.
Lemma late_handle C ct d : rel lateR (handle_content C ct d).
Proof.
  pose proof lateR_pre as P. unfold handle_content. intro c. rewrite bind_get.
  destruct (parse_content C (peer_cert_type c) ct d) as [k|e]; [|apply P].
  change (bind (lift (Ok ?v)) ?k c) with (k v c). cbv beta.
  destruct k; try (change (bind (ret tt) ?k c) with (k tt c); cbv beta; apply late_process).
  match goal with |- context [msg_type ?h] => destruct (msg_type h) as [ty|]; [|apply P] end.
  unfold bind. pose proof (late_transcribe d ty c) as K. destruct (transcribe d _ ty c) as [[[]|e] c1]; cbn [snd] in K; [|exact K].
  eapply P; [exact K | apply late_process].
Qed.
Lemma late_one C : rel lateR (receive_one C).
Proof. pose proof lateR_pre as P. unfold receive_one. reli P; [apply of_plain, plain_content | apply late_handle]. Qed.
Lemma late_guarded C m : rel lateR m -> rel lateR (guarded C m).
Proof.
  intros H c. specialize (H c). unfold guarded. destruct (m c) as [[b|e] c1]; cbn [snd] in H; [exact H|].
  match goal with |- context [fail C ?a c1] => pose proof (late_fail C a c1) as K; destruct (fail C a c1) as [[|] c2] end;
  cbn [snd] in *; eapply lateR_pre; eassumption.
Qed.
Lemma late_loop C n : rel lateR (receive_loop n C).
Proof.
  pose proof lateR_pre as P. induction n as [|n IH]; cbn [receive_loop]; reli P; try (apply late_guarded, late_one); apply IH.
Qed.
Lemma late_step C o : rel lateR (step C o).
Proof.
  pose proof lateR_pre as P. destruct o; cbn [step]; reli P.
  - intros c L. unfold initiate_connection. rewrite bind_get. unfold is_post_handshake in L. destruct (c_state c) eqn:E; try discriminate L;
      apply (pre_refl _ P); unfold is_post_handshake; rewrite E; reflexivity.
  - unfold receive_data. reli P; try apply late_loop; try solve [apply rel_modify; same]. unfold rekey. reli P.
  - apply of_plain, plain_send. discriminate.
  - unfold data_to_read. reli P. apply rel_modify. same.
  - unfold data_to_send. reli P. apply rel_modify. same.
  - unfold rekey. reli P.
  - unfold close_receiving_end. reli P; try apply late_fail; apply rel_set_state; intro; apply lateR_state; reflexivity.
  - unfold close_sending_end. reli P; try (apply of_plain, plain_send; discriminate); try (apply rel_set_state; intro; apply lateR_state; reflexivity).
    apply rel_modify. intro z0. destruct (c_state z0) eqn:E; try apply P. apply lateR_state. reflexivity.
Qed.
Lemma late_sends C o c : is_post_handshake c = true ->
  is_post_handshake (after C o c) = true /\ exists l, c_hs (after C o c) = c_hs c ++ l /\ Forall (fun e => fst (fst e) = other_side (g_side (c_config c))) l.
Proof. intro L. destruct (late_step C o c L) as (A & _ & l & B). split; [exact A|]. exists l. exact B. Qed.
Lemma solo_fails C g c ty body b rest : aead_sized C -> reachable C g c -> idle c -> c_state c = Connected -> room c ->
  ty = NEW_SESSION_TICKET \/ ty = KEY_UPDATE -> body <> [] -> blen body < 2 ^ 24 -> packed C c 0 [(CT_HANDSHAKE, message ty body)] b ->
  exists c' r, receive_data C (b ++ rest) c = (Err (XAlert DECODE_ERROR), c') /\ c_state c' = Failed /\
    alert_record C DECODE_ERROR r /\ c_out c' = c_out c ++ r.
Proof.
  intros As R Id Cl Rm Ty Nb_ Lb P.
  assert (W : message ty body = Nb ty :: be_bytes 3 (blen body) ++ body) by reflexivity.
  destruct (late_fails C g c As R Id) with (f := message ty body) (l := @nil bytes) (b := b) (rest := rest) as (e & c' & r & A1 & A2 & A3 & A4 & A5); try assumption.
  - rewrite Cl. reflexivity.
  - rewrite Cl. reflexivity.
  - constructor.
  - rewrite W, blen_cons, blen_app, blen_be_bytes. lia.
  - cbn [concat]. rewrite app_nil_r. exists (Nb ty), body. auto.
  - cbn [concat] in A5. rewrite app_nil_r in A5. specialize (A5 (Nb ty) body W Lb).
    assert (e = XAlert DECODE_ERROR) as -> by (apply A5; [destruct Ty as [-> | ->]; auto | exact Nb_]).
    exists c', r. auto.
Qed.
Lemma ticket_fails C g c lifetime age nonce ticket exts b rest : aead_sized C -> reachable C g c -> idle c -> c_state c = Connected -> room c ->
  blen nonce < 256 -> blen ticket < 65536 -> blen exts < 65536 ->
  packed C c 0 [(CT_HANDSHAKE, new_session_ticket lifetime age nonce ticket exts)] b ->
  exists c' r, receive_data C (b ++ rest) c = (Err (XAlert DECODE_ERROR), c') /\ c_state c' = Failed /\
    alert_record C DECODE_ERROR r /\ c_out c' = c_out c ++ r.
Proof.
  intros As R Id Cl Rm L1 L2 L3 P. apply (solo_fails C g c NEW_SESSION_TICKET _ b rest As R Id Cl Rm) in P; [exact P | left; reflexivity | |].
  - intro Z. apply (f_equal blen) in Z. rewrite blen_app, blen_be_bytes in Z. change (blen []) with 0 in Z. lia.
  - rewrite !blen_app, !blen_be_bytes. change (2 ^ 24) with 16777216. lia.
Qed.
Lemma update_fails C g c rq b rest : aead_sized C -> reachable C g c -> idle c -> c_state c = Connected -> room c ->
  packed C c 0 [(CT_HANDSHAKE, key_update rq)] b ->
  exists c' r, receive_data C (b ++ rest) c = (Err (XAlert DECODE_ERROR), c') /\ c_state c' = Failed /\
    alert_record C DECODE_ERROR r /\ c_out c' = c_out c ++ r.
Proof.
  intros As R Id Cl Rm P. apply (solo_fails C g c KEY_UPDATE _ b rest As R Id Cl Rm) in P; [exact P | right; reflexivity | discriminate | reflexivity].
Qed.
Lemma any_fails C g c f l b rest : aead_sized C -> reachable C g c -> idle c -> c_state c = Connected -> room c ->
  packed C c 0 (map (pair CT_HANDSHAKE) (f :: l)) b -> Forall (fun f => f <> []) l -> 4 <= blen f -> whole (f ++ concat l) ->
  exists e c' r, receive_data C (b ++ rest) c = (Err e, c') /\ c_state c' = Failed /\ alert_record C (alert_for e) r /\ c_out c' = c_out c ++ r.
Proof.
  intros As R Id Cl Rm P F L4 W.
  destruct (late_fails C g c As R Id) with (f := f) (l := l) (b := b) (rest := rest) as (e & c' & r & A1 & A2 & A3 & A4 & _); try assumption.
  - rewrite Cl. reflexivity.
  - rewrite Cl. reflexivity.
  - exists e, c', r. auto.
Qed.
Lemma split_read C g c f l b rest : reachable C g c -> c_inhs c = [] -> packed C c 0 (map (pair CT_HANDSHAKE) (f :: l)) b -> Forall (fun f => f <> []) l ->
  4 <= blen f -> whole (f ++ concat l) -> c_in c = b ++ rest ->
  exists c', read_next_content C c = (Ok (Some (CT_HANDSHAKE, f ++ concat l)), c') /\ c_in c' = rest /\ c_inhs c' = [].
Proof.
  intros R Hi P F L4 W Hc. destruct (content_packed C c f l b rest (reachable_iv _ _ _ R) (reachable_mfl _ _ _ R) Hi P F L4 W Hc) as (c' & A & B & D & _).
  exists c'. auto.
Qed.
