(* One record from one wrapped socket to the other. *)
From Verif Require Import Base P_Base Iana Crypto Config Cipher Conn Wrapper S_Hist S_Conn S_Send S_Nonce S_Alert S_Deliver S_Net S_Split S_Chat
  P_Monad P_Frame P_Rec P_Send P_Honest2 P_Hist P_Nonce P_Alert P_Split P_Deliver P_Pieces P_Entire P_Net2 P_Chat.
Local Open Scope N_scope.

(* [young] with more room *)
Lemma younger C g c : reachable C g c -> (length (c_log c) < 5000)%nat -> rekeying c = Ok tt.
Proof.
  intros (c0 & ops & Cr & Ec) Ll.
  assert (N : nonceI c) by (rewrite Ec; apply nonceI_run; eapply nonceI_created; exact Cr).
  assert (K : cntI c) by (rewrite Ec; apply cntI_run; eapply cntI_created; exact Cr).
  clear Ec. destruct N as (_ & _ & D). unfold cntI in K. unfold rekeying. destruct (c_cipher c) as [x|]; [|reflexivity]. unfold should_rekey.
  destruct (d_seq (cs_w x)) as [q|]; [|reflexivity]. destruct (d_key (cs_w x)); [|destruct D]. destruct (d_iv (cs_w x)); [|destruct D].
  destruct D as (lim & U & El & _). destruct K as [_ [K _]]. pose proof (limit_small _ _ U). unfold seq_peek. rewrite El, U.
  replace (q_next q <? lim) with true by (symmetry; apply N.ltb_lt; lia). cbn [rbind]. unfold REKEY_THRESHOLD.
  replace (lim - 1024 <=? q_next q) with false by (symmetry; apply N.leb_gt; lia). reflexivity.
Qed.

Section talk.
Variable C : crypto.
Hypothesis AC : aead_correct C.

(* the bytes [net], after those b has, are one record that holds [d] *)
Definition coming (m : N) (b : conn) (net d : bytes) : Prop :=
  exists y x, m <= max_frag b + 256 /\ hears b y (c_in b) /\ mirrored x y /\ fits C m m x [d] /\
    c_in b ++ net = streamed C m x [d] /\ c_app b = [].

Lemma flow_coming a b sent got d : flow C a b [] sent got -> c_out a = [] -> c_app b = [] -> short a d -> fst (step C (OSend d) a) = Ok [] ->
  coming (max_frag a) b (c_out (after C (OSend d) a)) d.
Proof.
  intros (xa & yb & x & ds & n & F1 & F2 & F3 & F4 & F5 & F6 & F7 & F8 & F9 & F10 & F11 & F12 & F13) O Ab S H.
  rewrite O in *. specialize (F13 eq_refl). subst ds n. cbn in F11. rewrite app_nil_r in F11. cbn [bumps length] in F9.
  destruct (send_data C d a) as [[[]|e] a'] eqn:E.
  2:{ unfold step, bind in H. rewrite E in H. discriminate. }
  assert (Af : after C (OSend d) a = a') by (unfold after, step, bind; rewrite E; reflexivity).
  rewrite Af. clear H Af.
  pose proof (send_one C d a a' xa F1 F2 F3 S E) as (S1 & S2 & S3 & S4). subst a'.
  assert (Sx : seal_at CT_APPDATA (max_frag a) x d = seal_at CT_APPDATA (max_frag a) xa d) by (apply seal_at_w; assumption).
  exists yb, x. split; [exact F4|]. split; [exact F5|]. split; [exact F6|]. split.
  - cbn [fits]. rewrite Sx, F7, F9. split; [exact S1|]. split; [exact S2|]. split; [exact S3|]. split; [|exact I].
    unfold short, limit_of in S. rewrite F1, F2 in S.
    pose proof (pad_short (max_frag a) (tag_length (cs_suite xa)) (blen d) F3) as P.
    unfold seal_at. cbn [se_data]. rewrite blen_inner. specialize (P ltac:(lia)). lia.
  - split; [|exact Ab]. rewrite F11. cbn [app]. unfold streamed. cbn [seals map concat]. rewrite Sx, F7, app_nil_r. cbn [c_out cset_out]. rewrite O. reflexivity.
Qed.
(* the connection once it has the record and its data have been read *)
Definition done (b : conn) : conn := cset_app [] (cset_cipher (option_map (rbumps 1) (c_cipher b)) (cset_in [] b)).
(* a piece of it *)
Lemma coming_piece m b p rest d : p <> [] -> coming m b (p ++ rest) d ->
  (coming m (after C (ORecv p) b) rest d /\ c_app (after C (ORecv p) b) = [] /\ rest <> [] /\ done (after C (ORecv p) b) = done b) \/
  rest = [] /\ c_app (after C (ORecv p) b) = d /\ cset_app [] (after C (ORecv p) b) = done b.
Proof.
  intros Hp (y & x & L & H & M & F & E & Ab).
  destruct (receive_data_stream C m m p AC [d] x y b rest Hp H M L F E) as (ds1 & ds2 & i & E1 & E2 & E3 & E4 & E5 & E6 & E7).
  destruct ds1 as [|d1 ds1].
  - left. cbn [app] in E1. subst ds2. rewrite E2. cbn [concat length rbumps bumps] in *. cbn [c_app cset_app]. rewrite app_nil_r, Ab. split; [|split; [reflexivity | split; [intros ->; discriminate (E7 eq_refl)|]]].
    2:{ unfold done. destruct H as (_ & _ & _ & D & _). rewrite D. reflexivity. }
    exists y, x. split; [exact L|]. split; [|split; [exact M | split; [exact F | split; [exact E6 | reflexivity]]]].
    destruct H as (A & B & _ & D & G). repeat split; auto.
  - right. injection E1 as -> E1. symmetry in E1. apply app_eq_nil in E1. destruct E1 as [-> ->]. cbn in E6. apply app_eq_nil in E6. destruct E6 as [-> ->].
    split; [reflexivity|]. rewrite E2. cbn [c_app cset_app concat]. rewrite Ab, app_nil_r. split; [reflexivity|].
    unfold done. destruct H as (_ & _ & _ & D & _). rewrite D. reflexivity.
Qed.

Lemma recv_log a b p rest sent got : p <> [] -> flow C a b (p ++ rest) sent got -> c_log (after C (ORecv p) b) = c_log b.
Proof. intros Hp F. destruct (flow_deliver C AC _ _ _ _ _ _ Hp F) as (_ & y & _ & n & i & z & ->). reflexivity. Qed.

Lemma whole_loop g a sent m d : d <> [] -> forall ps n b got l s0, (length ps < n)%nat -> (forall p, In p ps -> p <> []) ->
  coming m b (concat ps) d -> flow C a b (concat ps) sent got -> established (c_state b) = true -> c_out b = [] ->
  reachable C g b -> (length (c_log b) < 5000)%nat -> ps <> [] ->
  read_loop n C [] (b, mkSock (map Ok ps ++ l) [] s0) = (Ok d, (done b, mkSock l [] s0)) /\
    flow C a (done b) [] sent (got ++ d) /\ heard C b (done b) /\ reachable C g (done b) /\ c_log (done b) = c_log b.
Proof.
  intro Nd. induction ps as [|p ps IH]; intros n b got l s0 L Ne K F Es O R Lg N0; [congruence|]. destruct n as [|n]; [cbn in L; lia|].
  assert (Ec : is_connected b = true) by (unfold is_connected, established in *; destruct (c_state b) as [ | | | | | | | | | | |[] w| ]; try discriminate; auto).
  cbn [read_loop fst]. rewrite Ec. cbn [andb is_nil].
  assert (Hp : p <> []) by (apply Ne; left; reflexivity).
  unfold wbind at 1, sock_recv. cbn [map app sk_recv snd fst sk_accept sk_sent].
  replace (is_nil p) with false by (destruct p; [congruence | reflexivity]).
  cbn [concat] in F, K. unfold wbind at 1. rewrite (turn_flow C AC a b p _ sent got _ _ Hp F O).
  destruct (heard_deliver C AC a b p _ sent got Hp F) as [F1 Hd]. pose proof (recv_log a b p _ sent got Hp F) as Lg1.
  pose proof (coming_piece m b p (concat ps) d Hp K) as K1. assert (R1 : reachable C g (after C (ORecv p) b)) by (apply reachable_step; exact R).
  set (b1 := after C (ORecv p) b) in *. clearbody b1.
  rewrite (younger C g b1 R1) by (rewrite Lg1; exact Lg).
  change (wbind (on_conn data_to_read) ?f (b1, ?k)) with (f (c_app b1) (cset_app [] b1, k)). cbv beta. cbn [app].
  assert (Hd2 : heard C b (cset_app [] b1)) by (eapply heard_trans; [exact Hd | apply heard_read]).
  assert (R2 : reachable C g (cset_app [] b1)) by (apply (reachable_step C g b1 ORead); exact R1).
  apply flow_read in F1. destruct K1 as [(K1 & Ea & Nr & Ed)|(Er & Ea & Ed)]; rewrite Ea in *.
  - rewrite app_nil_r in F1.
    change (done b1) with (done (cset_app [] b1)) in Ed. rewrite <- Ed.
    destruct (IH n (cset_app [] b1) got l s0) as (X1 & X2 & X3 & X5 & X6).
    + cbn in L; lia.
    + intros; apply Ne; right; assumption.
    + destruct K1 as (y & x & Q1 & Q2 & Q3 & Q4 & Q5 & Q6). exists y, x. repeat (split; [assumption|]). reflexivity.
    + exact F1.
    + destruct Hd2 as (-> & _). exact Es.
    + destruct Hd2 as (_ & -> & _). exact O.
    + exact R2.
    + cbn [c_log cset_app]. rewrite Lg1. exact Lg.
    + intros ->. apply Nr. reflexivity.
    + split; [exact X1|]. split; [exact X2|]. split; [eapply heard_trans; eassumption|]. split; [exact X5|].
      rewrite X6. exact Lg1.
  - assert (ps = []) as ->.
    { destruct ps as [|p1 ps]; [reflexivity|]. cbn [concat] in Er. apply app_eq_nil in Er. destruct Er as [-> _]. destruct (Ne [] ltac:(right; left; reflexivity) eq_refl). }
    rewrite <- Ed. split; [|split; [exact F1 | split; [exact Hd2 | split; [exact R2 | exact Lg1]]]].
    assert (E0 : is_nil d = false) by (destruct d; [congruence | reflexivity]).
    cbn [map app]. destruct n; cbn [read_loop]; rewrite E0, andb_false_r; reflexivity.
Qed.
Lemma whole_read g a sent m d b got ps l s0 : d <> [] -> (forall p, In p ps -> p <> []) -> ps <> [] ->
  coming m b (concat ps) d -> flow C a b (concat ps) sent got -> established (c_state b) = true -> c_out b = [] ->
  reachable C g b -> (length (c_log b) < 5000)%nat ->
  Wrapper.wread C (b, mkSock (map Ok ps ++ l) [] s0) = (Ok d, (done b, mkSock l [] s0)) /\
    flow C a (done b) [] sent (got ++ d) /\ heard C b (done b) /\ reachable C g (done b) /\ c_log (done b) = c_log b.
Proof.
  intros Nd Ne N0 K F Es O R Lg. assert (Ab : c_app b = []) by (destruct K as (y & x & K); apply K).
  unfold Wrapper.wread. change (wbind (on_conn data_to_read) ?f (b, ?k)) with (f (c_app b) (cset_app [] b, k)). cbv beta. cbn [snd sk_recv]. rewrite Ab.
  replace (cset_app [] b) with b by (destruct b; cbn in *; subst; reflexivity).
  apply (whole_loop g a sent m d Nd ps _ b got l s0); try assumption. rewrite app_length, map_length. lia.
Qed.
End talk.
