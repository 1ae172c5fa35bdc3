(* One endpoint speaks, the other listens, both take leave. *)
From Verif Require Import Base P_Base Iana Crypto Config Serial Ext Msg Cipher Conn Wrapper S_Hist S_Conn S_Send S_Nonce S_Alert S_Auth S_Deliver S_Net S_Split S_Chat
  P_Monad P_Frame P_Rec P_Send P_Hist P_Honest2 P_Nonce P_Count P_Flight P_Alert P_Auth P_Split P_Deliver P_Pieces P_Entire P_Net P_Net2 P_Chat P_Talk P_Talk2 P_Wire.
Local Open Scope N_scope.

Definition limited (c : conn) : Prop := forall x, c_cipher c = Some x -> usage_limit (cs_suite x) <> None.

Section exchange.
Variable C : crypto.
Hypothesis AC : aead_correct C.
Hypothesis AS : aead_sized C.

Lemma roomy g c : reachable C g c -> (length (c_log c) < 5000)%nat -> limited c -> room c.
Proof. intros R L Lm. apply few_room; [eapply reachable_count; exact R | unfold few; lia | exact Lm]. Qed.
Lemma flow_limited a b net sent got : flow C a b net sent got -> limited a -> limited b.
Proof.
  intros (xa & yb & x & ds & n & F1 & F2 & F3 & F4 & (_ & _ & _ & D & _) & (M1 & _) & F7 & _) L y Ey. rewrite D in Ey. injection Ey as <-.
  specialize (L xa F1). congruence.
Qed.
Lemma flow_on a b net sent got : flow C a b net sent got -> enc_on a = true.
Proof. intros (xa & yb & x & ds & n & F1 & F2 & _). unfold enc_on. rewrite F1. exact F2. Qed.
Lemma flow_short a b net sent got d : flow C a b net sent got -> blen d <= 480 -> short a d.
Proof.
  intros (xa & yb & x & ds & n & F1 & F2 & F3 & _) L. unfold short, limit_of. rewrite F1, F2.
  pose proof (valid_mfl_range _ F3). pose proof (tag_small (cs_suite xa)). lia.
Qed.

Record ends (ga gb : config) (a b : conn) : Prop := {
  en_ab : exists s g, flow C a b [] s g; en_ba : exists s g, flow C b a [] s g;
  en_outa : c_out a = []; en_outb : c_out b = [];
  en_appa : c_app a = []; en_appb : c_app b = [];
  en_sta : c_state a = Connected; en_stb : c_state b = Connected;
  en_ra : reachable C ga a; en_rb : reachable C gb b;
  en_lim : limited a; en_la : (length (c_log a) < 2000)%nat; en_lb : (length (c_log b) < 2000)%nat }.

(* a writes [d]: the record, and a afterwards *)
Definition said (d : bytes) (a : conn) : bytes := c_out (after C (OSend d) a).
Definition spoke (d : bytes) (a : conn) : conn := cset_out [] (after C (OSend d) a).

Lemma say ga gb a b d : ends ga gb a b -> d <> [] -> blen d <= 480 ->
  (forall l z, wwrite C d (a, mkSock l [] z) = (Ok tt, (spoke d a, mkSock l [] (z ++ said d a)))) /\
  said d a <> [] /\
  (forall p r, p <> [] -> said d a = p ++ r -> exists x, receive_data C p b = (Ok tt, x) /\ c_out x = [] /\ is_post_handshake x = true) /\
  (forall ds t l z, begun C b (said d a) ds t -> (forall p, In p ds -> p <> []) ->
     Wrapper.wread C (t, mkSock (map Ok ds ++ l) [] z) = (Ok d, (done b, mkSock l [] z))) /\
  ((length (c_log (spoke d a)) < 2000)%nat -> ends ga gb (spoke d a) (done b)) /\
  length (c_log (spoke d a)) = S (length (c_log a)).
Proof.
  intros [(s & g & F) (s' & g' & G) Oa Ob Aa Ab Sa Sb Ra Rb Lm La Lb] Nd Ld.
  pose proof (flow_short _ _ _ _ _ d F Ld) as Sh.
  pose proof (send_works C ga a d AS Ra (roomy ga a Ra ltac:(lia) Lm) (flow_on _ _ _ _ _ F) ltac:(rewrite Sa; reflexivity) Sh) as W.
  pose proof (flow_coming C a b s g d F Oa Ab Sh W) as K. fold (said d a) in K.
  destruct (flow_send C a b [] s g d F Sh W) as (F' & G1 & G2 & G3 & G4 & G5 & x & G6 & G7).
  pose proof (flow_other_send C a b _ [] s' g' x G G1 G2 G3 G4 G5 G6 G7) as G'.
  apply flow_flush in F'. cbn [app] in F'. fold (said d a) in F'. fold (spoke d a) in F'.
  apply (flow_other_flush C _ b [] s' g' []) in G'. fold (spoke d a) in G'.
  assert (Es : established (c_state b) = true) by (rewrite Sb; reflexivity).
  assert (Rd : forall p r, p <> [] -> said d a = p ++ r -> receive_data C p b = (Ok tt, after C (ORecv p) b) /\ c_out (after C (ORecv p) b) = [] /\ c_state (after C (ORecv p) b) = Connected /\
     flow C (spoke d a) (after C (ORecv p) b) r (s ++ d) g /\ reachable C gb (after C (ORecv p) b) /\ c_log (after C (ORecv p) b) = c_log b /\ heard C b (after C (ORecv p) b)).
  { intros p r Np Ep. pose proof F' as F2. rewrite Ep in F2.
    destruct (heard_deliver C AC _ _ _ _ _ _ Np F2) as [H1 Hh]. pose proof Hh as (H2 & H3 & _). pose proof (recv_log C AC _ _ _ _ _ _ Np F2) as H4.
    assert (Rb' : reachable C gb (after C (ORecv p) b)) by (apply reachable_step; exact Rb).
    split; [|split; [congruence | split; [congruence | split; [exact H1 | split; [exact Rb' | split; [exact H4 | exact Hh]]]]]].
    pose proof (receive_data_end C AC _ _ _ _ _ _ Np F2) as E. rewrite (younger C gb _ Rb') in E by (rewrite H4; lia).
    assert (Ea : after C (ORecv p) b = snd (receive_data C p b)) by (unfold after, step, bind; destruct (receive_data C p b) as [[]]; reflexivity).
    rewrite Ea. destruct (receive_data C p b). cbn in E |- *. subst. reflexivity. }
  assert (Nq : said d a <> []).
  { intro E. rewrite E in F'. destruct (flow_all C _ _ _ _ F' eq_refl) as (E1 & _). destruct (flow_all C _ _ _ _ F Oa) as (E2 & _).
    apply Nd. apply (app_inv_head s). rewrite app_nil_r. congruence. }
  assert (Lg : length (c_log (spoke d a)) = S (length (c_log a))).
  { destruct F as (xa & yb & x0 & ds & n & F1 & F2 & F3 & _). unfold spoke, after, step, bind. unfold step, bind in W.
    destruct (send_data C d a) as [[[]|e] a'] eqn:E; [|discriminate]. pose proof (send_one C d a a' xa F1 F2 F3 Sh E) as (_ & _ & _ & ->). reflexivity. }
  assert (Rs : reachable C ga (spoke d a)) by (apply (reachable_step C ga (after C (OSend d) a) OFlush); apply reachable_step; exact Ra).
  assert (Lb' : (length (c_log b) < 5000)%nat) by lia.
  split.
  { intros l z. unfold wwrite, wbind, on_conn, sock_send, said, spoke, after, step, bind. cbn [fst snd]. unfold step, bind in W.
    destruct (send_data C d a) as [[[]|e] a']; [|discriminate]. reflexivity. }
  split; [exact Nq|]. split.
  { intros p r Np Ep. destruct (Rd p r Np Ep) as (R1 & R2 & R3 & _). exists (after C (ORecv p) b). split; [exact R1|]. split; [exact R2|].
    unfold is_post_handshake. rewrite R3. reflexivity. }
  assert (W1 : forall ds l z, concat ds = said d a -> (forall p, In p ds -> p <> []) ->
     Wrapper.wread C (b, mkSock (map Ok ds ++ l) [] z) = (Ok d, (done b, mkSock l [] z)) /\
     flow C (spoke d a) (done b) [] (s ++ d) (g ++ d) /\ heard C b (done b) /\ reachable C gb (done b) /\ c_log (done b) = c_log b).
  { intros ds l z Ec Ne. apply (whole_read C AC gb (spoke d a) (s ++ d) (max_frag a) d b g ds l z); try assumption; rewrite ?Ec; try assumption.
    intros ->. apply Nq. symmetry. exact Ec. }
  split.
  { intros ds t l z [[-> Ec]|(p & Np & Ep & Et)] Ne; [apply W1; assumption|].
    destruct (Rd p (concat ds) Np Ep) as (R1 & R2 & R3 & R4 & R5 & R6 & R7). rewrite R1 in Et. assert (Et' : after C (ORecv p) b = t) by congruence. clear Et. subst t.
    rewrite Ep in K. destruct (coming_piece C AC (max_frag a) b p (concat ds) d Np K) as [(K1 & A1 & Nr & Ed)|(Er & A1 & Ed)].
    - rewrite <- Ed. apply (whole_read C AC gb (spoke d a) (s ++ d) (max_frag a) d _ g ds l z); try assumption; try (rewrite ?R3, ?R6; try reflexivity; assumption).
      intros ->. apply Nr. reflexivity.
    - assert (ds = []) as ->.
      { destruct ds as [|p1 ds]; [reflexivity|]. cbn [concat] in Er. apply app_eq_nil in Er. destruct Er as [-> _]. destruct (Ne [] ltac:(left; reflexivity) eq_refl). }
      unfold Wrapper.wread. change (wbind (on_conn data_to_read) ?f (?b1, ?k)) with (f (c_app b1) (cset_app [] b1, k)). cbv beta. cbn [snd sk_recv map app].
      rewrite A1, Ed. assert (E0 : is_nil d = false) by (destruct d; [congruence | reflexivity]). cbn [read_loop]. rewrite E0, andb_false_r. reflexivity. }
  split; [|exact Lg].
  intro Lg2. assert (X : exists ds, concat ds = said d a /\ forall p, In p ds -> p <> []).
  { exists [said d a]. split; [apply app_nil_r | intros p [<-|[]]; exact Nq]. }
  destruct X as (ds & X1 & X2). destruct (W1 ds [] [] X1 X2) as (_ & Y1 & (Y2 & Y3 & Y4) & Y5 & Y6).
  split; try assumption; try reflexivity.
  - eauto.
  - exists s', g'. apply Y4. exact G'.
  - cbn. rewrite G4. exact Aa.
  - cbn. rewrite G1. exact Sa.
  - intros y Ey. cbn in Ey. rewrite G7 in Ey. injection Ey as <-. exact (Lm x G6).
Qed.

(* the close of a with statement *)
Lemma fragment_some ct m data c r c1 : send_fragments C ct m [data] c = (Ok r, c1) -> r <> [] /\ c_state c1 = c_state c /\ c_out c1 = c_out c.
Proof.
  intro E. assert (FO : forall l x, c_out (snd (send_fragments C ct m l x)) = c_out x).
  { assert (P : preorder (fun a b => c_out b = c_out a)) by (split; congruence).
    induction l as [|f l IH]; cbn [send_fragments]; [reflexivity|].
    change (rel (fun a b => c_out b = c_out a) (do c <- get;
      do r <- (if enc_on c then do e <- encrypt_fragment C ct m f; lift (record_bytes CT_APPDATA e)
               else lift (record_bytes ct f));
      do rs <- send_fragments C ct m l; ret (r ++ rs))).
    reli P; [|exact IH].
    unfold encrypt_fragment. apply rel_get'. intro. cbv zeta. reli P.
    - intro cc. unfold on_cipher. rewrite bind_get. destruct (c_cipher cc) as [y|]; [|reflexivity].
      destruct (encrypt C _ _ y) as [[?|?] ?]; reflexivity.
    - apply rel_modify. reflexivity. }
  specialize (FO [data] c).
  pose proof (sending_fragments C ct m [data] c) as S. rewrite E in FO, S. cbn [snd] in FO, S. destruct S as [S _].
  split; [|split; [rewrite S; reflexivity | exact FO]].
  assert (K : forall ty d r, record_bytes ty d = Ok r -> r <> []).
  { intros ty d r0. unfold record_bytes. destruct (to_bytes 2 (blen d)); [|discriminate]. intros E0 ->. discriminate. }
  clear FO S. cbn [send_fragments] in E. rewrite bind_get in E. intros ->.
  destruct (enc_on c); unfold bind in E.
  - destruct (encrypt_fragment C ct m data c) as [[e|e] c2]; [|discriminate]. unfold lift in E. destruct (record_bytes CT_APPDATA e) as [r|] eqn:Er; [|discriminate].
    apply K in Er. cbn in E. destruct r; [congruence | discriminate].
  - unfold lift in E. destruct (record_bytes ct data) as [r|] eqn:Er; [|discriminate]. apply K in Er. cbn in E. destruct r; [congruence | discriminate].
Qed.
Lemma leave ga c : reachable C ga c -> c_state c = Connected -> c_out c = [] -> room c ->
  exists n c', n <> [] /\ c_state c' = Closed true false /\
    forall l z, wclose C (c, mkSock l [] z) = (Ok tt, (c', mkSock l [] (z ++ n))).
Proof.
  intros R St O Rm. pose proof R as R0. destruct R0 as (c0 & ops & Cr & Ec).
  set (c1 := cset_state (Closed true true) c). assert (A : able c1).
  { split; [|exact (reachable_iv C ga c R)]. assert (M : mfl_good c) by (rewrite Ec; apply mfl_good_run; eapply created_mfl; exact Cr). exact M. }
  assert (Rm' : room c1) by exact Rm.
  destruct (small_frag_goes C CT_ALERT [x01; x00] c1 AS A Rm' ltac:(vm_compute; discriminate)) as (r & c2 & E).
  destruct (fragment_some _ _ _ _ _ _ E) as (Nr & S2 & O2).
  assert (Cl : close_sending_end C c = (Ok tt, cset_state (Closed true false) (cset_out r c2))).
  { unfold close_sending_end. rewrite bind_get, St. change (bind (set_state (Closed true true)) ?k c) with (k tt c1). cbv beta. rewrite bind_get. change (can_send (c_state c1)) with true. cbv iota.
    unfold bind at 1. unfold send_content. rewrite bind_get. change (content_type (KAlert WARNING CLOSE_NOTIFY) =? CT_APPDATA) with false. cbn [andb].
    change (can_send (c_state c1)) with true. cbn [negb]. cbv iota beta. change (ser_content C (KAlert WARNING CLOSE_NOTIFY)) with (Ok [x01; x00]).
    change (bind (lift (Ok ?v)) ?k c1) with (k v c1). cbv beta. change (bind (ret tt) ?k c1) with (k tt c1). cbv beta. rewrite bind_get.
    unfold fragments_of. rewrite (small_limit c1 _ (proj1 A)) by (vm_compute; discriminate). change (bind (lift (Ok ?v)) ?k c1) with (k v c1). cbv beta.
    change (content_type (KAlert WARNING CLOSE_NOTIFY)) with CT_ALERT. unfold bind. rewrite E. unfold modify. cbn [c_state cset_out]. rewrite S2, O2. cbn [c_state c1 cset_state c_out]. rewrite O. reflexivity. }
  exists r. eexists. split; [exact Nr|]. split; [|intros l z; unfold wclose, wbind, on_conn; cbn [fst snd]; rewrite Cl].
  2:{ unfold flush, wbind, on_conn, data_to_send, bind, get, modify, ret. cbn [fst snd c_out cset_state cset_out]. replace (is_nil r) with false by (destruct r; [congruence | reflexivity]).
      unfold sock_send. cbn [fst snd sk_accept sk_recv sk_sent]. reflexivity. }
  reflexivity.
Qed.
End exchange.
