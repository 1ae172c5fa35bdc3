(* The transcript, and what parsing a message tells about its bytes. *)
From Verif Require Import Base P_Base Iana Crypto Config Serial Ext Msg Hkdf Cipher Kex Sig Ocsp Transcript Conn S_Serial S_Auth P_Serial.

(* --- the fold over the messages ----------------------------------------- *)
Definition hear (C : crypto) (h hc : hashalg) (keep : bool) (ms : list hmsg) : hashalg * bytes :=
  fold_left (heard_step C h keep) ms (hc, []).
Lemma heard_hear C h hc keep ms : heard C h hc keep ms = snd (hear C h hc keep ms).
Proof. reflexivity. Qed.
Lemma hear_app C h hc keep a b : hear C h hc keep (a ++ b) = fold_left (heard_step C h keep) b (hear C h hc keep a).
Proof. apply fold_left_app. Qed.
Lemma hear_plain C h hc keep a m : is_retry m = false ->
  hear C h hc keep (a ++ [m]) = (fst (hear C h hc keep a), snd (hear C h hc keep a) ++ m_data m).
Proof. intro H. rewrite hear_app. cbn. destruct (hear C h hc keep a) as [x y]. cbn. rewrite H. reflexivity. Qed.
Lemma hear_retry C h hc keep a m : is_retry m = true ->
  hear C h hc keep (a ++ [m]) = (h, synthetic h (cr_hash C (fst (hear C h hc keep a)) (snd (hear C h hc keep a)))
                                     ++ (if keep then m_data m else [])).
Proof. intro H. rewrite hear_app. cbn. destruct (hear C h hc keep a) as [x y]. cbn. rewrite H. reflexivity. Qed.
Lemma heard_plain C h hc keep a m : is_retry m = false ->
  heard C h hc keep (a ++ [m]) = heard C h hc keep a ++ m_data m.
Proof. intro H. rewrite heard_hear, hear_plain by exact H. reflexivity. Qed.
Lemma heard_plains C h hc keep a l : forallb (fun m => negb (is_retry m)) l = true ->
  heard C h hc keep (a ++ l) = heard C h hc keep a ++ concat (map m_data l).
Proof.
  revert a. induction l as [|m l IH]; intros a H; [rewrite !app_nil_r; reflexivity|].
  cbn in H. apply andb_true_iff in H as [H1 H2]. apply negb_true_iff in H1.
  change (a ++ m :: l) with (a ++ [m] ++ l). rewrite app_assoc, IH by exact H2.
  rewrite heard_plain by exact H1. cbn. rewrite <- app_assoc. reflexivity.
Qed.
Lemma is_retry_type m : m_type m <> 2 -> is_retry m = false.
Proof. unfold is_retry. intro H. apply N.eqb_neq in H. rewrite H. reflexivity. Qed.

(* no retry: the concatenation of the messages *)
Lemma heard_rfc_plain C h hc keep ms : forallb (fun m => negb (is_retry m)) ms = true ->
  heard C h hc keep ms = rfc_messages C h ms.
Proof.
  intro H. pose proof (heard_plains C h hc keep [] ms H) as E. cbn [app] in E. rewrite E. cbn [heard fold_left snd app].
  unfold rfc_messages. destruct ms as [|a [|b l]]; try reflexivity.
  cbn in H. apply andb_true_iff in H as [_ H]. apply andb_true_iff in H as [H _]. apply negb_true_iff in H. rewrite H. reflexivity.
Qed.
(* one retry, kept *)
Lemma heard_rfc_retry C h ch hrr rest : is_retry ch = false -> is_retry hrr = true ->
  forallb (fun m => negb (is_retry m)) rest = true ->
  heard C h h true (ch :: hrr :: rest) = rfc_messages C h (ch :: hrr :: rest).
Proof.
  intros H1 H2 H3. change (ch :: hrr :: rest) with ([ch; hrr] ++ rest). rewrite heard_plains by exact H3.
  unfold rfc_messages. cbn [app]. rewrite H2. rewrite (app_assoc (synthetic _ _)). f_equal.
  unfold heard. cbn. rewrite H1. cbn. rewrite H2. reflexivity.
Qed.

(* --- the transcript object ----------------------------------------------- *)
Lemma tr_new_shape flip suites t : tr_new flip suites = Ok t ->
  exists hl, hl <> [] /\ t = mkTr (map (fun h => (h, [])) hl) 1.
Proof.
  unfold tr_new. intro H. apply rbind_ok in H as (l & _ & H).
  destruct (is_nil l) eqn:E; [discriminate|]. apply is_nil_false in E. injection H; intros <-.
  eexists. split; [|reflexivity]. destruct flip; [|exact E].
  intro R. apply E. rewrite <- (rev_involutive l), R. reflexivity.
Qed.
Lemma tr_new_hashes flip suites t : tr_new flip suites = Ok t ->
  forall h, In h (map fst (t_hashes t)) -> exists s, In s suites /\ suite_hash s = Some h.
Proof.
  unfold tr_new. intro H. apply rbind_ok in H as (l & F & H).
  assert (K : forall h, In h l -> exists s, In s suites /\ suite_hash s = Some h).
  { clear H. revert l F. induction suites as [|s suites IH]; cbn [fold_right]; intros l F.
    - assert (l = []) by congruence. subst l. intros h [].
    - apply rbind_ok in F as (l0 & F & E). destruct (suite_hash s) as [h0|] eqn:Es; [|discriminate].
      intros h Ih. assert (X : h = h0 \/ In h l0).
      { destruct (existsb (hashalg_eqb h0) l0); [right; congruence|]. assert (l = h0 :: l0) by congruence. subst l.
        destruct Ih as [->|Ih]; [left; reflexivity | right; exact Ih]. }
      destruct X as [->|X]; [exists s; split; [left; reflexivity | exact Es]|].
      destruct (IH l0 F h X) as (s' & I' & E'). exists s'. split; [right; exact I' | exact E']. }
  destruct (is_nil l); [discriminate|]. assert (Et : t = mkTr (map (fun h => (h, [])) (if flip then rev l else l)) 1) by congruence.
  subst t. cbn [t_hashes]. intros h Ih. rewrite map_map in Ih. cbn [fst] in Ih. rewrite map_id in Ih.
  apply K. destruct flip; [apply in_rev; exact Ih | exact Ih].
Qed.
Definition feed (d : bytes) (l : list (hashalg * bytes)) := map (fun p : hashalg * bytes => (fst p, snd p ++ d)) l.
(* messages of the server, in the slots 2 to 7 *)
Definition server_slot (i : nat) (ty : N) : option nat :=
  match i with
  | 2%nat => if ty =? SERVER_HELLO then Some 3%nat else None
  | 3%nat => if ty =? ENCRYPTED_EXTENSIONS then Some 4%nat else None
  | 4%nat => if ty =? CERTIFICATE_REQUEST then Some 5%nat else if ty =? CERTIFICATE then Some 6%nat else None
  | 5%nat => if ty =? CERTIFICATE then Some 6%nat else None
  | 6%nat => if ty =? CERTIFICATE_VERIFY then Some 7%nat else None
  | 7%nat => if ty =? FINISHED then Some 8%nat else None
  | _ => None
  end.
Lemma server_slots d ty l i t : (2 <= i <= 7)%nat -> tr_update d Server ty (mkTr l i) = (Ok tt, t) ->
  exists j, server_slot i ty = Some j /\ t = mkTr (feed d l) j.
Proof.
  intros Hi. assert (Ci : i = 2%nat \/ i = 3%nat \/ i = 4%nat \/ i = 5%nat \/ i = 6%nat \/ i = 7%nat) by lia. clear Hi. unfold tr_update;
  destruct Ci as [-> | [-> | [-> | [-> | [-> | ->]]]]];
  cbn -[N.eqb feed]; unfold feed; intro H.
  all: repeat (match type of H with context [?a =? ?b] =>
         first [match goal with E : (a =? b) = _ |- _ => rewrite E in H end | destruct (a =? b) eqn:?] end;
         cbn -[N.eqb] in H; try discriminate).
  all: inversion H; subst; eexists; split; reflexivity.
Qed.
(* and never in the later ones *)
Lemma server_slots_over d ty l i r t : (3 <= i <= 11)%nat -> tr_update d Server ty (mkTr l i) = (r, t) ->
  (3 <= t_i t <= 11)%nat /\ (r = Ok tt -> ty <> SERVER_HELLO).
Proof.
  intros Hi. assert (Ci : i = 3%nat \/ i = 4%nat \/ i = 5%nat \/ i = 6%nat \/ i = 7%nat \/ i = 8%nat \/ i = 9%nat \/ i = 10%nat \/ i = 11%nat) by lia. clear Hi. unfold tr_update;
  destruct Ci as [-> | [-> | [-> | [-> | [-> | [-> | [-> | [-> | ->]]]]]]]];
  cbn -[N.eqb feed]; unfold feed; intro H.
  all: repeat (match type of H with context [?a =? ?b] =>
         first [match goal with E : (a =? b) = _ |- _ => rewrite E in H end | destruct (a =? b) eqn:?] end;
         cbn -[N.eqb] in H; try discriminate).
  all: inversion H; subst; cbn; (split; [lia|]); try discriminate.
  all: intros _ ->; discriminate.
Qed.
Lemma tr_end d sd ty l : tr_update d sd ty (mkTr l 12) = (Ok tt, mkTr l 12).
Proof. reflexivity. Qed.
Lemma tr_client_hello d l : tr_update d Client CLIENT_HELLO (mkTr l 1) = (Ok tt, mkTr (feed d l) 2).
Proof. reflexivity. Qed.
Lemma tr_client_finished d l : tr_update d Client FINISHED (mkTr l 8) = (Ok tt, mkTr (feed d l) 12).
Proof. reflexivity. Qed.
Lemma feed_map d e (hl : list hashalg) : feed e (map (fun h => (h, d)) hl) = map (fun h => (h, d ++ e)) hl.
Proof. unfold feed. rewrite map_map. reflexivity. Qed.
Lemma find_map_hash h d (hl : list hashalg) p :
  find (fun p : hashalg * bytes => hashalg_eqb (fst p) h) (map (fun h => (h, d)) hl) = Some p -> p = (h, d).
Proof.
  induction hl as [|a hl IH]; [discriminate|]. cbn. destruct (hashalg_eqb a h) eqn:E; [|exact IH].
  intro H. injection H; intros <-. destruct a, h; cbn in E; congruence.
Qed.

(* --- parsing -------------------------------------------------------------- *)
Lemma parse_content_hs C p d h : parse_content C p CT_HANDSHAKE d = Ok (KHandshake h) ->
  exists s, parse_hs C p (stream_of d) = Ok (h, s).
Proof.
  unfold parse_content. change (CT_HANDSHAKE =? CT_CCS) with false. change (CT_HANDSHAKE =? CT_ALERT) with false.
  change (CT_HANDSHAKE =? CT_HANDSHAKE) with true. cbv zeta iota beta.
  destruct (parse_hs C p (stream_of d)) as [[h1 s]|e]; cbn [rbind].
  - destruct (assert_eof s); cbn [rbind]; intro H.
    + injection H; intros <-. eauto.
    + destruct (is_buffer_error _); discriminate.
  - destruct (is_buffer_error _); discriminate.
Qed.
Lemma with_limit_ok {A} len (body : N -> stream -> res (A * stream)) s x s1 : with_limit len body s = Ok (x, s1) ->
  exists s2, body (s_pos s + len) (mkStream (s_data s) (s_pos s) (s_pos s + len :: s_limits s)) = Ok (x, s2).
Proof.
  unfold with_limit. intro H. destruct (match s_limits s with [] => false | lim :: _ => lim <? s_pos s + len end); [discriminate|].
  apply rbind_ok in H as [[y s2] [H1 H]]. destruct (s_limits s2); [discriminate|].
  destruct (negb _); [discriminate|]. destruct (_ =? _); [|discriminate]. injection H; intros; subst. eauto.
Qed.
Definition is_cert (h : hs) : bool := match h with HCert _ _ => true | _ => false end.
Lemma parse_certificate_cert C p s h s1 : parse_certificate C p s = Ok (h, s1) -> is_cert h = true.
Proof.
  unfold parse_certificate. destruct p as [[ct|]|]; try discriminate. destruct (negb _); [discriminate|].
  intro H. apply rbind_ok in H as [[a s2] [_ H]]. apply rbind_ok in H as [[b s3] [_ H]]. apply rbind_ok in H as [[l s4] [_ H]].
  injection H; intros; subst. reflexivity.
Qed.
Lemma parse_hs_pct C p p' s h s1 : parse_hs C p s = Ok (h, s1) -> is_cert h = false -> parse_hs C p' s = Ok (h, s1).
Proof.
  unfold parse_hs. intros H Hc. destruct (read_int 1 s) as [[ty s2]|]; [|discriminate]. cbn [rbind] in *.
  destruct (read_int 3 s2) as [[len s3]|]; [|discriminate]. cbn [rbind] in *.
  repeat (match type of H with context [if ?b then _ else _] => destruct b eqn:? end; try exact H).
  apply with_limit_ok in H as [s4 H]. apply parse_certificate_cert in H. congruence.
Qed.
Lemma parse_content_pct C p p' d h : parse_content C p CT_HANDSHAKE d = Ok (KHandshake h) -> is_cert h = false ->
  parse_content C p' CT_HANDSHAKE d = Ok (KHandshake h).
Proof.
  intros H Hc. pose proof (parse_content_hs C p d h H) as [s E].
  pose proof (parse_hs_pct C p p' _ _ _ E Hc) as E'. revert H. unfold parse_content.
  change (CT_HANDSHAKE =? CT_CCS) with false. change (CT_HANDSHAKE =? CT_ALERT) with false.
  change (CT_HANDSHAKE =? CT_HANDSHAKE) with true. cbv zeta iota beta. rewrite E, E'. exact (fun H => H).
Qed.
(* the random of a ServerHello *)
Lemma parse_sh_random C p d hrr random sid suite exts :
  parse_content C p CT_HANDSHAKE d = Ok (KHandshake (HServerHello hrr random sid suite exts)) ->
  is_retry (Server, SERVER_HELLO, d) = hrr.
Proof.
  intro H. apply parse_content_hs in H as [s H]. unfold parse_hs in H.
  apply rbind_ok in H as [[ty s1] [H1 H]]. apply rbind_ok in H as [[len s2] [H2 H]]. cbn zeta in H.
  assert (W : exists q s3, q (mkStream (s_data s2) (s_pos s2) (s_pos s2 + len :: s_limits s2)) = Ok (HServerHello hrr random sid suite exts, s3) /\
    (q = parse_server_hello C \/ (forall s h s1, q s = Ok (h, s1) -> match h with HServerHello _ _ _ _ _ => False | _ => True end))).
  { repeat match type of H with context [if ?b then _ else _] => destruct b end; try discriminate;
      apply with_limit_ok in H as [s3 H]; try discriminate H; (eexists; exists s3; split; [exact H|]); try (left; reflexivity); right; clear; intros s h s1 H.
    - unfold parse_client_hello in H. apply rbind_ok in H as [[v t1] [_ H]]. destruct (negb _); [discriminate|].
      do 4 (apply rbind_ok in H as [[? ?] [_ H]]). destruct (negb _); [discriminate|].
      apply rbind_ok in H as [[? ?] [_ H]]. apply rbind_ok in H as [h0 [_ H]]. destruct h0; try discriminate. injection H; intros; subst; exact I.
    - apply rbind_ok in H as [[? ?] [_ H]]. injection H; intros; subst; exact I.
    - apply parse_certificate_cert in H. destruct h; try discriminate; exact I.
    - do 2 (apply rbind_ok in H as [[? ?] [_ H]]). cbv zeta in H. match type of H with context [if ?b then _ else _] => destruct b end; [|discriminate]. injection H; intros; subst; exact I.
    - do 2 (apply rbind_ok in H as [[? ?] [_ H]]). injection H; intros; subst; exact I. }
  destruct W as (q & s3 & W & [-> | N]); [|destruct (N _ _ _ W)].
  assert (I0 : inside (stream_of d)) by (split; cbn; [lia | exact I]).
  assert (R : forall n t v t1, inside t -> read_int n t = Ok (v, t1) -> s_data t1 = s_data t /\ s_limits t1 = s_limits t /\ inside t1 /\ s_pos t1 = s_pos t + n).
  { clear. intros n t v t1 J H. unfold read_int in H. destruct (n =? 0); [discriminate|]. apply rbind_ok in H as [[b t2] [H1 H]].
    injection H; intros; subst. apply read_exactly_spec in H1 as (A & B & D & _ & _ & E); auto. }
  destruct (R _ _ _ _ I0 H1) as (A1 & L1 & J1 & P1). destruct (R _ _ _ _ J1 H2) as (A2 & L2 & J2 & P2).
  unfold parse_server_hello in W. apply rbind_ok in W as [[v t1] [W1 W]]. destruct (negb _); [discriminate|].
  apply rbind_ok in W as [[rd t2] [W2 W]]. apply rbind_ok in W as [[sd t3] [_ W]]. apply rbind_ok in W as [[su t4] [_ W]].
  apply rbind_ok in W as [[co t5] [_ W]]. destruct (negb _); [discriminate|]. apply rbind_ok in W as [[ex t6] [_ W]].
  injection W; intros _ _ _ _ _ <-. clear W.
  assert (J : inside (mkStream (s_data s2) (s_pos s2) (s_pos s2 + len :: s_limits s2))).
  { destruct J2 as [J2 _]. split; cbn; [exact J2 | lia]. }
  destruct (R _ _ _ _ J W1) as (A3 & L3 & J3 & P3). cbn [s_data s_pos] in *.
  apply read_exactly_spec in W2 as (_ & _ & _ & E & _ & P4); [|exact J3].
  unfold is_retry, m_type, m_data; cbn [fst snd]. change (SERVER_HELLO =? 2) with true. cbn [andb].
  change retry_random with hrr_random. f_equal. rewrite E. unfold slice. rewrite A3, A2, A1. cbn [s_data stream_of].
  assert (Hp : s_pos t1 = 6) by (rewrite P3, P2, P1; cbn; lia). rewrite P4, Hp. reflexivity.
Qed.
(* and of the one we send *)
Lemma ser_sh_random C hrr random sid suite exts d : blen random = 32 ->
  ser_content C (KHandshake (HServerHello hrr random sid suite exts)) = Ok d ->
  is_retry (Server, SERVER_HELLO, d) = beqb random retry_random.
Proof.
  intros L H. unfold ser_content, ser_hs in H. apply rbind_ok in H as (b & Hb & H). cbn [msg_type] in H.
  apply rbind_ok in H as (t & Ht & H). apply rbind_ok in H as (e & He & H). injection H; intros <-.
  unfold ser_hs_body in Hb. apply rbind_ok in Hb as (x & _ & Hb). apply rbind_ok in Hb as (v & Hv & Hb).
  do 4 (apply rbind_ok in Hb as (? & _ & Hb)). injection Hb; intros <-.
  apply to_bytes_ok in Ht as (_ & _ & Lt & _). apply to_bytes_ok in Hv as (_ & _ & Lv & _). apply put_var_ok in He as [-> _].
  unfold is_retry, m_type, m_data; cbn [fst snd]. change (SERVER_HELLO =? 2) with true. cbn [andb]. f_equal.
  match goal with |- btake _ (bdrop _ (t ++ ?l ++ v ++ ?r)) = _ => replace (t ++ l ++ v ++ r) with ((t ++ l ++ v) ++ r) by (rewrite <- !app_assoc; reflexivity) end.
  rewrite bdrop_app_exact' by (rewrite !blen_app, blen_be_bytes, Lt, Lv; reflexivity).
  apply btake_app_exact'. symmetry. exact L.
Qed.
