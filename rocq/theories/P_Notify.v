(* A close_notify on its way, alone or behind a record of application data. *)
From Verif Require Import Base P_Base Iana Crypto Config Serial Ext Msg Cipher Conn Wrapper S_Hist S_Conn S_Send S_Nonce S_Alert S_Auth S_Deliver S_Net S_Split S_Chat
  P_Monad P_Frame P_Rec P_Send P_Hist P_Honest2 P_Nonce P_Count P_Flight P_Alert P_Alert2 P_Auth P_Split P_Deliver P_Pieces P_Entire P_Net P_Net2 P_Chat P_Talk P_Talk2 P_Talk3 P_Wire.
Local Open Scope N_scope.

Section notify.
Variable C : crypto.
Hypothesis AC : aead_correct C.
Hypothesis AS : aead_sized C.

(* the close_notify sealed with [x] *)
Definition note (m : N) (x : cs) : bytes := sealed_record C (cs_suite x) (seal_at CT_ALERT m x [x01; x00]).
Definition note_fits (m : N) (x : cs) : Prop :=
  let s := seal_at CT_ALERT m x [x01; x00] in
  P_Send.ready (cs_w x) /\
  blen (cr_seal C (cs_suite x) (se_key s) (se_nonce s) (se_data s) (se_aad s)) = blen (se_data s) + tag_length (cs_suite x) /\
  blen (se_data s) + tag_length (cs_suite x) <= m /\ m < 65536.

Lemma close_goes g c : reachable C g c -> c_state c = Connected \/ c_state c = Closed true true -> room c -> fst (close_sending_end C c) = Ok tt.
Proof.
  intros R St Rm. pose proof R as R0. destruct R0 as (c0 & ops & Cr & Ec).
  set (c1 := cset_state (Closed true true) c).
  assert (M : mfl_good c) by (rewrite Ec; apply mfl_good_run; eapply created_mfl; exact Cr).
  assert (A : able c1) by (split; [exact M | exact (reachable_iv C g c R)]).
  assert (Rm' : room c1) by exact Rm.
  destruct (small_frag_goes C CT_ALERT [x01; x00] c1 AS A Rm' ltac:(vm_compute; discriminate)) as (r & c2 & E).
  unfold close_sending_end. rewrite bind_get.
  assert (E1 : (match c_state c with Closed _ _ | Failed => ret tt | _ => set_state (Closed true true) end) c = (Ok tt, c1)).
  { destruct St as [St|St]; rewrite St; [reflexivity|]. unfold ret, c1. f_equal. rewrite <- St. destruct c; reflexivity. }
  unfold bind at 1. rewrite E1. rewrite bind_get. change (can_send (c_state c1)) with true. cbv iota.
  unfold bind at 1. unfold send_content. rewrite bind_get. change (content_type (KAlert WARNING CLOSE_NOTIFY) =? CT_APPDATA) with false. cbn [andb].
  change (can_send (c_state c1)) with true. cbn [negb]. cbv iota beta. change (ser_content C (KAlert WARNING CLOSE_NOTIFY)) with (Ok [x01; x00]).
  change (bind (lift (Ok ?v)) ?k c1) with (k v c1). cbv beta. change (bind (ret tt) ?k c1) with (k tt c1). cbv beta. rewrite bind_get.
  unfold fragments_of. rewrite (small_limit c1 _ (proj1 A)) by (vm_compute; discriminate). change (bind (lift (Ok ?v)) ?k c1) with (k v c1). cbv beta.
  change (content_type (KAlert WARNING CLOSE_NOTIFY)) with CT_ALERT. unfold bind. rewrite E. reflexivity.
Qed.
Lemma leave_seal ga c x : reachable C ga c -> c_state c = Connected \/ c_state c = Closed true true -> c_out c = [] -> room c ->
  c_cipher c = Some x -> must_encrypt x = true ->
  note_fits (max_frag c) x /\ exists c', c_state c' = Closed true false /\
    forall l z, wclose C (c, mkSock l [] z) = (Ok tt, (c', mkSock l [] (z ++ note (max_frag c) x))).
Proof.
  intros R St O Rm Ex Em. pose proof R as R0. destruct R0 as (c0 & ops & Cr & Ec).
  set (c1 := cset_state (Closed true true) c).
  assert (M : mfl_good c) by (rewrite Ec; apply mfl_good_run; eapply created_mfl; exact Cr). pose proof (mfl_good_max _ M) as V. pose proof (valid_mfl_range _ V) as Vr.
  clear Ec Cr. assert (A : able c1) by (split; [exact M | exact (reachable_iv C ga c R)]).
  assert (Rm' : room c1) by exact Rm.
  destruct (small_frag_goes C CT_ALERT [x01; x00] c1 AS A Rm' ltac:(vm_compute; discriminate)) as (r & c2 & E).
  destruct (fragment_some C _ _ _ _ _ _ E) as (Nr & S2 & O2).
  assert (Cl : close_sending_end C c = (Ok tt, cset_state (Closed true false) (cset_out r c2))).
  { unfold close_sending_end. rewrite bind_get.
    assert (E1 : (match c_state c with Closed _ _ | Failed => ret tt | _ => set_state (Closed true true) end) c = (Ok tt, c1)).
    { destruct St as [St|St]; rewrite St; [reflexivity|]. unfold ret, c1. f_equal. rewrite <- St. destruct c; reflexivity. }
    unfold bind at 1. rewrite E1. rewrite bind_get. change (can_send (c_state c1)) with true. cbv iota.
    unfold bind at 1. unfold send_content. rewrite bind_get. change (content_type (KAlert WARNING CLOSE_NOTIFY) =? CT_APPDATA) with false. cbn [andb].
    change (can_send (c_state c1)) with true. cbn [negb]. cbv iota beta. change (ser_content C (KAlert WARNING CLOSE_NOTIFY)) with (Ok [x01; x00]).
    change (bind (lift (Ok ?v)) ?k c1) with (k v c1). cbv beta. change (bind (ret tt) ?k c1) with (k tt c1). cbv beta. rewrite bind_get.
    unfold fragments_of. rewrite (small_limit c1 _ (proj1 A)) by (vm_compute; discriminate). change (bind (lift (Ok ?v)) ?k c1) with (k v c1). cbv beta.
    change (content_type (KAlert WARNING CLOSE_NOTIFY)) with CT_ALERT. unfold bind. rewrite E. unfold modify. cbn [c_state cset_out]. rewrite S2, O2. cbn [c_state c1 cset_state c_out]. rewrite O. reflexivity. }
  assert (Ex1 : c_cipher c1 = Some x) by exact Ex.
  assert (Rd : P_Send.ready (cs_w x)).
  { pose proof E as E0. cbn [send_fragments] in E0. rewrite bind_get in E0. unfold enc_on in E0. rewrite Ex1, Em in E0.
    unfold bind at 1 2 in E0. destruct (encrypt_fragment C CT_ALERT (max_frag c1) [x01; x00] c1) as [[b|e] c3] eqn:G; [|discriminate].
    apply (encrypt_fragment_ok _ _ _ _ _ _ _ _ Ex1) in G. apply G. }
  apply (send_fragments_enc C CT_ALERT (max_frag c1) [[x01; x00]] c1 r c2 x Ex1 Em) in E.
  cbn [seals map concat length bumps rev app] in E. rewrite app_nil_r in E. change (max_frag c1) with (max_frag c) in E.
  destruct E as (E1 & E2 & E3). inversion E2 as [|? ? [E4 E5] _]; subst.
  split.
  { split; [exact Rd|]. split; [exact E4|]. split; [|lia].
    unfold seal_at. cbn [se_data]. rewrite blen_inner. pose proof (tag_small (cs_suite x)).
    assert (L2 : blen [x01; x00] = 2) by reflexivity. rewrite L2.
    pose proof (pad_short (max_frag c) (tag_length (cs_suite x)) 2 V) as P. specialize (P ltac:(lia)). lia. }
  eexists. split; [|intros l z; unfold wclose, wbind, on_conn; cbn [fst snd]; rewrite Cl].
  2:{ unfold flush, wbind, on_conn, data_to_send, bind, get, modify, ret. cbn [fst snd c_out cset_state cset_out].
      fold (note (max_frag c) x) in *. replace (is_nil (note (max_frag c) x)) with false by (destruct (note (max_frag c) x); [congruence | reflexivity]).
      unfold sock_send. cbn [fst snd sk_accept sk_recv sk_sent]. reflexivity. }
  reflexivity.
Qed.

Lemma note_w m x x' : cs_w x = cs_w x' -> cs_suite x = cs_suite x' -> note m x = note m x'.
Proof. intros A B. unfold note. rewrite (seal_at_w CT_ALERT m x x' _ A B), B. reflexivity. Qed.
Lemma note_fits_w m x x' : cs_w x = cs_w x' -> cs_suite x = cs_suite x' -> note_fits m x -> note_fits m x'.
Proof. intros A B. unfold note_fits. rewrite (seal_at_w CT_ALERT m x x' _ A B), A, B. auto. Qed.

Lemma read_note c y x m rest : hears c y (note m x ++ rest) -> m <= max_frag c + 256 -> note_fits m x -> mirrored x y ->
  guarded C (receive_one C) c = (Ok true, cset_state (Closed true true) (cset_cipher (Some (bump_r y)) (cset_in rest c))).
Proof.
  intros (He & Hi & Hc & Hy & Hd) Lm ((k & iv & q & R1 & R2 & R3 & R4 & R5) & L1 & L2 & L3) (Hs & Hk & Hv & Hq).
  set (s := seal_at CT_ALERT m x [x01; x00]) in *.
  set (p := cr_seal C (cs_suite x) (se_key s) (se_nonce s) (se_data s) (se_aad s)) in *.
  assert (Rec : note m x = record CT_APPDATA p) by reflexivity.
  rewrite Rec in Hc.
  destruct (P_Deliver.record_head CT_APPDATA p rest) as (H1 & H2 & H3 & H4 & H5); [reflexivity | lia |].
  assert (RR : read_next_record C c =
    (Ok (Some (CT_ALERT, [x01; x00])), cset_cipher (Some (bump_r y)) (cset_in rest c))).
  { rewrite read_record_eq. cbv zeta. rewrite Hc.
    assert (Sk : skip_ccs (record CT_APPDATA p ++ rest) = record CT_APPDATA p ++ rest) by reflexivity.
    rewrite Sk, H1. unfold rec_max, dec_on. rewrite Hy, Hd.
    replace (_ <? 5) with false by (symmetry; apply N.ltb_ge; rewrite blen_app, H5; lia).
    replace (_ <? blen p) with false by (symmetry; apply N.ltb_ge; lia).
    replace (_ - 5 <? blen p) with false by (symmetry; apply N.ltb_ge; rewrite blen_app, H5; lia).
    unfold unprotect. rewrite bind_get. cbv zeta. rewrite H1, H2, H3, H4.
    unfold dec_on. change (c_cipher (cset_in rest c)) with (c_cipher c). rewrite Hy, Hd.
    unfold bind at 1. unfold on_cipher. rewrite bind_get.
    change (c_cipher (cset_in rest c)) with (c_cipher c). rewrite Hy.
    unfold decrypt. rewrite Hk, R1. unfold next_nonce. rewrite Hv, R2, Hq, R3.
    unfold seq_next. apply N.ltb_lt in R4. rewrite R4, (to_bytes_lt 12) by exact R5.
    rewrite Hs.
    assert (O : cr_open C (cs_suite x) k (be_bytes 12 (N.lxor iv (q_next q))) p
                  (Nb CT_APPDATA :: x03 :: x03 :: be_bytes 2 (blen p)) = Some (se_data s)).
    { unfold p, s, seal_at. cbn [se_key se_nonce se_data se_aad].
      unfold key_of, nonce_of, aad_of. rewrite R1, R2, R3.
      match goal with |- cr_open _ _ _ _ ?P ?A = _ => replace A with
        (Nb CT_APPDATA :: x03 :: x03 :: be_bytes 2 (blen (se_data s) + tag_length (cs_suite x))) end.
      2:{ rewrite <- L1. unfold p, s, seal_at. cbn [se_key se_nonce se_data se_aad].
          unfold key_of, nonce_of, aad_of. rewrite R1, R2, R3. reflexivity. }
      unfold s, seal_at. cbn [se_data]. apply AC. }
    rewrite O. rewrite bind_modify. unfold lift.
    unfold s, seal_at. cbn [se_data].
    destruct (inner_sender (KAlert WARNING CLOSE_NOTIFY) m (tag_length (cs_suite x)) [x01; x00]) as (n & _ & I).
    change (content_type (KAlert WARNING CLOSE_NOTIFY)) with CT_ALERT in I. rewrite I.
    change (CT_ALERT =? CT_CCS) with false. cbv iota.
    unfold bump_r, bump_dir. rewrite Hk, Hq, R1, R3, Hv, R2. reflexivity. }
  unfold guarded, receive_one, read_next_content.
  unfold bind at 1 2. rewrite RR. rewrite bind_get. cbn [c_inhs cset_cipher cset_in]. rewrite Hi.
  change (is_nil [] && negb (CT_ALERT =? CT_HANDSHAKE)) with true. cbv iota. unfold ret at 1. cbv iota.
  unfold handle_content. unfold bind at 1. rewrite bind_get. unfold lift at 1. unfold bind at 1. rewrite parse_alert_any.
  change (alert_content C x01 x00) with (@Ok content (KAlert WARNING CLOSE_NOTIFY)).
  unfold bind at 1. unfold ret at 1.
  assert (P : process C (KAlert WARNING CLOSE_NOTIFY) (cset_cipher (Some (bump_r y)) (cset_in rest c)) =
    (Ok tt, cset_state (Closed true true) (cset_cipher (Some (bump_r y)) (cset_in rest c)))).
  { unfold process. rewrite bind_get. cbn [c_state cset_cipher cset_in].
    destruct (c_state c) as [ | | | | | | | | | | |r w| ]; try discriminate He; [reflexivity|]. destruct r; [reflexivity | discriminate He]. }
  rewrite P. reflexivity.
Qed.

Lemma note_stop c y x m t : hears c y (c_in c) -> m <= max_frag c + 256 -> note_fits m x -> c_in c ++ t = note m x -> t <> [] ->
  guarded C (receive_one C) c = (Ok false, c).
Proof.
  intros (He & Hi & _ & Hy & Hd) Lm (_ & L1 & L2 & L3) Eq Nt. unfold note in Eq.
  set (s := seal_at CT_ALERT m x [x01; x00]) in *. unfold sealed_record in Eq.
  set (p := cr_seal C (cs_suite x) (se_key s) (se_nonce s) (se_data s) (se_aad s)) in *.
  assert (L : blen (c_in c) < blen (record CT_APPDATA p)).
  { rewrite <- Eq, blen_app. destruct t; [congruence|]. rewrite blen_cons. lia. }
  assert (Sk : skip_ccs (c_in c) = c_in c).
  { destruct (c_in c) as [|b0 i]; [reflexivity|]. cbn [app record] in Eq. injection Eq as -> _. reflexivity. }
  assert (Nn : read_next_record C c = (Ok None, c)).
  { rewrite read_record_eq. cbv zeta. rewrite Sk.
    replace (cset_in (c_in c) c) with c by (destruct c; reflexivity).
    destruct (blen (c_in c) <? 5) eqn:E; [reflexivity|]. apply N.ltb_ge in E.
    destruct (P_Deliver.record_head CT_APPDATA p []) as (H1 & H2 & H3 & H4 & H5); [reflexivity | lia |]. rewrite app_nil_r in H1.
    assert (RL : record_length (c_in c) = blen p).
    { rewrite <- H1, <- Eq. unfold record_length.
      rewrite bdrop_app_le by lia. rewrite btake_app_le by (rewrite blen_bdrop; lia). reflexivity. }
    rewrite RL. unfold rec_max, dec_on. rewrite Hy, Hd.
    replace (_ <? blen p) with false by (symmetry; apply N.ltb_ge; lia).
    replace (_ - 5 <? blen p) with true by (symmetry; apply N.ltb_lt; lia). reflexivity. }
  unfold guarded, receive_one, read_next_content. unfold bind at 1 2. rewrite Nn. reflexivity.
Qed.

(* the connection once it has the beginning [i] of the close_notify, [t] is yet to come *)
Definition noted (i t : bytes) (y : cs) (c : conn) : conn :=
  if is_nil t then cset_state (Closed true true) (cset_cipher (Some (bump_r y)) (cset_in [] c)) else cset_in i c.
Lemma note_loops c y x m t : hears c y (c_in c) -> m <= max_frag c + 256 -> note_fits m x -> mirrored x y -> c_in c ++ t = note m x ->
  loops C c (Ok tt, noted (c_in c) t y c).
Proof.
  intros H L F M E. destruct t as [|b t].
  - rewrite app_nil_r in E. unfold noted. cbn [is_nil]. eapply loops_more.
    + apply (read_note c y x m []); try assumption. rewrite app_nil_r, <- E. exact H.
    + apply loops_stop. apply read_empty. reflexivity.
  - unfold noted. cbn [is_nil]. replace (cset_in (c_in c) c) with c by (destruct c; reflexivity).
    apply loops_stop. eapply note_stop; try eassumption. discriminate.
Qed.

(* the bytes [rest], after those b has, are one record that holds [d] *)
Definition expects (m : N) (x y : cs) (b : conn) (rest d : bytes) : Prop :=
  m <= max_frag b + 256 /\ hears b y (c_in b) /\ mirrored x y /\ fits C m m x [d] /\ c_in b ++ rest = streamed C m x [d] /\ c_app b = [].

Lemma last_loops m x y b rest d p t : expects m x y b rest d -> note_fits m (bump_w x) -> p ++ t = note m (bump_w x) -> t <> [] \/ p <> [] ->
  loops C (ext (rest ++ p) b) (Ok tt, let z := cset_app d (cset_cipher (Some (bump_r y)) b) in noted p t (bump_r y) (cset_in p z)).
Proof.
  intros (L & H & M & F & E & Ab) Nf Ep Ne. destruct F as (F1 & F2 & F3 & F4 & _). pose proof H as (H1 & H2 & _ & H4 & H5). pose proof M as (M1 & M2 & M3 & M4).
  eapply loops_more.
  - apply (read_one C (ext (rest ++ p) b) y x m d p AC); try assumption; [|change (max_frag (ext (rest ++ p) b)) with (max_frag b); lia].
    split; [exact H1|]. split; [exact H2|]. split; [|split; assumption]. unfold ext. cbn [c_in cset_in]. rewrite app_assoc, E, streamed_cons.
    unfold streamed. cbn [seals map concat]. rewrite app_nil_r. reflexivity.
  - assert (X : cset_app (c_app (ext (rest ++ p) b) ++ d) (cset_cipher (Some (bump_r y)) (cset_in p (ext (rest ++ p) b))) = cset_in p (cset_app d (cset_cipher (Some (bump_r y)) b))).
    { unfold ext. cbn [c_app cset_in]. rewrite Ab. reflexivity. }
    rewrite X. apply (note_loops (cset_in p (cset_app d (cset_cipher (Some (bump_r y)) b))) (bump_r y) (bump_w x) m t); try assumption.
    + split; [exact H1|]. split; [exact H2|]. split; [reflexivity|]. split; [reflexivity|]. rewrite must_decrypt_bump. exact H5.
    + apply mirrored_bump. exact M.
Qed.

Lemma some_loops m x y b q r d : expects m x y b (q ++ r) d -> r <> [] -> loops C (ext q b) (Ok tt, ext q b).
Proof.
  intros (L & H & M & F & E & Ab) Nr. destruct H as (A & B & _ & D & G).
  apply loops_stop. destruct F as (F1 & F2 & F3 & F4 & _).
  apply (read_stop C (ext q b) x y m d [] r).
  - split; [exact A|]. split; [exact B|]. split; [reflexivity|]. split; assumption.
  - unfold ext. cbn [c_in cset_in]. rewrite <- app_assoc. exact E.
  - rewrite F2. exact F3.
  - rewrite F2. change (max_frag (ext q b)) with (max_frag b). lia.
  - rewrite streamed_cons in E. unfold sealed_record in E.
    set (pp := cr_seal C _ _ _ _ _) in *. assert (Z : blen (c_in b ++ q ++ r) = blen (record CT_APPDATA pp)).
    { rewrite E. unfold streamed. cbn [seals map concat]. rewrite app_nil_r. reflexivity. }
    rewrite <- Z. unfold ext. cbn [c_in cset_in]. rewrite !blen_app. destruct r; [congruence|]. rewrite blen_cons. lia.
Qed.

Definition rested (b t : conn) : Prop :=
  (c_state t = c_state b \/ c_state t = Closed true true) /\ c_out t = c_out b /\ c_log t = c_log b /\ max_frag t = max_frag b /\
  exists y z, c_cipher b = Some y /\ c_cipher t = Some z /\ cs_w z = cs_w y /\ cs_suite z = cs_suite y.
Lemma rested_w b t : rested b t -> rested b (cset_app [] t). Proof. exact (fun H => H). Qed.

Lemma receive_goes g b p x : p <> [] -> can_receive (c_state b) = true -> loops C (ext p b) (Ok tt, x) -> reachable C g b -> (length (c_log b) < 5000)%nat -> c_log x = c_log b ->
  receive_data C p b = (Ok tt, x) /\ reachable C g x.
Proof.
  intros Np Cr L R Lg El. pose proof (receive_loops C p b _ Np Cr L) as E. cbn [finish] in E.
  assert (Ex : after C (ORecv p) b = x).
  { unfold after, step, bind. rewrite E. cbn [finish]. destruct (rekeying x) as [[]|e]; reflexivity. }
  assert (Rx : reachable C g x) by (rewrite <- Ex; apply reachable_step; exact R).
  split; [|exact Rx]. rewrite E. rewrite (younger C g x Rx) by (rewrite El; exact Lg). reflexivity.
Qed.

Lemma last_loop g m x y d t : d <> [] -> note_fits m (bump_w x) -> forall ps n b rest p l z,
  (length ps < n)%nat -> (forall q, In q ps -> q <> []) ->
  expects m x y b rest d -> rest <> [] -> concat ps = rest ++ p -> p ++ t = note m (bump_w x) ->
  c_out b = [] -> reachable C g b -> (length (c_log b) < 5000)%nat ->
  exists b' ps', read_loop n C [] (b, mkSock (map Ok ps ++ l) [] z) = (Ok d, (b', mkSock (map Ok ps' ++ l) [] z)) /\
    rested b b' /\ reachable C g b' /\ (exists ps0, ps = ps0 ++ ps').
Proof.
  intros Nd Nf. induction ps as [|q ps IH]; intros n b rest p l z Ln Ne K Nr Ec Ep O R Lg; [destruct rest; [congruence | discriminate]|].
  destruct n as [|n]; [cbn in Ln; lia|]. pose proof K as (K1 & (A & B & _ & D & G) & K3 & K4 & K5 & K6).
  assert (Ic : is_connected b = true) by (unfold is_connected, established in *; destruct (c_state b) as [ | | | | | | | | | | |[] w| ]; try discriminate; auto).
  assert (Cr : can_receive (c_state b) = true) by (unfold established in *; destruct (c_state b) as [ | | | | | | | | | | |[] w| ]; try discriminate; auto).
  cbn [read_loop fst]. rewrite Ic. cbn [andb is_nil].
  assert (Hq : q <> []) by (apply Ne; left; reflexivity). assert (Ne' : forall q, In q ps -> q <> []) by (intros; apply Ne; right; assumption).
  unfold wbind at 1, sock_recv. cbn [map app sk_recv snd fst sk_accept sk_sent].
  replace (is_nil q) with false by (destruct q; [congruence | reflexivity]). cbn [concat] in Ec.
  assert (Tn : forall b1, receive_data C q b = (Ok tt, b1) -> c_out b1 = [] -> forall k : unit -> Wrapper.W bytes, wbind (turn C q) k (b, mkSock (map Ok ps ++ l) [] z) = k tt (b1, mkSock (map Ok ps ++ l) [] z)).
  { intros b1 E1 E2 k. unfold wbind at 1. rewrite (turn_eq C q b (mkSock (map Ok ps ++ l) [] z) b1 eq_refl E1), (fl_id _ E2), E2, app_nil_r. reflexivity. }
  assert (Fin : forall b1, receive_data C q b = (Ok tt, b1) -> c_out b1 = [] -> c_app b1 = d -> 
    wbind (turn C q) (fun _ => wbind (on_conn data_to_read) (fun more => read_loop n C ([] ++ more))) (b, mkSock (map Ok ps ++ l) [] z) = (Ok d, (cset_app [] b1, mkSock (map Ok ps ++ l) [] z))).
  { intros b1 E1 E2 E3. rewrite (Tn b1 E1 E2). change (wbind (on_conn data_to_read) ?f (b1, ?k)) with (f (c_app b1) (cset_app [] b1, k)). cbv beta. cbn [app]. rewrite E3.
    assert (E0 : is_nil d = false) by (destruct d; [congruence | reflexivity]). destruct n; cbn [read_loop]; rewrite E0, andb_false_r; reflexivity. }
  destruct (cut_at _ _ _ _ Ec) as [(r & -> & Er)|(p1 & -> & Np1 & E1)].
  - destruct r as [|r0 r].
    + rewrite app_nil_r in *.
      assert (L : loops C (ext q b) (Ok tt, cset_app d (cset_cipher (Some (bump_r y)) (cset_in [] b)))).
      { assert (Nn : note m (bump_w x) <> []) by discriminate.
        pose proof (last_loops m x y b q d [] (note m (bump_w x)) K Nf eq_refl (or_introl Nn)) as X. rewrite app_nil_r in X.
        unfold noted in X. replace (is_nil (note m (bump_w x))) with false in X by (destruct (note m (bump_w x)); [congruence | reflexivity]). exact X. }
      destruct (receive_goes g b q _ Hq Cr L R Lg eq_refl) as [E1 R1].
      exists (cset_app [] (cset_app d (cset_cipher (Some (bump_r y)) (cset_in [] b)))), ps. split; [|split; [|split; [|exists [q]; reflexivity]]].
      * apply Fin; [exact E1 | exact O | reflexivity].
      * split; [left; reflexivity|]. split; [reflexivity|]. split; [reflexivity|]. split; [reflexivity|]. exists y, (bump_r y). split; [exact D|]. repeat split; reflexivity.
      * apply (reachable_step C g _ ORead). exact R1.
    + assert (Nr1 : r0 :: r <> []) by discriminate.
      pose proof (some_loops m x y b q _ d K Nr1) as L.
      destruct (receive_goes g b q _ Hq Cr L R Lg eq_refl) as [E1 R1].
      rewrite (Tn _ E1 O). change (wbind (on_conn data_to_read) ?f (ext q b, ?k)) with (f (c_app b) (cset_app [] (ext q b), k)). cbv beta. rewrite K6. cbn [app].
      destruct (IH n (cset_app [] (ext q b)) (r0 :: r) p l z) as (b' & ps' & X1 & X2 & X3 & ps0 & X4); try assumption.
      * cbn in Ln. lia.
      * split; [exact K1|]. split; [split; [exact A|]; split; [exact B|]; split; [reflexivity|]; split; assumption|]. split; [exact K3|]. split; [exact K4|]. split; [|reflexivity].
        cbn [c_in cset_app ext cset_in]. unfold ext. cbn [c_in cset_in]. rewrite <- app_assoc. exact K5.
      * apply (reachable_step C g _ ORead). exact R1.
      * exists b', ps'. split; [exact X1|]. split; [exact X2|]. split; [exact X3|]. exists (q :: ps0). cbn. rewrite X4. reflexivity.
  - assert (Ep' : p1 ++ (concat ps ++ t) = note m (bump_w x)) by (rewrite app_assoc, <- E1; exact Ep).
    pose proof (last_loops m x y b rest d p1 (concat ps ++ t) K Nf Ep' (or_intror Np1)) as L. cbv zeta in L.
    set (b1 := noted p1 (concat ps ++ t) (bump_r y) (cset_in p1 (cset_app d (cset_cipher (Some (bump_r y)) b)))) in *.
    assert (F : rested b b1 /\ c_app b1 = d).
    { unfold b1, noted. destruct (is_nil (concat ps ++ t)).
      - split; [|reflexivity]. split; [right; reflexivity|]. split; [reflexivity|]. split; [reflexivity|]. split; [reflexivity|].
        exists y, (bump_r (bump_r y)). split; [exact D|]. repeat split; reflexivity.
      - split; [|reflexivity]. split; [left; reflexivity|]. split; [reflexivity|]. split; [reflexivity|]. split; [reflexivity|].
        exists y, (bump_r y). split; [exact D|]. repeat split; reflexivity. }
    destruct F as [F1 F2]. pose proof F1 as (_ & F3 & F4 & _).
    destruct (receive_goes g b (rest ++ p1) b1 Hq Cr L R Lg F4) as [E2 R1].
    exists (cset_app [] b1), ps. split; [|split; [exact F1 | split; [|exists [rest ++ p1]; reflexivity]]].
    + apply Fin; [exact E2 | rewrite F3; exact O | exact F2].
    + apply (reachable_step C g _ ORead). exact R1.
Qed.

Lemma must_encrypt_w y z : cs_w z = cs_w y -> must_encrypt z = must_encrypt y.
Proof. intro H. unfold must_encrypt. rewrite H. reflexivity. Qed.

(* a writes [d] and takes leave, b reads once and takes leave, whatever b got of the close_notify *)
Lemma say_last ga gb a b d : ends C ga gb a b -> d <> [] -> blen d <= 480 ->
  exists ns nc a', ns <> [] /\ nc <> [] /\ c_state a' = Closed true false /\
    (forall l z, wclose C (spoke C d a, mkSock l [] z) = (Ok tt, (a', mkSock l [] (z ++ ns)))) /\
    forall ds p t l z, ns = p ++ t -> concat ds = said C d a ++ p -> (forall q, In q ds -> q <> []) ->
      exists u b' ds0 ds', ds = ds0 ++ ds' /\ c_state b' = Closed true false /\
        Wrapper.wread C (b, mkSock (map Ok ds ++ l) [] z) = (Ok d, (u, mkSock (map Ok ds' ++ l) [] z)) /\
        forall l z, wclose C (u, mkSock l [] z) = (Ok tt, (b', mkSock l [] (z ++ nc))).
Proof.
  intros En Nd Ld. destruct (say C AC AS ga gb a b d En Nd Ld) as (_ & Nsd & _ & _ & _ & Lgs).
  destruct En as [(s & g & F) (s' & g' & G) Oa Ob Aa Ab Sa Sb Ra Rb Lm La Lb].
  pose proof (flow_short C _ _ _ _ _ d F Ld) as Sh.
  pose proof (send_works C ga a d AS Ra (roomy C ga a Ra ltac:(lia) Lm) (flow_on C _ _ _ _ _ F) ltac:(rewrite Sa; reflexivity) Sh) as W.
  pose proof (flow_limited C _ _ _ _ _ F Lm) as Lmb.
  destruct F as (xa & yb & x & ds & n & F1 & F2 & F3 & F4 & F5 & F6 & F7 & F8 & F9 & F10 & F11 & F12 & F13).
  rewrite Oa in *. specialize (F13 eq_refl). subst ds n. cbn in F11. rewrite app_nil_r in F11. cbn [bumps length] in F9.
  destruct G as (xb & _ & _ & _ & _ & G1 & G2 & _).
  assert (xb = yb) by (destruct F5 as (_ & _ & _ & D & _); congruence). subst xb.
  destruct (send_data C d a) as [[[]|e] a1] eqn:E.
  2:{ unfold step, bind in W. rewrite E in W. discriminate. }
  assert (Af : after C (OSend d) a = a1) by (unfold after, step, bind; rewrite E; reflexivity).
  unfold spoke, said in *. rewrite Af in *. clear W.
  pose proof (send_one C d a a1 xa F1 F2 F3 Sh E) as (S1 & S2 & S3 & S4).
  assert (Sx : seal_at CT_APPDATA (max_frag a) x d = seal_at CT_APPDATA (max_frag a) xa d) by (apply seal_at_w; assumption).
  assert (Ke : expects (max_frag a) x yb b (c_out a1) d).
  { split; [exact F4|]. split; [exact F5|]. split; [exact F6|]. split; [|split; [|exact Ab]].
    - cbn [fits]. rewrite Sx, F7, F9. split; [exact S1|]. split; [exact S2|]. split; [exact S3|]. split; [|exact I].
      unfold short, limit_of in Sh. rewrite F1, F2 in Sh.
      pose proof (pad_short (max_frag a) (tag_length (cs_suite xa)) (blen d) F3) as P.
      unfold seal_at. cbn [se_data]. rewrite blen_inner. specialize (P ltac:(lia)). lia.
    - rewrite F11. cbn [app]. unfold streamed. cbn [seals map concat]. rewrite Sx, F7, app_nil_r, S4. cbn [c_out cset_out]. rewrite Oa. reflexivity. }
  assert (Rs : reachable C ga (cset_out [] a1)).
  { rewrite <- Af. apply (reachable_step C ga (after C (OSend d) a) OFlush). apply reachable_step. exact Ra. }
  assert (Ea : c_cipher (cset_out [] a1) = Some (bump_w xa)) by (rewrite S4; reflexivity).
  assert (Ma : max_frag (cset_out [] a1) = max_frag a) by (rewrite S4; reflexivity).
  destruct (leave_seal ga (cset_out [] a1) (bump_w xa)) as (Nf & a' & Sa' & Wa).
  { exact Rs. } { left. rewrite S4. exact Sa. } { reflexivity. }
  { apply (roomy C ga); [exact Rs | lia |]. intros z Ez. rewrite Ea in Ez. injection Ez as <-. exact (Lm xa F1). }
  { exact Ea. }
  { unfold must_encrypt, bump_w in *. cbn. rewrite bump_key. exact F2. }
  rewrite Ma in Nf, Wa.
  assert (Bw : cs_w (bump_w xa) = cs_w (bump_w x)) by (unfold bump_w; cbn; rewrite F9; reflexivity).
  assert (Bs : cs_suite (bump_w xa) = cs_suite (bump_w x)) by (cbn; congruence).
  rewrite (note_w _ _ _ Bw Bs) in Wa. apply (note_fits_w _ _ _ Bw Bs) in Nf.
  exists (note (max_frag a) (bump_w x)), (note (max_frag b) yb), a'. split; [discriminate|]. split; [discriminate|]. split; [exact Sa'|]. split; [exact Wa|].
  intros ds p t l z Ep Ec Ne.
  destruct (last_loop gb (max_frag a) x yb d t Nd Nf ds (S (length (map Ok ds ++ l))) b (c_out a1) p l z) as (u & ds' & X1 & X2 & X3 & ds0 & X4); try assumption.
  { rewrite app_length, map_length. unfold bytes in *. lia. } { symmetry. exact Ep. } { lia. }
  destruct X2 as (Y1 & Y2 & Y3 & Y4 & y & zz & Y5 & Y6 & Y7 & Y8). rewrite G1 in Y5. injection Y5 as <-.
  destruct (leave_seal gb u zz X3) as (_ & b' & Sb' & Wb).
  { rewrite <- Sb. destruct Y1 as [Y1|Y1]; [left; exact Y1 | right; exact Y1]. } { congruence. }
  { apply (roomy C gb); [exact X3 | rewrite Y3; lia |]. intros v Ev. rewrite Y6 in Ev. injection Ev as <-. rewrite Y8. exact (Lmb yb G1). }
  { exact Y6. } { rewrite (must_encrypt_w _ _ Y7). exact G2. }
  rewrite Y4, (note_w _ _ _ Y7 Y8) in Wb.
  exists u, b', ds0, ds'. split; [exact X4|]. split; [exact Sb'|]. split; [|exact Wb].
  unfold Wrapper.wread. change (wbind (on_conn data_to_read) ?f (b, ?k)) with (f (c_app b) (cset_app [] b, k)). cbv beta. cbn [snd sk_recv]. rewrite Ab.
  replace (cset_app [] b) with b by (destruct b; cbn in *; subst; reflexivity). exact X1.
Qed.
End notify.
