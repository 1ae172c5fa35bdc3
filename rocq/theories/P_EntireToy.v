(* A toy AEAD that opens under one key only what is in a table, for the examples
   about whole connections. *)
From Verif Require Import Base P_Base Iana Crypto Config Cipher Conn S_Hist S_Conn S_Send S_Nonce S_Alert S_Auth S_Deliver S_Integrity S_Entire S_Server
  P_Send P_Deliver Toy P_Toy P_IntegToy.

Definition tab_open (key0 : bytes) (table : list (bytes * bytes)) (suite : N) (key nonce ct aad : bytes) : option bytes :=
  match toy_open suite key nonce ct aad with
  | Some p => if beqb key key0
              then if existsb (fun e => beqb (fst e) nonce && beqb (snd e) p) table then Some p else None
              else Some p
  | None => None
  end.
Definition tabled (key0 : bytes) (table : list (bytes * bytes)) : crypto := with_open toy (tab_open key0 table).
Definition tabb (key0 : bytes) (table : list (bytes * bytes)) (a : conn) (log : list sealing) : bool :=
  match c_cipher a with
  | Some x =>
    match d_key (cs_w x) with
    | Some k => beqb k key0 && forallb (fun s => negb (beqb (se_key s) key0)) (c_log a) &&
        forallb (fun e => existsb (fun s => beqb (se_key s) key0 && beqb (se_nonce s) (fst e) && beqb (se_data s) (snd e)) log) table
    | None => false
    end
  | None => false
  end.
Lemma tabb_ok key0 table a log : tabb key0 table a log = true -> unforgeable (tabled key0 table) a log.
Proof.
  unfold tabb. destruct (c_cipher a) as [x|] eqn:Ex; [|discriminate]. destruct (d_key (cs_w x)) as [k|] eqn:Ek; [|discriminate].
  rewrite !andb_true_iff. intros ((H1 & H2) & H3). apply beqb_eq in H1. subst k.
  assert (beqb key0 key0 = true) as Z by (apply beqb_eq; reflexivity). split.
  - intros x1 s Ex1 Is Ks. rewrite Ex in Ex1. injection Ex1; intros <-. rewrite Ek in Ks. injection Ks; intros Ks'. exfalso.
    rewrite forallb_forall in H2. specialize (H2 s Is). rewrite Ks', Z in H2. discriminate.
  - intros x1 k Ex1 Ek1 nonce ct aad p H. rewrite Ex in Ex1. injection Ex1; intros <-. rewrite Ek in Ek1. injection Ek1; intros <-.
    change (cr_open (tabled key0 table)) with (tab_open key0 table) in H. unfold tab_open in H. destruct (toy_open _ _ _ _ _) as [p'|]; [|discriminate].
    rewrite Z in H. destruct (existsb _ table) eqn:Eb; [|discriminate]. injection H; intros <-.
    apply existsb_exists in Eb. destruct Eb as (e & Ie & He). apply andb_prop in He. destruct He as [He1 He2].
    apply beqb_eq in He1, He2. rewrite forallb_forall in H3. specialize (H3 e Ie). apply existsb_exists in H3.
    destruct H3 as (s & Is & Hs). rewrite !andb_true_iff in Hs. destruct Hs as ((S1 & S2) & S3). apply beqb_eq in S1, S2, S3.
    exists s. split; [exact Is|]. split; [exact S1|]. split; congruence.
Qed.

(* the server writes "x" before it has the client's Finished, and "b" after it *)
Definition ea_key : bytes := be_bytes 32 160297687255.
Definition ea_table : list (bytes * bytes) := [(be_bytes 12 0, inner_bytes CT_APPDATA 4096 16 [x62])].
Definition ea : crypto := tabled ea_key ea_table.
Definition ea_ops_s : list op := [OInit; ORecv (c_out toy_c1); OFlush; OSend [x78]; OFlush; ORecv (c_out toy_c2)].
Definition ea_more_s : list op := [OSend [x62]].
Definition ea_ops_c : list op := [OInit; ORecv (c_out toy_s2); OFlush].
Definition ea_record : bytes :=
  record CT_APPDATA (toy_seal TLS_CHACHA20_POLY1305_SHA256 ea_key (be_bytes 12 0) (inner_bytes CT_APPDATA 4096 16 [x62])
    (aad_of (blen (inner_bytes CT_APPDATA 4096 16 [x62]) + 16))).
Definition ea_more_c : list op := [ORecv ea_record; ORead].
Definition ea_c : conn := run ea ea_ops_c toy_c0.
Definition ea_s : conn := run ea ea_ops_s toy_s0.
Lemma toy_s0_random : own_random toy_s0.
Proof. exists (toy_rng 2 100). split; [vm_compute; reflexivity|]. split; [vm_compute; reflexivity | discriminate]. Qed.
Lemma ea_aead_sized : aead_sized ea.
Proof. exact toy_aead_sized. Qed.
(* all that the example needs, evaluated at once *)
Definition connectedb (c : conn) : bool := match c_state c with Connected => true | _ => false end.
Definition sharedb (a b : conn) (key : bytes) : bool :=
  match c_cipher a, c_cipher b with
  | Some x, Some y => (cs_suite x =? cs_suite y) &&
      match d_key (cs_w x), d_key (cs_r y), d_iv (cs_w x), d_iv (cs_r y) with
      | Some k, Some k', Some iv, Some iv' => beqb k key && beqb k' key && (iv =? iv')
      | _, _, _, _ => false
      end
  | _, _ => false
  end.
Lemma sharedb_ok a b key : sharedb a b key = true -> key_shared a b.
Proof.
  unfold sharedb. destruct (c_cipher a) as [x|] eqn:Ex; [|discriminate]. destruct (c_cipher b) as [y|] eqn:Ey; [|discriminate].
  intro H. apply andb_prop in H. destruct H as [H1 H]. apply N.eqb_eq in H1.
  destruct (d_key (cs_w x)) as [k|] eqn:E1; [|discriminate]. destruct (d_key (cs_r y)) as [k'|] eqn:E2; [|discriminate].
  destruct (d_iv (cs_w x)) as [iv|] eqn:E3; [|discriminate]. destruct (d_iv (cs_r y)) as [iv'|] eqn:E4; [|discriminate].
  apply andb_prop in H. destruct H as [H H4]. apply andb_prop in H. destruct H as [H2 H3]. apply beqb_eq in H2, H3. apply N.eqb_eq in H4. subst.
  exists x, y, key, iv'. repeat (split; [assumption|]). assumption.
Qed.
Lemma connectedb_ok c : connectedb c = true -> c_state c = Connected.
Proof. unfold connectedb. destruct (c_state c); try discriminate. reflexivity. Qed.
Lemma ea_ok : c_state ea_c = Connected /\ c_state ea_s = Connected /\ key_shared ea_s ea_c /\
  unforgeable ea ea_s (c_log (run ea ea_more_s ea_s)) /\ few (run ea ea_more_c ea_c) /\ c_state (run ea ea_more_c ea_c) = Connected /\
  readout ea (ea_ops_c ++ ea_more_c) toy_c0 = [x62] /\ written ea (ea_ops_s ++ ea_more_s) toy_s0 = [x78; x62].
Proof.
  assert (H : connectedb ea_c && connectedb ea_s && sharedb ea_s ea_c ea_key && tabb ea_key ea_table ea_s (c_log (run ea ea_more_s ea_s)) &&
    (N.of_nat (length (c_log (run ea ea_more_c ea_c))) <? 11863283) && connectedb (run ea ea_more_c ea_c) &&
    beqb (readout ea (ea_ops_c ++ ea_more_c) toy_c0) [x62] && beqb (written ea (ea_ops_s ++ ea_more_s) toy_s0) [x78; x62] = true) by (vm_compute; reflexivity).
  apply andb_prop in H; destruct H as [H H8]. apply andb_prop in H; destruct H as [H H7]. apply andb_prop in H; destruct H as [H H6].
  apply andb_prop in H; destruct H as [H H5]. apply andb_prop in H; destruct H as [H H4]. apply andb_prop in H; destruct H as [H H3].
  apply andb_prop in H; destruct H as [H1 H2].
  split; [exact (connectedb_ok _ H1)|]. split; [exact (connectedb_ok _ H2)|]. split; [exact (sharedb_ok _ _ _ H3)|].
  split; [exact (tabb_ok _ _ _ _ H4)|]. split; [exact (proj1 (N.ltb_lt _ _) H5)|]. split; [exact (connectedb_ok _ H6)|].
  split; [exact (proj1 (beqb_eq _ _) H7) | exact (proj1 (beqb_eq _ _) H8)].
Qed.

(* the client writes "a" and "b"; the first record comes together with the
   Finished, and is read in the call that ends the handshake *)
Definition en_ops_c : list op := st_a_ops.
Definition en_more_c : list op := st_ops.
Definition en_ops_s : list op := [OInit; ORecv (c_out toy_c1); OFlush; ORecv (c_out toy_c2 ++ st_record 0 x61)].
Definition en_more_s : list op := [ORead; ORecv (st_record 1 x62); ORecv (st_record 1 x62); ORead].
Definition en_c : conn := run strict en_ops_c toy_c0.
Definition en_s : conn := run strict en_ops_s toy_s0.
Definition sfin (l : list hmsg) (i : nat) : option bytes := match nth_error l i with Some (Server, ty, d) => if ty =? FINISHED then Some d else None | _ => None end.
Lemma sfin_in l i d : sfin l i = Some d -> In (SFin d) l.
Proof.
  unfold sfin. destruct (nth_error l i) as [[[[] ty] e]|] eqn:E; try discriminate. destruct (ty =? FINISHED) eqn:T; [|discriminate].
  apply N.eqb_eq in T. subst ty. intro H. injection H; intros <-. apply nth_error_In in E. exact E.
Qed.
Definition same_sfin (l m : list hmsg) (i : nat) : bool := match sfin l i, sfin m i with Some d, Some e => beqb d e | _, _ => false end.
Lemma same_sfin_ok l m i : same_sfin l m i = true -> exists sd, In (SFin sd) l /\ In (SFin sd) m.
Proof.
  unfold same_sfin. destruct (sfin l i) as [d|] eqn:E1; [|discriminate]. destruct (sfin m i) as [e|] eqn:E2; [|discriminate].
  intro H. apply beqb_eq in H. subst e. exists d. split; eapply sfin_in; eassumption.
Qed.
Lemma en_ok : c_state en_c = Connected /\ c_state en_s = Connected /\ few en_c /\ few en_s /\
  unforgeable strict en_c (c_log (run strict en_more_c en_c)) /\ few (run strict en_more_s en_s) /\
  (exists sd, In (SFin sd) (c_hs en_c) /\ In (SFin sd) (c_hs en_s)) /\ key_shared en_c en_s /\
  readout strict (en_ops_s ++ en_more_s) toy_s0 = [x61; x62] /\ written strict (en_ops_c ++ en_more_c) toy_c0 = [x61; x62].
Proof.
  assert (H : connectedb en_c && connectedb en_s && (N.of_nat (length (c_log en_c)) <? 11863283) && (N.of_nat (length (c_log en_s)) <? 11863283) &&
    safeb en_c (c_log (run strict en_more_c en_c)) && (N.of_nat (length (c_log (run strict en_more_s en_s))) <? 11863283) && same_sfin (c_hs en_c) (c_hs en_s) 5 &&
    sharedb en_c en_s st_key &&
    beqb (readout strict (en_ops_s ++ en_more_s) toy_s0) [x61; x62] && beqb (written strict (en_ops_c ++ en_more_c) toy_c0) [x61; x62] = true) by (vm_compute; reflexivity).
  apply andb_prop in H; destruct H as [H H10]. apply andb_prop in H; destruct H as [H H9].
  apply andb_prop in H; destruct H as [H H8]. apply andb_prop in H; destruct H as [H H7]. apply andb_prop in H; destruct H as [H H6].
  apply andb_prop in H; destruct H as [H H5]. apply andb_prop in H; destruct H as [H H4]. apply andb_prop in H; destruct H as [H H3].
  apply andb_prop in H; destruct H as [H1 H2].
  split; [exact (connectedb_ok _ H1)|]. split; [exact (connectedb_ok _ H2)|]. split; [exact (proj1 (N.ltb_lt _ _) H3)|]. split; [exact (proj1 (N.ltb_lt _ _) H4)|].
  split; [exact (safeb_ok _ _ H5)|]. split; [exact (proj1 (N.ltb_lt _ _) H6)|]. split; [exact (same_sfin_ok _ _ _ H7)|].
  split; [exact (sharedb_ok _ _ _ H8)|]. split; [exact (proj1 (beqb_eq _ _) H9) | exact (proj1 (beqb_eq _ _) H10)].
Qed.
Lemma ea_more_ok : few ea_c /\ few ea_s /\ (exists sd, In (SFin sd) (c_hs ea_c) /\ In (SFin sd) (c_hs ea_s)) /\
  written_since ea (ea_ops_s ++ ea_more_s) toy_s0 = [x62].
Proof.
  assert (H : (N.of_nat (length (c_log ea_c)) <? 11863283) && (N.of_nat (length (c_log ea_s)) <? 11863283) && same_sfin (c_hs ea_c) (c_hs ea_s) 5 &&
    beqb (written_since ea (ea_ops_s ++ ea_more_s) toy_s0) [x62] = true) by (vm_compute; reflexivity).
  apply andb_prop in H; destruct H as [H H4]. apply andb_prop in H; destruct H as [H H3]. apply andb_prop in H; destruct H as [H1 H2].
  split; [exact (proj1 (N.ltb_lt _ _) H1)|]. split; [exact (proj1 (N.ltb_lt _ _) H2)|]. split; [exact (same_sfin_ok _ _ _ H3) | exact (proj1 (beqb_eq _ _) H4)].
Qed.
