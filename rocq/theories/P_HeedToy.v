(* The examples about callers that heed exceptions, and about wrapped sockets. *)
From Verif Require Import Base P_Base Iana Crypto Config Cipher Conn Wrapper S_Hist S_Conn S_Send S_Nonce S_Alert S_Auth S_Deliver S_Integrity S_Entire S_Server S_Heed S_Session
  Toy P_Toy P_IntegToy P_EntireToy.

Definition is_recv (o : op) : bool := match o with ORecv _ => true | _ => false end.
Fixpoint heededb (C : crypto) (ops : list op) (c : conn) : bool :=
  match ops with
  | [] => true
  | o :: ops' =>
    (match o with
     | ORecv d => match fst (receive_data C d c) with Err _ => negb (existsb is_recv ops') | Ok _ => true end
     | _ => true
     end) && heededb C ops' (after C o c)
  end.
Lemma heededb_ok C ops : forall c, heededb C ops c = true -> heeded C ops c.
Proof.
  induction ops as [|o ops IH]; intros c H; [exact Logic.I|]. cbn [heededb] in H. apply andb_prop in H. destruct H as [H1 H2].
  split; [|apply IH; exact H2]. destruct o; try exact Logic.I. intros e He d' I. rewrite He in H1.
  assert (X : existsb is_recv ops = true) by (apply existsb_exists; exists (ORecv d'); split; [exact I | reflexivity]). rewrite X in H1. discriminate H1.
Qed.
Definition raised {A} (r : res A) : bool := match r with Ok _ => false | Err _ => true end.
Fixpoint prudentb (C : crypto) (l : list wcall) (s : conn * sock) : bool :=
  match l with
  | [] => true
  | w :: l' => (negb (listens w && raised (fst (call C w s))) || negb (existsb listens l')) && prudentb C l' (snd (call C w s))
  end.
Lemma prudentb_ok C l : forall s, prudentb C l s = true -> prudent C l s.
Proof.
  induction l as [|w l IH]; intros s H; [exact Logic.I|]. cbn [prudentb] in H. apply andb_prop in H. destruct H as [H1 H2].
  split; [|apply IH; exact H2]. intros Lw e He w' I. rewrite Lw, He in H1. cbn [raised andb negb orb] in H1.
  destruct (listens w') eqn:L'; [|reflexivity].
  assert (X : existsb listens l = true) by (apply existsb_exists; exists w'; split; [exact I | exact L']). rewrite X in H1. discriminate H1.
Qed.

(* the reader has closed its sending end; the second record comes twice *)
Definition hd_more_s : list op := [OCloseS; ORead; ORecv (st_record 1 x62); ORecv (st_record 1 x62); ORead].
Lemma hd_ok : heeded strict (en_ops_s ++ hd_more_s) toy_s0 /\ raised (fst (receive_data strict (st_record 1 x62) (run strict (firstn 3 hd_more_s) en_s))) = true /\
  readout strict (en_ops_s ++ hd_more_s) toy_s0 = [x61; x62].
Proof.
  assert (H : heededb strict (en_ops_s ++ hd_more_s) toy_s0 && raised (fst (receive_data strict (st_record 1 x62) (run strict (firstn 3 hd_more_s) en_s))) &&
    beqb (readout strict (en_ops_s ++ hd_more_s) toy_s0) [x61; x62] = true) by (vm_compute; reflexivity).
  apply andb_prop in H; destruct H as [H H3]. apply andb_prop in H; destruct H as [H1 H2].
  split; [exact (heededb_ok _ _ _ H1)|]. split; [exact H2 | exact (proj1 (beqb_eq _ _) H3)].
Qed.

(* two wrapped sockets: what their recv calls return *)
Definition ws_kc : sock := mkSock [Ok (c_out toy_s2)] [] [].
Definition ws_ks : sock := mkSock [Ok (c_out toy_c1); Ok (c_out toy_c2 ++ st_record 0 x61); Ok (st_record 1 x62); Ok (st_record 1 x62)] [] [].
Definition ws_lc : list wcall := [CWrite [x61]; CWrite [x62]].
Definition ws_ls : list wcall := [CClose; CRead; CRead; CRead].
Definition ws_c : conn * sock := snd (call strict CHandshake (toy_c0, ws_kc)).
Definition ws_s : conn * sock := snd (call strict CHandshake (toy_s0, ws_ks)).
Definition done_fine (r : res bytes) : bool := match r with Ok [] => true | _ => false end.
Lemma done_fine_ok r : done_fine r = true -> r = Ok [].
Proof. destruct r as [[|]|]; (discriminate || reflexivity). Qed.
Lemma ws_ok : c_state (fst ws_c) = Connected /\ c_state (fst ws_s) = Connected /\ few (fst ws_c) /\ few (fst ws_s) /\
  unforgeable strict (fst ws_c) (c_log (fst (session strict ws_lc ws_c))) /\
  (exists sd, In (SFin sd) (c_hs (fst ws_c)) /\ In (SFin sd) (c_hs (fst ws_s))) /\
  fst (call strict CHandshake (toy_s0, ws_ks)) = Ok [] /\ prudent strict ws_ls ws_s /\
  reads strict ws_ls ws_s = [x61; x62] /\ writes strict ws_lc ws_c = [x61; x62] /\
  raised (fst (call strict CRead (session strict (firstn 3 ws_ls) ws_s))) = true.
Proof.
  assert (H : connectedb (fst ws_c) && connectedb (fst ws_s) && (N.of_nat (length (c_log (fst ws_c))) <? 11863283) && (N.of_nat (length (c_log (fst ws_s))) <? 11863283) &&
    safeb (fst ws_c) (c_log (fst (session strict ws_lc ws_c))) && same_sfin (c_hs (fst ws_c)) (c_hs (fst ws_s)) 5 &&
    done_fine (fst (call strict CHandshake (toy_s0, ws_ks))) && prudentb strict ws_ls ws_s &&
    beqb (reads strict ws_ls ws_s) [x61; x62] && beqb (writes strict ws_lc ws_c) [x61; x62] &&
    raised (fst (call strict CRead (session strict (firstn 3 ws_ls) ws_s))) = true) by (vm_compute; reflexivity).
  apply andb_prop in H; destruct H as [H H11].
  apply andb_prop in H; destruct H as [H H10]. apply andb_prop in H; destruct H as [H H9].
  apply andb_prop in H; destruct H as [H H8]. apply andb_prop in H; destruct H as [H H7]. apply andb_prop in H; destruct H as [H H6].
  apply andb_prop in H; destruct H as [H H5]. apply andb_prop in H; destruct H as [H H4]. apply andb_prop in H; destruct H as [H H3].
  apply andb_prop in H; destruct H as [H1 H2].
  split; [exact (connectedb_ok _ H1)|]. split; [exact (connectedb_ok _ H2)|]. split; [exact (proj1 (N.ltb_lt _ _) H3)|]. split; [exact (proj1 (N.ltb_lt _ _) H4)|].
  split; [exact (safeb_ok _ _ H5)|]. split; [exact (same_sfin_ok _ _ _ H6)|]. split; [exact (done_fine_ok _ H7)|]. split; [exact (prudentb_ok _ _ _ H8)|].
  split; [exact (proj1 (beqb_eq _ _) H9)|]. split; [exact (proj1 (beqb_eq _ _) H10) | exact H11].
Qed.
(* and from the server to the client *)
Definition wr_kc : sock := mkSock [Ok (c_out toy_s2); Ok ea_record; Ok ea_record] [] [].
Definition wr_ks : sock := mkSock [Ok (c_out toy_c1); Ok (c_out toy_c2)] [] [].
Definition wr_lc : list wcall := [CRead; CRead].
Definition wr_ls : list wcall := [CWrite [x62]; CClose].
Definition wr_c : conn * sock := snd (call ea CHandshake (toy_c0, wr_kc)).
Definition wr_s : conn * sock := snd (call ea CHandshake (toy_s0, wr_ks)).
Lemma wr_ok : c_state (fst wr_c) = Connected /\ c_state (fst wr_s) = Connected /\ few (fst wr_c) /\ few (fst wr_s) /\
  unforgeable ea (fst wr_s) (c_log (fst (session ea wr_ls wr_s))) /\
  (exists sd, In (SFin sd) (c_hs (fst wr_c)) /\ In (SFin sd) (c_hs (fst wr_s))) /\
  fst (call ea CHandshake (toy_c0, wr_kc)) = Ok [] /\ prudent ea wr_lc wr_c /\
  reads ea wr_lc wr_c = [x62] /\ writes ea wr_ls wr_s = [x62].
Proof.
  assert (H : connectedb (fst wr_c) && connectedb (fst wr_s) && (N.of_nat (length (c_log (fst wr_c))) <? 11863283) && (N.of_nat (length (c_log (fst wr_s))) <? 11863283) &&
    tabb ea_key ea_table (fst wr_s) (c_log (fst (session ea wr_ls wr_s))) && same_sfin (c_hs (fst wr_c)) (c_hs (fst wr_s)) 5 &&
    done_fine (fst (call ea CHandshake (toy_c0, wr_kc))) && prudentb ea wr_lc wr_c &&
    beqb (reads ea wr_lc wr_c) [x62] && beqb (writes ea wr_ls wr_s) [x62] = true) by (vm_compute; reflexivity).
  apply andb_prop in H; destruct H as [H H10]. apply andb_prop in H; destruct H as [H H9].
  apply andb_prop in H; destruct H as [H H8]. apply andb_prop in H; destruct H as [H H7]. apply andb_prop in H; destruct H as [H H6].
  apply andb_prop in H; destruct H as [H H5]. apply andb_prop in H; destruct H as [H H4]. apply andb_prop in H; destruct H as [H H3].
  apply andb_prop in H; destruct H as [H1 H2].
  split; [exact (connectedb_ok _ H1)|]. split; [exact (connectedb_ok _ H2)|]. split; [exact (proj1 (N.ltb_lt _ _) H3)|]. split; [exact (proj1 (N.ltb_lt _ _) H4)|].
  split; [exact (tabb_ok _ _ _ _ H5)|]. split; [exact (same_sfin_ok _ _ _ H6)|]. split; [exact (done_fine_ok _ H7)|]. split; [exact (prudentb_ok _ _ _ H8)|].
  split; [exact (proj1 (beqb_eq _ _) H9) | exact (proj1 (beqb_eq _ _) H10)].
Qed.
(* the reader reads again after an exception, and skips a record *)
Definition wg_ks : sock := mkSock [Ok (c_out toy_c1); Ok (c_out toy_c2); Ok st_forged; Ok (st_record 1 x62)] [] [].
Definition wg_ls : list wcall := [CClose; CRead; CRead].
Definition wg_s : conn * sock := snd (call strict CHandshake (toy_s0, wg_ks)).
Lemma wg_ok : c_state (fst wg_s) = Connected /\ few (fst wg_s) /\ key_shared (fst ws_c) (fst wg_s) /\
  fst (call strict CHandshake (toy_s0, wg_ks)) = Ok [] /\ few (fst (session strict wg_ls wg_s)) /\ reads strict wg_ls wg_s = [x62].
Proof.
  assert (H : connectedb (fst wg_s) && (N.of_nat (length (c_log (fst wg_s))) <? 11863283) && sharedb (fst ws_c) (fst wg_s) st_key &&
    done_fine (fst (call strict CHandshake (toy_s0, wg_ks))) && (N.of_nat (length (c_log (fst (session strict wg_ls wg_s)))) <? 11863283) &&
    beqb (reads strict wg_ls wg_s) [x62] = true) by (vm_compute; reflexivity).
  apply andb_prop in H; destruct H as [H H6]. apply andb_prop in H; destruct H as [H H5].
  apply andb_prop in H; destruct H as [H H4]. apply andb_prop in H; destruct H as [H H3]. apply andb_prop in H; destruct H as [H1 H2].
  split; [exact (connectedb_ok _ H1)|]. split; [exact (proj1 (N.ltb_lt _ _) H2)|]. split; [exact (sharedb_ok _ _ _ H3)|].
  split; [exact (done_fine_ok _ H4)|]. split; [exact (proj1 (N.ltb_lt _ _) H5) | exact (proj1 (beqb_eq _ _) H6)].
Qed.
