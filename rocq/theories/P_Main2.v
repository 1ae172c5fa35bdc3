From Verif Require Import Base P_Base Iana Crypto Config Ext Msg Cipher Sig Transcript Conn KeyLog Wrapper Examples Main S_Hist S_Conn S_Utils S_Close S_Enter S_Alert S_Speak S_Keys S_Auth S_Http S_Main P_Monad P_Hist P_Client P_Client2 P_Enter P_Http P_Main.

(* --- the name of the server does not change -------------------------------- *)
Lemma host_run C h ops c : c_host c = Some h -> c_host (run C ops c) = Some h.
Proof.
  revert ops c. apply (keeps_run C (fun c => c_host c = Some h)). intro o. apply of_rel.
  assert (P : preorder (fun c c' => c_host c = Some h -> c_host c' = Some h)) by (split; [intros c H; exact H | intros a b d X Y H; exact (Y (X H))]).
  apply stable_step; try (intros; assumption).
  apply any_stable. split; try exact P; intros; assumption.
Qed.

Lemma write_failed C d s : c_state (fst s) = Failed -> exists e s', wwrite C d s = (Err e, s').
Proof.
  intro E. unfold wwrite, wbind, on_conn. assert (X : send_data C d (fst s) = (Err XTLS, fst s)).
  { unfold send_data, send_content, bind, get. rewrite E. reflexivity. }
  rewrite X. eauto.
Qed.
Lemma with_inv (A : Type) C (body : Wrapper.W A) s a s' : wwith C body s = (Ok a, s') ->
  exists s1 s2, do_handshake C s = (Ok tt, s1) /\ body s1 = (Ok a, s2).
Proof.
  unfold wwith, wbind. destruct (do_handshake C s) as [[[]|e] s1]; [|discriminate]. unfold wfinally.
  destruct (body s1) as [[x|e] s2] eqn:E; destruct (wclose C s2) as [[[]|e'] s3]; try discriminate. intro H. injection H as <- _. eauto.
Qed.
Lemma verified C w o b : aead_sized C -> hmac_sized C -> hash_sized C ->
  o_side o = Client -> o_insecure o = false -> o_host o <> [] -> r_shown (main C w o) = Some b ->
  exists store k c ds l, system_store w = Ok store /\ w_dial w = Ok k /\
    new_conn (w_flip w) (client_config (Some store)) (Some (o_host o)) true (w_random w) (w_rng w) = Ok c /\
    sk_recv k = map Ok ds ++ l /\
    (no_close_notify C (handshake_calls Client ds) c \/ (forall r t, c_state (run C (handshake_calls Client ds) c) <> Closed r t) ->
     c_state (run C (handshake_calls Client ds) c) = Connected /\
     exists pre post h hc leaf rest alg sig, c_hs (run C (handshake_calls Client ds) c) = pre ++ post /\
       cr_verify_chain C (Some store) 5 (Some (o_host o)) leaf rest = Ok tt /\
       In alg default_sigalgs /\
       cr_sig_verify C alg (cr_cert_pubkey C leaf) sig (signed_content Server (heard_hash C h hc false pre)) = Ok tt).
Proof.
  intros AS HM HH Sd Ins Nh Hb. unfold main in Hb.
  destruct (match o_keylog o with Some p => w_handler w p | None => Ok tt end); [|discriminate Hb].
  destruct (missing w (o_cert o)); [discriminate Hb|]. destruct (missing w (o_key o)); [discriminate Hb|]. rewrite Sd, Ins in Hb. cbn [negb] in Hb.
  destruct (connect C w (o_host o) true) as [r s'] eqn:Ec. cbn [r_shown] in Hb. destruct r as [b'|]; [|discriminate Hb].
  unfold connect in Ec. destruct (system_store w) as [store|e] eqn:Es; [|discriminate Ec]. cbn [rbind] in Ec.
  change (check_config (client_config (Some store))) with (@Ok unit tt) in Ec. cbn [rbind] in Ec.
  destruct (w_dial w) as [k|e] eqn:Ek; [|discriminate Ec]. cbn [rbind] in Ec.
  destruct (client_new w (o_host o) (Some store)) as (c & En & Cr & Uc & Rc & Oc & Hc). rewrite En in Ec. cbn [rbind] in Ec.
  match type of Ec with context [wwith C ?body (c, k)] => set (bd := body) in *; destruct (wwith C bd (c, k)) as [r1 s1] eqn:Ew end.
  injection Ec as -> _. destruct (with_inv _ _ _ _ _ _ Ew) as ([c1 k1] & s2 & Eh & Eb).
  destruct (enter_ends C _ c k c1 k1 Cr Eh) as (ds & E1 & E2 & E3 & E4). change (g_side (client_config (Some store))) with Client in *.
  exists store, k, c, ds, (sk_recv k1). split; [reflexivity|]. split; [reflexivity|]. split; [exact En|]. split; [exact E1|].
  intro NC. rewrite <- E2.
  assert (Con : c_state c1 = Connected).
  { assert (X : c_state c1 = Connected \/ c_state c1 = Failed).
    { destruct NC as [NC|NC]; [destruct (E4 NC) as [[_ X]|[_ X]]; auto|]. rewrite <- E2 in NC. unfold is_post_handshake in E3.
      destruct (c_state c1) as [ | | | | | | | | | | |r t|] eqn:Es1; try discriminate E3; [left; reflexivity | destruct (NC r t eq_refl) | right; reflexivity]. }
    destruct X as [X|X]; [exact X|]. exfalso. subst bd.
    destruct (match utf8_decode (o_host o) with Some _ => _ | None => _ end) as [q|]; [|discriminate Eb].
    unfold wbind in Eb. destruct (write_failed C q (c1, k1) X) as (e & s3 & E5). rewrite E5 in Eb. discriminate Eb. }
  split; [exact Con|].
  assert (Re : reachable C (client_config (Some store)) c1) by (exists c, (handshake_calls Client ds); split; [exact Cr | exact E2]).
  destruct (client_authenticated C (client_config (Some store)) c1 AS HM HH eq_refl Re eq_refl Con)
    as (hello & cd & vd & sd & suite & h & hc & group & shared & alg & sig & ctx & leaf & rest & sh & ee & fd & junk & cct & H1 & _ & _ & _ & H5 & _ & H7 & H8 & _).
  assert (Hh : c_host c1 = Some (o_host o)) by (rewrite E2; apply host_run; exact Hc). rewrite Hh in H5.
  exists (hello ++ [(Server, SERVER_HELLO, sh); EE ee; Cert cd]), ([CV vd; SFin sd; CFin fd] ++ junk), h, hc, (en_data leaf), (map en_data rest), alg, sig.
  split. { rewrite H1, <- app_assoc. reflexivity. }
  split. { destruct (o_host o) as [|x y]; [congruence | exact H5]. }
  split; [exact H7 | exact H8].
Qed.

(* --- the key log ------------------------------------------------------------ *)
Lemma no_keys o r : key_file o r = [].
Proof.
  unfold key_file. destruct (opt_bool (o_keylog o)); [|reflexivity]. induction (r_ended r) as [|[x [s|]] l IH]; [reflexivity| |exact IH].
  cbn [flat_map snd]. rewrite IH. unfold key_lines, log_keys. destruct (c_cunique (fst s)) as [[|? ?]|]; reflexivity.
Qed.

(* --- the certificate of the client ------------------------------------------ *)
Definition without_cert (o : options) : options := mkOptions (o_side o) (o_host o) None None (o_keylog o) (o_insecure o).
Lemma cert_unused C w o : o_side o = Client -> missing w (o_cert o) = false -> missing w (o_key o) = false ->
  main C w o = main C w (without_cert o).
Proof. intros Sd M1 M2. unfold main. rewrite M1, M2, Sd. cbn [without_cert o_cert o_key o_side o_keylog o_host o_insecure]. rewrite Sd. reflexivity. Qed.

(* --- exits -------------------------------------------------------------------- *)
Lemma client_exit C w o : o_side o = Client ->
  (r_outcome (main C w o) = Exits 0 /\ exists b, r_shown (main C w o) = Some b) \/
  (r_shown (main C w o) = None /\
   (r_outcome (main C w o) = Exits 1 \/ exists p e, o_keylog o = Some p /\ w_handler w p = Err e /\ r_outcome (main C w o) = Raises e)).
Proof.
  intro Sd. unfold main. destruct (o_keylog o) as [p|]; [destruct (w_handler w p) as [[]|e] eqn:Eh; [|right; split; [reflexivity|]; right; exists p, e; auto]|].
  all: destruct (missing w (o_cert o)); [right; split; [reflexivity | left; reflexivity]|]; destruct (missing w (o_key o)); [right; split; [reflexivity | left; reflexivity]|].
  all: rewrite Sd; destruct (connect C w (o_host o) (negb (o_insecure o))) as [[b|e] s]; cbn [r_outcome r_shown code_of].
  all: first [left; split; [reflexivity | exists b; reflexivity] | right; split; [reflexivity | left; reflexivity]].
Qed.
Lemma no_store C w o : o_side o = Client -> o_insecure o = false -> w_system w <> txt "Linux"%string ->
  r_shown (main C w o) = None /\ Forall (fun x => snd x = None) (r_ended (main C w o)).
Proof.
  intros Sd Ins Nl. assert (E : exists e, system_store w = Err e).
  { unfold system_store. destruct (text_eqb (w_system w) (txt "Linux"%string)) eqn:Et; [apply P_Http.text_eqb_iff in Et; congruence|].
    destruct (existsb _ _); eauto. }
  destruct E as [e Ee]. unfold main. destruct (match o_keylog o with Some p => w_handler w p | None => Ok tt end); [|split; [reflexivity | constructor]].
  destruct (missing w (o_cert o)); [split; [reflexivity | constructor]|]. destruct (missing w (o_key o)); [split; [reflexivity | constructor]|].
  rewrite Sd, Ins. unfold connect. cbn [negb]. rewrite Ee. cbn. split; [reflexivity | constructor; [reflexivity | constructor]].
Qed.

Lemma store_iff w store : system_store w = Ok store <-> w_system w = txt "Linux"%string /\
  exists id like path data pre i post, w_release w = Ok (id, like) /\ (exists ws, words like ws /\ id :: ws = pre ++ i :: post) /\
    bundle i path /\ (forall j, In j pre -> ~ known j) /\ w_file w path = Ok data /\ w_load_store w data = Ok store.
Proof.
  unfold system_store. split.
  - intro H. destruct (text_eqb (w_system w) (txt "Linux"%string)) eqn:Et; [|destruct (existsb _ _); discriminate H].
    apply text_eqb_iff in Et. split; [exact Et|]. destruct (w_release w) as [[id like]|e] eqn:Er; [|discriminate H]. cbn [rbind fst snd] in H.
    destruct (ca_path (id :: text_split [] like)) as [path|e] eqn:Ep; [|discriminate H]. cbn [rbind] in H.
    destruct (w_file w path) as [data|e] eqn:Ef; [|discriminate H]. cbn [rbind] in H.
    apply ca_iff in Ep as (pre & i & post & E & B & K). exists id, like, path, data, pre, i, post.
    split; [reflexivity|]. split; [exists (text_split [] like); split; [apply words_iff; reflexivity | exact E]|]. auto.
  - intros [El (id & like & path & data & pre & i & post & Er & (ws & Hw & E) & B & K & Ef & Es)].
    rewrite El. replace (text_eqb (txt "Linux"%string) (txt "Linux"%string)) with true by reflexivity. rewrite Er. cbn [rbind fst snd].
    apply words_iff in Hw. rewrite Hw, E. assert (Ep : ca_path (pre ++ i :: post) = Ok path) by (apply ca_iff; eauto 8).
    rewrite Ep. cbn [rbind]. rewrite Ef. cbn [rbind]. exact Es.
Qed.
Lemma served C w o key chain pre k flip rnd rng date post :
  (forall x, In x pre -> exists k f u r t, x = AClient k f u r t) ->
  sets_up (accepts w (pre ++ AClient k flip rnd rng date :: post)) o key chain ->
  exists x, nth_error (r_ended (main C (accepts w (pre ++ AClient k flip rnd rng date :: post)) o)) (length pre) = Some x /\
    r_ended (main C (accepts w [AClient k flip rnd rng date]) o) = [x].
Proof.
  intros H Up. exists (handle C (w_version w) (server_config key chain) k flip rnd rng date). split.
  - rewrite (set_up_main C _ _ _ _ Up). cbn [accepts w_version w_accept].
    pose proof (loop_nth C (w_version w) (server_config key chain) k flip rnd rng date pre post H) as X. 
    destruct (serve_loop C (w_version w) (server_config key chain) (pre ++ _)). exact X.
  - assert (Up' : sets_up (accepts w [AClient k flip rnd rng date]) o key chain) by exact Up.
    rewrite (set_up_main C _ _ _ _ Up'). reflexivity.
Qed.
Lemma loop_ends C v g l : (fst (serve_loop C v g l) = Some (Ok tt) -> In AInterrupt l) /\
  (forall e, fst (serve_loop C v g l) = Some (Err e) -> In (AFail e) l).
Proof.
  induction l as [|x l [I1 I2]]; [split; discriminate|]. destruct x as [k f u r t| |e']; cbn [serve_loop].
  - destruct (serve_loop C v g l) as [o xs]. cbn [fst] in *. split; [intro H; right; auto | intros e H; right; auto].
  - split; [intros _; left; reflexivity | discriminate].
  - split; [discriminate|]. intros e H. injection H as <-. left. reflexivity.
Qed.
Lemma server_ends C w o key chain : sets_up w o key chain ->
  (r_outcome (main C w o) = Waits <-> forall x, In x (w_accept w) -> exists k f u r t, x = AClient k f u r t) /\
  (r_outcome (main C w o) = Exits 0 -> In AInterrupt (w_accept w)) /\
  (r_outcome (main C w o) = Exits 1 -> exists e, In (AFail e) (w_accept w)).
Proof.
  intro Up. rewrite (set_up_main C _ _ _ _ Up). pose proof (loop_waits C (w_version w) (server_config key chain) (w_accept w)) as Lw.
  destruct (loop_ends C (w_version w) (server_config key chain) (w_accept w)) as [L0 L1].
  destruct (serve_loop C (w_version w) (server_config key chain) (w_accept w)) as [[[[]|e]|] xs]; cbn [fst r_outcome code_of] in *.
  - split; [rewrite <- Lw; split; discriminate|]. split; [auto | discriminate].
  - split; [rewrite <- Lw; split; discriminate|]. split; [discriminate | eauto].
  - split; [rewrite <- Lw; split; reflexivity|]. split; discriminate.
Qed.
