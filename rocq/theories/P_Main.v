From Verif Require Import Base P_Base Iana Crypto Config Ext Msg Cipher Kex Sig Transcript Conn KeyLog Wrapper Examples Main S_Hist S_Conn S_Close S_Codec S_Http S_Server S_Auth S_Honest S_Main P_Http P_Enter P_Talk4.
Local Open Scope string_scope.
Local Open Scope N_scope.
Local Open Scope list_scope.

(* --- the store ------------------------------------------------------------ *)
Lemma path_iff i p : (match find (fun p => text_eqb (fst p) i) ca_paths with Some x => Some (snd x) | None => None end) = Some p <-> bundle i p.
Proof.
  unfold ca_paths, bundle. cbn [find fst snd].
  repeat match goal with |- context [text_eqb ?a i] =>
    let E := fresh in destruct (text_eqb a i) eqn:E; [apply text_eqb_iff in E; subst i |
      assert (a <> i) by (let X := fresh in intro X; apply text_eqb_iff in X; congruence); clear E] end.
  all: split; [intro X; first [discriminate X | injection X as <-; cbn; tauto]|].
  all: intros [[I ->] | [[I ->] | [[I ->] | [I ->]]]].
  all: try reflexivity.
  all: try (vm_compute in I; discriminate I).
  all: try (cbn [In] in I; repeat match type of I with _ \/ _ => destruct I as [I|I] end; first [reflexivity | contradiction | (vm_compute in I; discriminate I) | congruence]).
  all: congruence.
Qed.
Lemma ca_iff ids p : ca_path ids = Ok p <-> exists pre i post, ids = pre ++ i :: post /\ bundle i p /\ forall j, In j pre -> ~ known j.
Proof.
  induction ids as [|i ids IH].
  - split; [discriminate|]. intros (pre & i & post & E & _). destruct pre; discriminate E.
  - cbn [ca_path]. pose proof (path_iff i) as PI. destruct (find (fun p => text_eqb (fst p) i) ca_paths) as [[a q]|] eqn:Ef; cbn [snd] in *.
    + split.
      * intro E. injection E as <-. exists [], i, ids. split; [reflexivity|]. split; [apply PI; reflexivity | intros j []].
      * intros (pre & j & post & E & B & K). destruct pre as [|x pre].
        -- cbn in E. injection E as <- <-. apply PI in B. congruence.
        -- cbn in E. injection E as <- ->. exfalso. apply (K i (or_introl eq_refl)). exists q. apply PI. reflexivity.
    + rewrite IH. split.
      * intros (pre & j & post & -> & B & K). exists (i :: pre), j, post. split; [reflexivity|]. split; [exact B|].
        intros x [<-|I] [y Y]; [apply PI in Y; discriminate Y | exact (K x I (ex_intro _ y Y))].
      * intros (pre & j & post & E & B & K). destruct pre as [|x pre].
        -- cbn in E. injection E as <- <-. apply PI in B. discriminate B.
        -- cbn in E. injection E as <- ->. exists pre, j, post. split; [reflexivity|]. split; [exact B|]. intros y I. apply K. right. exact I.
Qed.

(* --- the clients of the server -------------------------------------------- *)
Lemma loop_nth C v g k flip rnd rng d : forall pre post, (forall x, In x pre -> exists k f u r t, x = AClient k f u r t) ->
  nth_error (snd (serve_loop C v g (pre ++ AClient k flip rnd rng d :: post))) (length pre) = Some (handle C v g k flip rnd rng d).
Proof.
  induction pre as [|x pre IH]; intros post H.
  - cbn [app serve_loop length]. destruct (serve_loop C v g post). reflexivity.
  - destruct (H x (or_introl eq_refl)) as (k1 & f1 & u1 & r1 & t1 & ->). cbn [app serve_loop length].
    specialize (IH post (fun y I => H y (or_intror I))). destruct (serve_loop C v g (pre ++ _)). exact IH.
Qed.
Lemma loop_waits C v g : forall l, fst (serve_loop C v g l) = None <-> (forall x, In x l -> exists k f u r t, x = AClient k f u r t).
Proof.
  induction l as [|x l IH]; [split; [intros _ ? [] | reflexivity]|].
  destruct x as [k f u r t| |e]; cbn [serve_loop].
  - destruct (serve_loop C v g l) as [o xs]. cbn [fst] in *. rewrite IH. split.
    + intros H y [<-|I]; [eauto 6 | auto].
    + intros H y I. apply H. right. exact I.
  - split; [discriminate|]. intro H. destruct (H AInterrupt (or_introl eq_refl)) as (?&?&?&?&?&X). discriminate X.
  - split; [discriminate|]. intro H. destruct (H (AFail e) (or_introl eq_refl)) as (?&?&?&?&?&X). discriminate X.
Qed.
Lemma set_up_main C w o key chain : sets_up w o key chain ->
  main C w o = (let (r, xs) := serve_loop C (w_version w) (server_config key chain) (w_accept w) in
     mkRan (match r with Some r' => code_of r' | None => Waits end) None xs).
Proof.
  intros (S1 & S2 & S3 & Nc & a & b & fa & fb & E1 & E2 & E3 & E4 & E5 & E6 & E7 & E8).
  unfold main. rewrite S1, E1, E2. unfold missing, fspath. rewrite E3, E4. cbn [negb].
  assert (Eh : match o_keylog o with Some p => w_handler w p | None => Ok tt end = Ok tt).
  { destruct (o_keylog o) as [p|]; [apply S2; reflexivity | reflexivity]. }
  rewrite Eh. cbn [rbind]. unfold serve. rewrite E5. cbn [rbind]. rewrite E6. cbn [rbind]. rewrite E8. cbn [rbind].
  rewrite E7. cbn [rbind]. rewrite S3.
  assert (Ec : check_config (server_config key chain) = Ok tt) by (destruct chain; [congruence | reflexivity]).
  rewrite Ec. cbn [rbind]. reflexivity.
Qed.

(* --- the client ----------------------------------------------------------- *)
Lemma client_new w host trust : exists c, new_conn (w_flip w) (client_config trust) (Some host) true (w_random w) (w_rng w) = Ok c /\
  created (client_config trust) c /\ c_cunique c = Some (w_random w) /\ c_rng c = w_rng w /\ c_ocsp c = true /\ c_host c = Some host.
Proof.
  assert (E : exists t, tr_new (w_flip w) default_suites = Ok t) by (destruct (w_flip w); eexists; reflexivity). destruct E as [t Et].
  assert (En : new_conn (w_flip w) (client_config trust) (Some host) true (w_random w) (w_rng w) =
    Ok (mkConn (client_config trust) (Some host) true None None None t [] [] [] [] (Some (w_random w)) None (ClientStart None) (w_rng w) 0 [] [])).
  { unfold new_conn. change (g_suites (client_config trust)) with default_suites. rewrite Et. reflexivity. }
  eexists. split; [exact En|]. split; [|repeat split]. split; [reflexivity|]. split; [cbn; tauto|].
  exists (w_flip w), (Some host), true, (w_random w), (w_rng w). exact En.
Qed.
Lemma server_new flip rnd rng key chain : chain <> [] -> exists s, new_conn flip (server_config key chain) None true rnd rng = Ok s /\
  created (server_config key chain) s /\ c_sunique s = Some rnd /\ c_rng s = rng /\ c_ocsp s = true.
Proof.
  intro Nc. assert (E : exists t, tr_new flip default_suites = Ok t) by (destruct flip; eexists; reflexivity). destruct E as [t Et].
  assert (En : new_conn flip (server_config key chain) None true rnd rng =
    Ok (mkConn (server_config key chain) None true None None None t [] [] [] [] None (Some rnd) ServerStart rng 0 [] [])).
  { unfold new_conn. change (g_suites (server_config key chain)) with default_suites. rewrite Et. reflexivity. }
  eexists. split; [exact En|]. split; [|repeat split]. split; [destruct chain; [congruence | reflexivity]|]. split; [cbn; tauto|].
  exists flip, None, true, rnd, rng. exact En.
Qed.

(* --- the two programs ------------------------------------------------------ *)
Lemma decode_ascii s : ascii s -> utf8_decode (map Nb s) = Some s.
Proof.
  intro A. induction A as [|x s Hx A IH]; [reflexivity|]. cbn [map utf8_decode].
  assert (E : bN (Nb x) = x) by (apply bN_Nb; lia). rewrite E.
  assert (Hb : (x <? 128) = true) by (apply N.ltb_lt; exact Hx). rewrite Hb, IH. reflexivity.
Qed.
Lemma host_text (h : str) : Forall (fun c => 32 <= bN c < 127) h -> visible (map bN h) /\ map Nb (map bN h) = h.
Proof.
  intro F. split.
  - unfold visible. apply Forall_map. exact F.
  - rewrite map_map. rewrite <- (map_id h) at 2. apply map_ext. intro x. apply Nb_bN.
Qed.
Lemma request_fine version host : visible version -> visible host -> (length host <= 255)%nat -> (length version <= 32)%nat ->
  exists req line, utf8_encode (http_request version host (txt "GET") (txt "/") []) = Some req /\ req <> [] /\ blen req <= 480 /\
    verdict req = (Some line, 200).
Proof.
  intros V H Lh Lv. set (t := http_request version host (txt "GET") (txt "/") []).
  assert (A : ascii t).
  { destruct (request_carries version host (txt "GET") (txt "/") [] V H) as (m & Em & _); [apply visible_b; reflexivity | apply visible_b; reflexivity | constructor|].
    unfold t, http_request, http_tail, CRLF. repeat apply ascii_app; try (apply visible_ascii; first [exact V | exact H | apply visible_b; reflexivity]); try (constructor; [lia | constructor; [lia | constructor]]); constructor. }
  exists (map Nb t), (txt "GET / HTTP/1.1"). split; [exact (encode_map t A)|]. split; [discriminate|]. split.
  - unfold blen. rewrite map_length. unfold t, http_request, http_tail, txt. repeat rewrite app_length. rewrite !map_length.
    unfold CRLF. match goal with |- context [length (decimal ?n)] => change (length (decimal n)) with 1%nat end. 
    cbn [length ascii_bytes]. unfold bytes in *. cbn. lia.
  - unfold verdict. rewrite (decode_ascii t A). unfold t, http_request. 
    match goal with |- context [CRLF ++ ?X] => generalize X end. intro X. vm_compute. reflexivity.
Qed.
Lemma ascii_b s : forallb (fun c => c <? 128) s = true -> ascii s.
Proof. intro H. apply Forall_forall. intros x I. apply N.ltb_lt. rewrite forallb_forall in H. exact (H x I). Qed.
Lemma response_fine version date : visible version -> visible date -> (length date <= 64)%nat -> (length version <= 32)%nat ->
  exists res, utf8_encode (http_response version date 200 (body_of 200)) = Some res /\ res <> [] /\ blen res <= 480 /\
    carries res (map Nb (txt "Hello from siotls" ++ [10])) /\ exists r, res = map Nb (txt "HTTP/1.1 200 OK" ++ CRLF) ++ r.
Proof.
  intros V D Ld Lv. destruct (response_carries version date 200 (body_of 200) V D) as (m & Em & Cm); [apply ascii_b; reflexivity|].
  set (t := http_response version date 200 (body_of 200)) in *.
  assert (A : ascii t).
  { unfold t, http_response, http_tail, CRLF. repeat apply ascii_app; try (apply visible_ascii; first [exact V | exact D | apply visible_b; reflexivity]); try (apply ascii_b; reflexivity). }
  rewrite (encode_map t A) in Em. injection Em as <-. exists (map Nb t). split; [exact (encode_map t A)|]. split; [discriminate|]. split.
  - unfold blen. rewrite map_length. unfold t, http_response, http_tail, txt. repeat rewrite app_length. rewrite !map_length.
    cbn. lia.
  - split; [exact Cm|].
    assert (E : forall X, txt "HTTP/1.1 " ++ decimal 200 ++ txt " " ++ phrase 200 ++ CRLF ++ X = (txt "HTTP/1.1 200 OK" ++ CRLF) ++ X) by (intro X; vm_compute; reflexivity).
    unfold t, http_response. rewrite E, map_app. eexists. reflexivity.
Qed.

Lemma str_len_le h : str_len h <= blen h.
Proof.
  unfold str_len, blen. induction h as [|x h IH]; [reflexivity|]. cbn [filter]. destruct (negb _); cbn [length]; lia.
Qed.
Definition trust_of (o : options) (w : world) : option N :=
  if o_insecure o then None else match system_store w with Ok s => Some s | Err _ => None end.
Lemma programs_compatible C wc oc key chain rnd rng c s : suits C wc oc key chain rnd rng ->
  created (client_config (trust_of oc wc)) c -> c_cunique c = Some (w_random wc) -> c_rng c = w_rng wc -> c_ocsp c = true -> c_host c = Some (o_host oc) ->
  created (server_config key chain) s -> c_sunique s = Some rnd -> c_rng s = rng -> c_ocsp s = true ->
  compatible C (client_config (trust_of oc wc)) (server_config key chain) c s.
Proof.
  intros [Sc (R1 & R2 & R3) Sg Ss (leaf & rest & st & sg & -> & Fl & Ps & Ks & Sp & Sz & Ch) (Nh & Vh & Lh & Hh)] Cc Uc Rc Oc Hc Cs Us Rs Os.
  constructor.
  - split; reflexivity.
  - split; assumption.
  - split; [exists (w_random wc); split; assumption|]. exists rnd. split; [exact Us|]. split; [exact R2 | exact R3].
  - split; [cbn; lia|]. split; (split; [cbn; lia|]; repeat (constructor; [cbv; reflexivity|]); constructor).
  - exists TLS_CHACHA20_POLY1305_SHA256. eexists [], _. split; [reflexivity|]. split; [cbn; auto | intros ? []].
  - exists x25519. split; [eexists [], _; split; [reflexivity|]; split; [cbn; auto | intros ? []]|].
    intros i j. rewrite Rc, Rs. apply Sg.
  - repeat split.
  - exists leaf, rest, key, st. split; [reflexivity|]. split; [reflexivity|]. split; [exact Fl|]. split; [exists sg; split; assumption|].
    split. { rewrite Os. replace (opt_bool (g_trust (client_config (trust_of oc wc)))) with (negb (o_insecure oc)); [exact Sp|].
      unfold trust_of. cbn [g_trust client_config]. destruct (o_insecure oc); [reflexivity|]. destruct (Ss eq_refl) as [x ->]. reflexivity. }
    split; [exact Sz|]. intro Ht. split; [reflexivity|]. rewrite Hc, Oc. cbn [g_trust g_depth client_config] in *. unfold trust_of in *.
    destruct (o_insecure oc); [congruence|]. destruct (Ss eq_refl) as [x Ex]. rewrite Ex. destruct (Ch x eq_refl Ex) as [Y1 Y2].
    split; [|exact Y2]. destruct (o_host oc) as [|y h]; [congruence | exact Y1].
  - split; [repeat constructor; vm_compute; discriminate|]. split; [vm_compute; discriminate|].
    right. right. exists (ascii_bytes "http/1.1"). cbn; auto.
  - rewrite Hc. split; [exact Hh|]. pose proof (str_len_le (o_host oc)). lia.
Qed.
Lemma programs C wc oc ws os key chain flip rnd rng date : honest_crypto C -> suits C wc oc key chain rnd rng -> sets_up ws os key chain ->
  visible (w_version wc) -> (length (w_version wc) <= 32)%nat -> visible (w_version ws) -> (length (w_version ws) <= 32)%nat ->
  visible date -> (length date <= 64)%nat ->
  exists m1 m2 m3 m4 nc ns res s', nc <> [] /\ ns <> [] /\
    carries res (map Nb (txt "Hello from siotls" ++ [10])) /\ (exists r, res = map Nb (txt "HTTP/1.1 200 OK" ++ CRLF) ++ r) /\
    c_state s' = Closed true false /\
    forall ds1 ds2 ds3 ds4 p r lc ls l, cut m1 ds1 -> cut m2 ds2 -> cut m3 ds3 -> ns = p ++ r -> cut (m4 ++ p) ds4 ->
      (exists c' ds5 ds6, ds4 = ds5 ++ ds6 /\ c_state c' = Closed true false /\
        main C (dials wc (mkSock (map Ok (ds2 ++ ds4) ++ lc) [] [])) oc =
          mkRan (Exits 0) (Some res) [(Ok tt, Some (c', mkSock (map Ok ds6 ++ lc) [] (m1 ++ m3 ++ nc)))]) /\
      hd_error (r_ended (main C (accepts ws (AClient (mkSock (map Ok (ds1 ++ ds3) ++ ls) [] []) flip rnd rng date :: l)) os)) =
        Some (Ok tt, Some (s', mkSock ls [] (m2 ++ m4 ++ ns))).
Proof.
  intros HC Su Up V1 L1 V2 L2 D Ld. pose proof Su as [Sc (R1 & R2 & R3) Sg Ss Sx (Nh & Vh & Lh & Hh)].
  destruct (client_new wc (o_host oc) (trust_of oc wc)) as (c & Ec & Cc & Uc & Rc & Oc & Hc).
  assert (Nc : chain <> []) by (destruct Up as (_ & _ & _ & Nc & _); exact Nc).
  destruct (server_new flip rnd rng key chain Nc) as (s & Es & Cs & Us & Rs & Os).
  pose proof (programs_compatible C wc oc key chain rnd rng c s Su Cc Uc Rc Oc Hc Cs Us Rs Os) as Cp.
  destruct (host_text _ Vh) as [Vt Et].
  destruct (request_fine (w_version wc) (map bN (o_host oc)) V1 Vt) as (req & line & E1 & Nq & Lq & Vq); [rewrite map_length; unfold blen in Lh; lia | exact L1|].
  destruct (response_fine (w_version ws) date V2 D Ld L2) as (res & E2 & Nr & Lr & Ca & Be).
  destruct (talk C _ _ c s req res line (w_version ws) date HC Cp (or_intror (or_introl eq_refl))) as (q & a & nc & ns & s' & Nnc & Nns & Ss' & T); try assumption.
  { exists x25519. split; [reflexivity|]. eexists [], _. split; [reflexivity|]. split; [cbn; auto | intros ? []]. }
  { exists TLS_CHACHA20_POLY1305_SHA256. split; [eexists [], _; split; [reflexivity|]; split; [cbn; auto | intros ? []] | cbn; auto]. }
  exists (flight1 C c), (flight2 C c s), (flight3 C c s ++ q), a, nc, ns, res, s'.
  split; [exact Nnc|]. split; [exact Nns|]. split; [exact Ca|]. split; [exact Be|]. split; [exact Ss'|].
  intros ds1 ds2 ds3 ds4 p r lc ls l K1 K2 K3 Ep K4. destruct (T ds1 ds2 ds3 ds4 p r lc ls K1 K2 K3 Ep K4) as [(c' & ds5 & ds6 & E5 & Sc' & X1) X2]. split.
  - exists c', ds5, ds6. split; [exact E5|]. split; [exact Sc'|]. clear p r Ep K4. assert (Ek : match o_keylog oc with Some p => w_handler wc p | None => Ok tt end = Ok tt).
    { destruct Sc as (_ & Hk & _). destruct (o_keylog oc) as [p|]; [apply Hk; reflexivity | reflexivity]. }
    assert (M1 : missing wc (o_cert oc) = false) by (destruct Sc as (_ & _ & Hm); unfold missing; destruct (o_cert oc) as [p|]; [rewrite (Hm p (or_introl eq_refl))|]; reflexivity).
    assert (M2 : missing wc (o_key oc) = false) by (destruct Sc as (_ & _ & Hm); unfold missing; destruct (o_key oc) as [p|]; [rewrite (Hm p (or_intror eq_refl))|]; reflexivity).
    unfold main. cbn [dials w_handler]. rewrite Ek.
    change (missing (dials wc (mkSock (map Ok (ds2 ++ ds4) ++ lc) [] []))) with (missing wc). rewrite M1, M2, (proj1 Sc).
    unfold connect. change (system_store (dials wc (mkSock (map Ok (ds2 ++ ds4) ++ lc) [] []))) with (system_store wc).
    cbn [dials w_dial w_flip w_random w_rng w_version].
    assert (Et' : (if negb (o_insecure oc) then let* s := system_store wc in Ok (Some s) else Ok None) = Ok (trust_of oc wc)).
    { unfold trust_of. destruct (o_insecure oc); [reflexivity|]. destruct (Ss eq_refl) as [x ->]. reflexivity. }
    rewrite Et'. cbn [rbind]. change (check_config (client_config (trust_of oc wc))) with (@Ok unit tt). cbn [rbind]. rewrite Ec. cbn [rbind].
    rewrite <- Et at 1. rewrite (decode_ascii _ (visible_ascii _ Vt)). rewrite E1.
    fold (simple_client C req). rewrite X1. cbn [code_of]. rewrite <- !app_assoc. reflexivity.
  - assert (Up' : sets_up (accepts ws (AClient (mkSock (map Ok (ds1 ++ ds3) ++ ls) [] []) flip rnd rng date :: l)) os key chain) by exact Up.
    rewrite (set_up_main C _ _ _ _ Up'). cbn [accepts w_version w_accept serve_loop].
    destruct (serve_loop C (w_version ws) (server_config key chain) l) as [rr xs]. cbn [r_ended hd_error].
    unfold handle. rewrite Es. rewrite X2. reflexivity.
Qed.
