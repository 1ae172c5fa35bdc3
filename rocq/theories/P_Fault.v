(* Which errors the parsers raise. *)
From Verif Require Import Base P_Base Iana Serial S_Serial P_Serial Crypto Ext Msg S_Codec P_Codec S_Layout P_Layout S_Fault.

(* errors, buffer errors included *)
Definition mild (X : exn -> Prop) (e : exn) : Prop := polite e \/ is_buffer_error e = true \/ X e.
Definition errs {A} (X : exn -> Prop) (p : stream -> res (A * stream)) : Prop :=
  forall s e, inside s -> p s = Err e -> mild X e.
Definition moves {A} (p : stream -> res (A * stream)) : Prop :=
  forall s x s1, inside s -> p s = Ok (x, s1) -> s_pos s < s_pos s1.

Lemma polite_alert d X : (d <? 256) && negb (d =? INTERNAL_ERROR) = true -> mild X (XAlert d).
Proof. intro H. apply andb_prop in H as [A B]. apply N.ltb_lt in A. apply negb_true_iff, N.eqb_neq in B. left. exists d. auto. Qed.
Lemma er_ret {A} X (x : A) : errs X (fun s => Ok (x, s)).
Proof. intros s e _ H. discriminate. Qed.
Lemma er_err {A} (X : exn -> Prop) e : mild X e -> errs X (fun _ => @Err (A * stream) e).
Proof. intros M s e' _ H. injection H; intros <-. exact M. Qed.
Lemma er_bind {A B} X (p : stream -> res (A * stream)) (q : A -> stream -> res (B * stream)) :
  safe p -> errs X p -> (forall x, errs X (q x)) -> errs X (fun s => let* (x, s1) := p s in q x s1).
Proof.
  intros S Hp Hq s e I H. apply rbind_err in H as [H | [[x s1] [H1 H2]]]; [exact (Hp _ _ I H)|].
  destruct (S _ _ _ I H1) as (_ & _ & _ & I1). exact (Hq _ _ _ I1 H2).
Qed.
Lemma er_pure {A B} X (r : res A) (q : A -> stream -> res (B * stream)) :
  (forall e, r = Err e -> mild X e) -> (forall x, errs X (q x)) -> errs X (fun s => let* x := r in q x s).
Proof. intros Hr Hq s e I H. apply rbind_err in H as [H | [x [H1 H2]]]; [exact (Hr _ H) | exact (Hq _ _ _ I H2)]. Qed.
Lemma er_if {A} X (c : bool) (p q : stream -> res (A * stream)) : errs X p -> errs X q -> errs X (fun s => if c then p s else q s).
Proof. intros. destruct c; assumption. Qed.
Lemma er_n X n : errs X (read_n n).
Proof. intros s e _ H. unfold read_n in H. destruct (s_limits s); [discriminate|]. destruct (_ <? _); [|discriminate]. injection H; intros <-. right; left; reflexivity. Qed.
Lemma safe_n n : safe (read_n n).
Proof. intros s x s1 I H. destruct (read_n_spec _ _ _ _ I H) as (? & ? & ? & ? & _). auto. Qed.
Lemma er_exactly X n : errs X (read_exactly n).
Proof.
  assert (M : mild X XMissing) by (right; left; reflexivity).
  unfold read_exactly. apply er_if; [apply er_ret|]. apply er_bind; [apply safe_n | apply er_n|]. intro got.
  apply er_if; [apply er_ret|]. destruct got; [apply er_err; exact M|].
  apply er_bind; [apply safe_n | apply er_n|]. intro got2. destruct got2; [apply er_err; exact M|]. apply er_if; [apply er_ret | apply er_err; exact M].
Qed.
Lemma er_int X n : (n =? 0) = false -> errs X (read_int n).
Proof.
  intro Hn. unfold read_int. rewrite Hn. apply (er_bind X (read_exactly n) (fun b s => Ok (of_bytes b, s))); [apply safe_exactly | apply er_exactly | intro; apply er_ret].
Qed.
Lemma er_var X n : (n =? 0) = false -> errs X (read_var n).
Proof. intro Hn. apply er_bind; [apply safe_int | apply er_int; exact Hn | intro; apply er_exactly]. Qed.
Lemma er_listint X n m : (n =? 0) = false -> errs X (read_listint n m).
Proof.
  intro Hn. apply er_bind; [apply safe_int | apply er_int; exact Hn|]. intro len. apply er_if; [apply er_err; right; left; reflexivity|].
  apply (er_bind X (read_exactly len) (fun x s => Ok (groups (N.to_nat (len / m)) m x, s))); [apply safe_exactly | apply er_exactly | intro; apply er_ret].
Qed.
Lemma er_enum X n l bad : (n =? 0) = false -> (bad <? 256) && negb (bad =? INTERNAL_ERROR) = true -> errs X (read_enum n l bad).
Proof. intros Hn Hb. apply er_bind; [apply safe_int | apply er_int; exact Hn|]. intro. apply er_if; [apply er_ret | apply er_err, polite_alert, Hb]. Qed.

Lemma mv_int n : moves (read_int n).
Proof.
  intros s x s1 I H. unfold read_int in H. destruct (N.eqb_spec n 0); [discriminate|]. apply rbind_ok in H as [[b s2] [H1 H2]]. injection H2; intros <- <-.
  destruct (read_exactly_spec _ _ _ _ I H1) as (_ & _ & _ & _ & _ & P). lia.
Qed.
Lemma mv_bind {A B} (p : stream -> res (A * stream)) (q : A -> stream -> res (B * stream)) :
  moves p -> safe p -> (forall x, safe (q x)) -> moves (fun s => let* (x, s1) := p s in q x s1).
Proof.
  intros M S Sq s y s2 I H. apply rbind_ok in H as [[x s1] [H1 H2]]. pose proof (M _ _ _ I H1). destruct (S _ _ _ I H1) as (_ & _ & _ & I1).
  destruct (Sq _ _ _ _ I1 H2) as (_ & _ & P & _). lia.
Qed.
Lemma mv_var n : moves (read_var n).
Proof. apply mv_bind; [apply mv_int | apply safe_int | intro; apply safe_exactly]. Qed.

(* loops on a stream without limits *)
Lemma until_errs {A} X (f : stream -> res (A * stream)) :
  moves f -> safe f -> (forall s e, inside s -> s_limits s = [] -> f s = Err e -> mild X e) ->
  forall fuel s e, inside s -> s_limits s = [] -> blen (rest s) <= N.of_nat fuel -> until_eof fuel f s = Err e -> mild X e.
Proof.
  intros M S E. induction fuel as [|fuel IH]; intros s e I L F H; cbn [until_eof] in H; destruct (is_eof s) eqn:Ee; try discriminate.
  - exfalso. unfold is_eof in Ee. apply N.eqb_neq in Ee. rewrite (rest_le _ I) in F. destruct I as [I _]. lia.
  - apply rbind_err in H as [H | [[x s1] [H1 H]]]; [exact (E _ _ I L H)|]. apply rbind_err in H as [H | [l [H2 H]]]; [|discriminate].
    pose proof (M _ _ _ I H1) as P. destruct (S _ _ _ I H1) as (D & L1 & _ & I1).
    apply (IH s1 e I1); [congruence| |exact H]. rewrite (rest_le _ I1), D. rewrite (rest_le _ I) in F. lia.
Qed.
Lemma list_errs {A} X (f : stream -> res (A * stream)) b e :
  moves f -> safe f -> (forall s e, inside s -> s_limits s = [] -> f s = Err e -> mild X e) -> parse_list f b = Err e -> mild X e.
Proof.
  intros M S E H. apply (until_errs X f M S E (length b) (stream_of b)); [split; cbn; [lia | exact I] | reflexivity | | exact H].
  change (rest (stream_of b)) with b. unfold blen. lia.
Qed.
Lemma er_listvar X n m : (n =? 0) = false -> (m =? 0) = false -> errs X (read_listvar n m).
Proof.
  intros Hn Hm. apply er_bind; [apply safe_var | apply er_var; exact Hn|]. intro b.
  apply (er_pure X (parse_list (read_var m) b) (fun l s => Ok (l, s))); [|intro; apply er_ret].
  intros e H. apply (list_errs X (read_var m) b); [apply mv_var | apply safe_var | | exact H]. intros s e' I _. exact (er_var X m Hm s e' I).
Qed.

Lemma safe_server_name C : safe (parse_server_name C).
Proof.
  unfold parse_server_name. apply safe_bind; [apply safe_int|]. intro. apply safe_if; [apply safe_err|]. apply safe_bind; [apply safe_var|].
  intro b. destruct (cr_idna_decode C b) as [h|[]]; try apply safe_err; apply safe_ret.
Qed.
Lemma er_server_name C (X : exn -> Prop) : (forall b e, cr_idna_decode C b = Err e -> mild X e) -> errs X (parse_server_name C).
Proof.
  intro HX. unfold parse_server_name. apply er_bind; [apply safe_int | apply er_int; reflexivity|]. intro.
  apply er_if; [apply er_err, polite_alert; reflexivity|]. apply er_bind; [apply safe_var | apply er_var; reflexivity|].
  intro b. destruct (cr_idna_decode C b) as [h|e] eqn:E; [apply er_ret|]. pose proof (HX _ _ E). destruct e; try (apply er_err; assumption). apply er_ret.
Qed.
Lemma collect_errs X l : forall acc e, collect_names acc l = Err e -> mild X e.
Proof.
  induction l as [|[h|] l IH]; intros acc e H; cbn [collect_names] in H; [discriminate| |exact (IH _ _ H)].
  destruct acc as [h0|]; [|exact (IH _ _ H)]. destruct (beqb h0 h); [exact (IH _ _ H)|]. injection H; intros <-. apply polite_alert. reflexivity.
Qed.
Lemma shares_errs X : forall fuel seen s e, inside s -> blen (rest s) <= N.of_nat fuel -> parse_shares fuel seen s = Err e -> mild X e.
Proof.
  assert (S : safe parse_share).
  { unfold parse_share. apply safe_bind; [apply safe_int|]. intro g. apply (safe_bind (read_var 2) (fun k s => Ok ((g, k), s))); [apply safe_var | intro; apply safe_ret]. }
  assert (M : moves parse_share).
  { unfold parse_share. apply mv_bind; [apply mv_int | apply safe_int|]. intro g. apply (safe_bind (read_var 2) (fun k s => Ok ((g, k), s))); [apply safe_var | intro; apply safe_ret]. }
  assert (E : errs X parse_share).
  { unfold parse_share. apply er_bind; [apply safe_int | apply er_int; reflexivity|]. intro g.
    apply (er_bind X (read_var 2) (fun k s => Ok ((g, k), s))); [apply safe_var | apply er_var; reflexivity | intro; apply er_ret]. }
  induction fuel as [|fuel IH]; intros seen s e I F H; cbn [parse_shares] in H; destruct (is_eof s) eqn:Ee; try discriminate.
  - exfalso. unfold is_eof in Ee. apply N.eqb_neq in Ee. rewrite (rest_le _ I) in F. destruct I as [I _]. lia.
  - apply rbind_err in H as [H | [[x s1] [H1 H]]]; [exact (E _ _ I H)|].
    destruct (memN (fst x) seen); [injection H; intros <-; apply polite_alert; reflexivity|].
    apply rbind_err in H as [H | [l [H2 H]]]; [|discriminate].
    pose proof (M _ _ _ I H1) as P. destruct (S _ _ _ I H1) as (D & L1 & _ & I1).
    apply (IH _ s1 e I1) in H; [exact H|]. rewrite (rest_le _ I1), D. rewrite (rest_le _ I) in F. lia.
Qed.

(* the bodies of extensions *)
Definition ext_fault (C : crypto) (c : ecls) (e : exn) : Prop :=
  match c with
  | CServerNameReq => exists b, cr_idna_decode C b = Err e
  | CUseSrtp => e = XValue \/ e = XType
  | CCertAuthorities => e = XType
  | CSupVersionsResp => e = XValue
  | _ => False
  end.
Ltac ers :=
  repeat match goal with
  | |- errs _ (fun s => Ok (_, s)) => apply er_ret
  | |- errs _ (fun s => Err (XAlert _)) => apply er_err, polite_alert; reflexivity
  | |- errs _ (fun s => Err _) => apply er_err; right; right; cbn [ext_fault]; tauto
  | |- errs _ (fun s => if _ then _ else _) => apply er_if
  | |- errs _ (fun s => rbind (read_int ?n s) (fun '(x, s1) => _)) => apply (er_bind _ (read_int n)); [apply safe_int | apply er_int; reflexivity | intro]
  | |- errs _ (fun s => rbind (read_var ?n s) (fun '(x, s1) => _)) => apply (er_bind _ (read_var n)); [apply safe_var | apply er_var; reflexivity | intro]
  | |- errs _ (fun s => rbind (read_listint ?n ?m s) (fun '(x, s1) => _)) => apply (er_bind _ (read_listint n m)); [apply safe_listint | apply er_listint; reflexivity | intro]
  | |- errs _ (fun s => rbind (read_listvar ?n ?m s) (fun '(x, s1) => _)) => apply (er_bind _ (read_listvar n m)); [apply safe_listvar | apply er_listvar; reflexivity | intro]
  | |- errs _ (fun s => rbind (read_enum ?n ?l ?b s) (fun '(x, s1) => _)) => apply (er_bind _ (read_enum n l b)); [apply safe_enum | apply er_enum; reflexivity | intro]
  | |- errs _ (fun s => rbind ?r (fun x => _)) => apply (er_pure _ r); [|intro]
  end.
Lemma er_all_map {A} X (k : bytes -> A) : errs X (fun s => let (b, s1) := read_all s in Ok (k b, s1)).
Proof. intros s e _ H. destruct (read_all s). discriminate. Qed.
Lemma er_body C ty c : errs (ext_fault C c) (parse_ext_body C ty c).
Proof.
  destruct c; cbv beta iota delta [parse_ext_body]; ers.
  - intros e H. eapply list_errs with (4 := H); [| apply safe_server_name|].
    + unfold parse_server_name. apply mv_bind; [apply mv_int | apply safe_int|]. intro. apply safe_if; [apply safe_err|].
      apply safe_bind; [apply safe_var|]. intro b. destruct (cr_idna_decode C b) as [h|[]]; try apply safe_err; apply safe_ret.
    + intros s e' I _. apply er_server_name; [|exact I]. intros b e0 E. right; right. exists b. exact E.
  - intros e H. exact (collect_errs _ _ _ _ H).
  - apply (er_all_map _ (fun b => EPadding (blen b))).
  - intros e H. eapply list_errs with (4 := H).
    + unfold parse_psk_id. apply mv_bind; [apply mv_var | apply safe_var|]. intro b. apply (safe_bind (read_int 4) (fun k s => Ok ((b, k), s))); [apply safe_int | intro; apply safe_ret].
    + unfold parse_psk_id. apply safe_bind; [apply safe_var|]. intro b. apply (safe_bind (read_int 4) (fun k s => Ok ((b, k), s))); [apply safe_int | intro; apply safe_ret].
    + intros s e' I _ P. revert P. apply (fun K : errs (ext_fault C CPskReq) parse_psk_id => K s e' I). unfold parse_psk_id. ers.
  - intros e H. eapply list_errs with (4 := H).
    + unfold parse_oid_filter. apply mv_bind; [apply mv_var | apply safe_var|]. intro b. apply (safe_bind (read_var 2) (fun k s => Ok ((b, k), s))); [apply safe_var | intro; apply safe_ret].
    + unfold parse_oid_filter. apply safe_bind; [apply safe_var|]. intro b. apply (safe_bind (read_var 2) (fun k s => Ok ((b, k), s))); [apply safe_var | intro; apply safe_ret].
    + intros s e' I _ P. revert P. apply (fun K : errs (ext_fault C COidFilters) parse_oid_filter => K s e' I). unfold parse_oid_filter. ers.
  - intros e H. match type of H with parse_shares (length ?b) _ _ = _ => apply (shares_errs (ext_fault C CKeyShareReq) (length b) [] (stream_of b)) in H; [exact H | split; cbn; [lia | exact I] | change (rest (stream_of b)) with b; unfold blen; lia] end.
  - apply (er_all_map _ (fun b => EUnknown ty b)).
Qed.

(* extensions that may be found in a message *)
Definition in_message (h : hname) (c : ecls) : Prop := exists ty f, registry ty = Some f /\ f h = Some c.
Definition msg_fault (C : crypto) (h : hname) (e : exn) : Prop := exists c, in_message h c /\ ext_fault C c e.
Lemma mild_mono (X Y : exn -> Prop) e : (X e -> Y e) -> mild X e -> mild Y e.
Proof. intros H [M | [M | M]]; [left | right; left | right; right]; auto. Qed.
Lemma ext_errs C h s e : inside s -> s_limits s = [] -> parse_ext C h s = Err e -> mild (msg_fault C h) e.
Proof.
  intros I L H. unfold parse_ext in H.
  apply rbind_err in H as [H | [[ty s1] [H1 H]]]; [exact (er_int _ 2 eq_refl _ _ I H)|].
  destruct (safe_int 2 _ _ _ I H1) as (_ & L1 & _ & I1).
  apply rbind_err in H as [H | [c [Hc H]]].
  { destruct (registry ty) as [f|]; [|discriminate]. destruct (f h); [discriminate|]. injection H; intros <-. apply polite_alert. reflexivity. }
  apply rbind_err in H as [H | [[len s2] [H2 H]]]; [exact (er_int _ 2 eq_refl _ _ I1 H)|].
  destruct (safe_int 2 _ _ _ I1 H2) as (_ & L2 & _ & I2).
  unfold with_limit in H. cbv zeta in H. rewrite L2, L1, L in H.
  set (s' := mkStream (s_data s2) (s_pos s2) [s_pos s2 + len]) in *.
  assert (I' : inside s'). { split; cbn; [apply I2 | lia]. }
  apply rbind_err in H as [H | [[x s3] [H3 H]]].
  - pose proof (er_body C ty c s' e I' H) as M. revert M. apply mild_mono. intro F. exists c. split; [|exact F].
    destruct (registry ty) as [f|] eqn:Er.
    + destruct (f h) eqn:Ef; [|discriminate]. injection Hc; intros <-. exists ty, f. split; assumption.
    + injection Hc; intros <-. destruct F.
  - destruct (safe_body C ty c _ _ _ I' H3) as (_ & L3 & _ & _). rewrite L3 in H. cbn [s_limits s'] in H. rewrite N.eqb_refl in H. cbn [negb] in H.
    destruct (_ =? _); [discriminate|]. injection H; intros <-. right; left; reflexivity.
Qed.
Lemma moves_ext C h : moves (parse_ext C h).
Proof.
  unfold parse_ext. apply mv_bind; [apply mv_int | apply safe_int|]. intro ty.
  apply (safe_pure (match registry ty with Some f => match f h with Some c => Ok c | None => Err (XAlert ILLEGAL_PARAMETER) end | None => Ok CUnknownExt end)
    (fun c s1 => let* (len, s2) := read_int 2 s1 in with_limit len (fun _ => parse_ext_body C ty c) s2)).
  intros c _. apply safe_bind; [apply safe_int|]. intro len. apply safe_limit. intro. apply safe_body.
Qed.
Lemma safe_ext C h : safe (parse_ext C h).
Proof.
  unfold parse_ext. apply safe_bind; [apply safe_int|]. intro ty.
  apply (safe_pure (match registry ty with Some f => match f h with Some c => Ok c | None => Err (XAlert ILLEGAL_PARAMETER) end | None => Ok CUnknownExt end)
    (fun c s1 => let* (len, s2) := read_int 2 s1 in with_limit len (fun _ => parse_ext_body C ty c) s2)).
  intros c _. apply safe_bind; [apply safe_int|]. intro len. apply safe_limit. intro. apply safe_body.
Qed.
Lemma er_exts C h : errs (msg_fault C h) (parse_exts C h).
Proof.
  unfold parse_exts. apply er_bind; [apply safe_var | apply er_var; reflexivity|]. intro b.
  apply (er_pure _ (parse_list (parse_ext C h) b) (fun l s => Ok (l, s))); [|intro; apply er_ret].
  intros e H. apply (list_errs _ (parse_ext C h) b); [apply moves_ext | apply safe_ext | | exact H]. intros s e' I L. exact (ext_errs C h s e' I L).
Qed.
Lemma safe_exts C h : safe (parse_exts C h).
Proof.
  unfold parse_exts. apply safe_bind; [apply safe_var|]. intro b.
  apply (safe_pure (parse_list (parse_ext C h) b) (fun l s => Ok (l, s))). intros. apply safe_ret.
Qed.

Definition hello_fault (C : crypto) (e : exn) : Prop := e = XValue \/ e = XType \/ exists b, cr_idna_decode C b = Err e.
Lemma fault_in C h e : msg_fault C h e ->
  match h with
  | NClientHello => hello_fault C e
  | NServerHello | NHelloRetry => e = XValue
  | NEncryptedExt => e = XValue \/ e = XType
  | NCertRequest => e = XType
  | _ => False
  end.
Proof.
  intros (c & (ty & f & R & F) & X). revert R. unfold registry, hello_fault.
  repeat (match goal with |- (if ?a =? ?b then _ else _) = _ -> _ => destruct (a =? b); [
    intro R; injection R; intros <-; destruct h; try discriminate F; injection F; intros <-; cbn [ext_fault] in X; tauto|] end).
  discriminate.
Qed.
Lemma er_mono {A} (X Y : exn -> Prop) (p : stream -> res (A * stream)) : (forall e, X e -> Y e) -> errs X p -> errs Y p.
Proof. intros H E s e I P. exact (mild_mono X Y e (H e) (E s e I P)). Qed.

Lemma mk_ch_shape random suites exts h : mk_client_hello random suites exts = Ok h -> exists r i cs d, h = HClientHello r i cs d.
Proof.
  unfold mk_client_hello. intro E. repeat match type of E with (if ?c then _ else _) = _ => destruct c; [discriminate|] end.
  injection E; intros <-. eauto.
Qed.
Lemma er_client_hello C : errs (hello_fault C) (parse_client_hello C).
Proof.
  unfold parse_client_hello. apply er_bind; [apply safe_int | apply er_int; reflexivity|]. intro v.
  apply er_if; [apply er_err, polite_alert; reflexivity|].
  apply er_bind; [apply safe_exactly | apply er_exactly|]. intro random.
  apply er_bind; [apply safe_var | apply er_var; reflexivity|]. intro sid.
  apply er_bind; [apply safe_listint | apply er_listint; reflexivity|]. intro suites.
  apply er_bind; [apply safe_var | apply er_var; reflexivity|]. intro comp.
  apply er_if; [apply er_err, polite_alert; reflexivity|].
  apply er_bind; [apply safe_exts | apply (er_mono (msg_fault C NClientHello)); [exact (fault_in C NClientHello) | apply er_exts]|]. intro exts.
  intros s e _ H. unfold on_value_error in H. destruct (mk_client_hello random suites exts) as [h|e'] eqn:E.
  - destruct (mk_ch_shape _ _ _ _ E) as (r & i & cs & d & ->). discriminate H.
  - assert (e' = XValue) as ->.
    { unfold mk_client_hello in E. repeat match type of E with (if ?c then _ else _) = _ => destruct c; [congruence|] end. discriminate. }
    injection H; intros <-. apply polite_alert. reflexivity.
Qed.
Lemma er_server_hello C : errs (fun e => e = XValue) (parse_server_hello C).
Proof.
  unfold parse_server_hello. apply er_bind; [apply safe_int | apply er_int; reflexivity|]. intro v.
  apply er_if; [apply er_err, polite_alert; reflexivity|].
  apply er_bind; [apply safe_exactly | apply er_exactly|]. intro random. cbv zeta.
  apply er_bind; [apply safe_var | apply er_var; reflexivity|]. intro sid.
  apply er_bind; [apply safe_int | apply er_int; reflexivity|]. intro suite.
  apply er_bind; [apply safe_int | apply er_int; reflexivity|]. intro comp.
  apply er_if; [apply er_err, polite_alert; reflexivity|].
  apply (er_bind _ (parse_exts C (if beqb random hrr_random then NHelloRetry else NServerHello)) (fun exts s6 => Ok (HServerHello (beqb random hrr_random) random sid suite (ext_dict exts), s6)));
    [apply safe_exts | | intro; apply er_ret].
  destruct (beqb random hrr_random).
  - apply (er_mono (msg_fault C NHelloRetry)); [exact (fault_in C NHelloRetry) | apply er_exts].
  - apply (er_mono (msg_fault C NServerHello)); [exact (fault_in C NServerHello) | apply er_exts].
Qed.
Lemma er_enc_ext C : errs (fun e => e = XValue \/ e = XType) (parse_enc_ext C).
Proof.
  unfold parse_enc_ext. apply (er_bind _ (parse_exts C NEncryptedExt) (fun exts s => Ok (HEncExt (ext_dict exts), s)));
    [apply safe_exts | apply (er_mono (msg_fault C NEncryptedExt)); [exact (fault_in C NEncryptedExt) | apply er_exts] | intro; apply er_ret].
Qed.
Lemma er_cert_request C : errs (fun e => e = XType) (parse_cert_request C).
Proof.
  unfold parse_cert_request. apply er_bind; [apply safe_var | apply er_var; reflexivity|]. intro ctx.
  apply er_bind; [apply safe_exts | apply (er_mono (msg_fault C NCertRequest)); [exact (fault_in C NCertRequest) | apply er_exts]|]. intro exts. cbv zeta.
  apply er_if; [apply er_ret | apply er_err, polite_alert; reflexivity].
Qed.
Definition load_fault (C : crypto) (e : exn) : Prop := exists b, cr_load_cert C b = Err e \/ cr_load_pubkey C b = Err e.
Lemma safe_entry C ct : safe (parse_entry C ct).
Proof.
  unfold parse_entry. apply safe_bind; [apply safe_var|]. intro data.
  apply (safe_pure (if ct =? CT_X509 then cr_load_cert C data else cr_load_pubkey C data) (fun cert s => let* (exts, s2) := parse_exts C NCertificate s in Ok (mkEntry ct cert (ext_dict exts), s2))).
  intros cert _. apply (safe_bind (parse_exts C NCertificate) (fun exts s => Ok (mkEntry ct cert (ext_dict exts), s))); [apply safe_exts | intro; apply safe_ret].
Qed.
Lemma moves_entry C ct : moves (parse_entry C ct).
Proof.
  unfold parse_entry. apply mv_bind; [apply mv_var | apply safe_var|]. intro data.
  apply (safe_pure (if ct =? CT_X509 then cr_load_cert C data else cr_load_pubkey C data) (fun cert s => let* (exts, s2) := parse_exts C NCertificate s in Ok (mkEntry ct cert (ext_dict exts), s2))).
  intros cert _. apply (safe_bind (parse_exts C NCertificate) (fun exts s => Ok (mkEntry ct cert (ext_dict exts), s))); [apply safe_exts | intro; apply safe_ret].
Qed.
Lemma er_entry C ct : errs (load_fault C) (parse_entry C ct).
Proof.
  unfold parse_entry. apply er_bind; [apply safe_var | apply er_var; reflexivity|]. intro data.
  apply (er_pure _ (if ct =? CT_X509 then cr_load_cert C data else cr_load_pubkey C data) (fun cert s => let* (exts, s2) := parse_exts C NCertificate s in Ok (mkEntry ct cert (ext_dict exts), s2))).
  - intros e H. right; right. exists data. destruct (ct =? CT_X509); [left | right]; exact H.
  - intro cert. apply (er_bind _ (parse_exts C NCertificate) (fun exts s => Ok (mkEntry ct cert (ext_dict exts), s))); [apply safe_exts | | intro; apply er_ret].
    apply (er_mono (msg_fault C NCertificate)); [|apply er_exts]. intros e H. destruct (fault_in C NCertificate e H).
Qed.
Lemma entries_errs C ct lim : forall fuel s e, inside s -> blen (rest s) < N.of_nat fuel -> parse_entries fuel C ct lim s = Err e -> mild (load_fault C) e.
Proof.
  induction fuel as [|fuel IH]; intros s e I F H; [lia|]. cbn [parse_entries] in H. destruct (s_pos s <? lim); [|discriminate].
  apply rbind_err in H as [H | [[x s1] [H1 H]]]; [exact (er_entry C ct _ _ I H)|].
  apply rbind_err in H as [H | [[l s2] [H2 H]]]; [|discriminate].
  pose proof (moves_entry C ct _ _ _ I H1) as P. destruct (safe_entry C ct _ _ _ I H1) as (D & _ & _ & I1).
  apply (IH s1 e I1) in H; [exact H|]. rewrite (rest_le _ I1), D. rewrite (rest_le _ I) in F. destruct I1 as [J _]. rewrite D in J. lia.
Qed.
Lemma safe_entries C ct lim : forall fuel, safe (parse_entries fuel C ct lim).
Proof.
  induction fuel as [|fuel IH]; intros s x s1 I H; cbn [parse_entries] in H; destruct (s_pos s <? lim); try discriminate;
  try (injection H; intros <- <-; split; [reflexivity|]; split; [reflexivity|]; split; [lia | exact I]).
  apply rbind_ok in H as [[y s2] [H1 H]]. apply rbind_ok in H as [[l s3] [H2 H]]. injection H; intros <- <-.
  destruct (safe_entry C ct _ _ _ I H1) as (D & L & P & I1). destruct (IH _ _ _ I1 H2) as (D2 & L2 & P2 & I2).
  split; [congruence|]. split; [congruence|]. split; [lia | exact I2].
Qed.
Lemma er_certificate C pct : errs (fun e => e = XAttr \/ e = XKey \/ e = XValue \/ load_fault C e) (parse_certificate C pct).
Proof.
  intros s e I H. unfold parse_certificate in H. destruct pct as [[ct|]|]; try (injection H; intros <-; right; right; tauto).
  destruct (negb _); [injection H; intros <-; right; right; tauto|].
  apply rbind_err in H as [H | [[ctx s1] [H1 H]]]; [exact (er_var _ 1 eq_refl _ _ I H)|].
  destruct (safe_var 1 _ _ _ I H1) as (D1 & L1 & P1 & I1). pose proof (mv_var 1 _ _ _ I H1) as M1.
  apply rbind_err in H as [H | [[len s2] [H2 H]]]; [exact (er_int _ 3 eq_refl _ _ I1 H)|].
  destruct (safe_int 3 _ _ _ I1 H2) as (D2 & L2 & P2 & I2).
  apply rbind_err in H as [H | [[l s3] [H3 H]]]; [|discriminate].
  unfold with_limit in H. cbv zeta in H.
  destruct (match s_limits s2 with [] => false | lim :: _ => lim <? s_pos s2 + len end); [injection H; intros <-; right; right; tauto|].
  set (s' := mkStream (s_data s2) (s_pos s2) (s_pos s2 + len :: s_limits s2)) in *.
  assert (I' : inside s'). { split; cbn; [apply I2 | lia]. }
  apply rbind_err in H as [H | [[x s4] [H4 H]]].
  - apply entries_errs in H; [revert H; apply mild_mono; tauto | exact I'|].
    rewrite (rest_le _ I'). unfold blen. cbn [s_pos s_data s']. destruct I2 as [J _]. unfold blen in J. lia.
  - destruct (safe_entries C ct _ _ _ _ _ I' H4) as (_ & L4 & _ & _). rewrite L4 in H. cbn [s_limits s'] in H. rewrite N.eqb_refl in H. cbn [negb] in H.
    destruct (_ =? _); [discriminate|]. injection H; intros <-. right; left; reflexivity.
Qed.

(* the top *)
Lemma limit_errs {A} X len (p : stream -> res (A * stream)) s e :
  inside s -> s_limits s = [] -> errs X p -> (forall s x s1, inside s -> p s = Ok (x, s1) -> s_limits s1 = s_limits s) -> with_limit len (fun _ => p) s = Err e -> mild X e.
Proof.
  intros I L E S H. unfold with_limit in H. cbv zeta in H. rewrite L in H.
  set (s' := mkStream (s_data s) (s_pos s) [s_pos s + len]) in *.
  assert (I' : inside s'). { split; cbn; [apply I | lia]. }
  apply rbind_err in H as [H | [[x s3] [H3 H]]]; [exact (E _ _ I' H)|].
  rewrite (S _ _ _ I' H3) in H. cbn [s_limits s'] in H. rewrite N.eqb_refl in H. cbn [negb] in H.
  destruct (_ =? _); [discriminate|]. injection H; intros <-. right; left; reflexivity.
Qed.

Ltac sfs := repeat first
  [ apply safe_bind; [first [apply safe_int | apply safe_exactly | apply safe_var | apply safe_listint | apply safe_exts] | intro]
  | apply safe_if; [apply safe_err|] | apply safe_if; [apply safe_ret | apply safe_err] | apply safe_ret ].
Lemma safe_client_hello C : safe (parse_client_hello C).
Proof.
  unfold parse_client_hello. sfs.
  match goal with |- safe (fun s => rbind ?r _) => destruct r as [h|e]; cbn [rbind]; [|apply safe_err] end.
  destruct h; try apply safe_err; apply safe_ret.
Qed.
Lemma safe_server_hello C : safe (parse_server_hello C).
Proof.
  unfold parse_server_hello. apply safe_bind; [apply safe_int|intro]. apply safe_if; [apply safe_err|].
  apply safe_bind; [apply safe_exactly|intro random]. cbv zeta. sfs.
Qed.
Lemma safe_enc_ext C : safe (parse_enc_ext C).
Proof. unfold parse_enc_ext. sfs. Qed.
Lemma safe_cert_request C : safe (parse_cert_request C).
Proof. unfold parse_cert_request. apply safe_bind; [apply safe_var|intro]. apply safe_bind; [apply safe_exts|intro]. cbv zeta. sfs. Qed.
Lemma safe_cert_verify : safe parse_cert_verify.
Proof. unfold parse_cert_verify. sfs. Qed.
Lemma safe_finished : safe parse_finished.
Proof. apply (safe_all_map HFinished). Qed.
Lemma certificate_limits C pct s x s1 : inside s -> parse_certificate C pct s = Ok (x, s1) -> s_limits s1 = s_limits s.
Proof.
  intros I H. unfold parse_certificate in H. destruct pct as [[ct|]|]; try discriminate.
  destruct (negb _); [discriminate|].
  apply rbind_ok in H as [[ctx s2] [H1 H]]. destruct (safe_var 1 _ _ _ I H1) as (D1 & L1 & P1 & I1).
  apply rbind_ok in H as [[len s3] [H2 H]]. destruct (safe_int 3 _ _ _ I1 H2) as (D2 & L2 & P2 & I2).
  apply rbind_ok in H as [[l s4] [H3 H]]. injection H; intros <- <-.
  unfold with_limit in H3. cbv zeta in H3. destruct (match s_limits s3 with [] => false | lim :: _ => lim <? s_pos s3 + len end); [discriminate|].
  apply rbind_ok in H3 as [[y s5] [H4 H3]].
  match type of H4 with parse_entries _ _ _ _ ?s' = _ => assert (I' : inside s') by (split; cbn; [apply I2 | lia]) end.
  destruct (safe_entries C ct _ _ _ _ _ I' H4) as (_ & L4 & _ & _). rewrite L4 in H3. cbn [s_limits] in H3.
  destruct (negb _); [discriminate|]. destruct (_ =? _); [|discriminate]. injection H3; intros <- <-. cbn [s_limits]. congruence.
Qed.
Lemma er_cert_verify X : errs X parse_cert_verify.
Proof.
  unfold parse_cert_verify. apply er_bind; [apply safe_int | apply er_int; reflexivity|]. intro alg.
  apply er_bind; [apply safe_var | apply er_var; reflexivity|]. intro sig. apply er_ret.
Qed.
Lemma er_finished X : errs X parse_finished.
Proof. apply (er_all_map X HFinished). Qed.
Lemma safe_limits {A} (p : stream -> res (A * stream)) : safe p -> forall s x s1, inside s -> p s = Ok (x, s1) -> s_limits s1 = s_limits s.
Proof. intros S s x s1 I H. apply (S s x s1 I H). Qed.

Lemma hs_errs C pct data e : parse_hs C pct (stream_of data) = Err e ->
  mild (fun e => In e (faults CT_HANDSHAKE data) \/ external C CT_HANDSHAKE data e) e.
Proof.
  intro H. assert (I : inside (stream_of data)) by (split; cbn; [lia | exact Logic.I]).
  unfold parse_hs in H. apply rbind_err in H as [H | [[ty s1] [H1 H]]]; [exact (er_int _ 1 eq_refl _ _ I H)|].
  destruct (safe_int 1 _ _ _ I H1) as (D1 & L1 & P1 & I1). cbn [s_limits stream_of] in L1.
  destruct (tk_int 1 _ _ _ I H1) as [(_ & _ & _ & _ & R) Lt].
  change (rest (stream_of data)) with data in R.
  assert (exists t r, data = t :: r /\ bN t = ty) as (t & r & Ed & Et).
  { cbn [be_bytes app] in R. change (256 ^ N.of_nat 1) with 256 in Lt. rewrite N.mod_small in R by exact Lt.
    exists (Nb ty), (rest s1). split; [exact R|]. apply bN_Nb. exact Lt. }
  apply rbind_err in H as [H | [[len s2] [H2 H]]]; [exact (er_int _ 3 eq_refl _ _ I1 H)|].
  destruct (safe_int 3 _ _ _ I1 H2) as (D2 & L2 & P2 & I2). rewrite L1 in L2. cbv zeta in H.
  unfold faults, external. change (CT_HANDSHAKE =? CT_INVALID) with false. change (CT_HANDSHAKE =? CT_HEARTBEAT) with false.
  change (CT_HANDSHAKE =? CT_HANDSHAKE) with true. rewrite Ed. cbv iota.
  destruct (ty =? CLIENT_HELLO) eqn:K1.
  { apply N.eqb_eq in K1. rewrite Et, K1. cbn [N.eqb Pos.eqb MESSAGE_HASH CLIENT_HELLO].
    apply (limit_errs (hello_fault C) _ _ _ _ I2 L2 (er_client_hello C) (safe_limits _ (safe_client_hello C))) in H.
    revert H. apply mild_mono. intros [-> | [-> | X]]; [left; left; reflexivity | left; right; left; reflexivity|].
    right. split; [reflexivity|]. exists t, r. split; [reflexivity|]. left. split; [congruence | exact X]. }
  destruct (ty =? SERVER_HELLO) eqn:K2.
  { apply N.eqb_eq in K2. rewrite Et, K2.
    apply (limit_errs _ _ _ _ _ I2 L2 (er_server_hello C) (safe_limits _ (safe_server_hello C))) in H.
    revert H. apply mild_mono. intros ->. left; left; reflexivity. }
  destruct (ty =? ENCRYPTED_EXTENSIONS) eqn:K3.
  { apply N.eqb_eq in K3. rewrite Et, K3.
    apply (limit_errs _ _ _ _ _ I2 L2 (er_enc_ext C) (safe_limits _ (safe_enc_ext C))) in H.
    revert H. apply mild_mono. intros [-> | ->]; left; [left | right; left]; reflexivity. }
  destruct (ty =? CERTIFICATE) eqn:K4.
  { apply N.eqb_eq in K4. rewrite Et, K4.
    apply (limit_errs _ _ _ _ _ I2 L2 (er_certificate C pct) (certificate_limits C pct)) in H.
    revert H. apply mild_mono. intros [-> | [-> | [-> | X]]]; [left; left; reflexivity | left; right; left; reflexivity | left; right; right; left; reflexivity|].
    right. split; [reflexivity|]. exists t, r. split; [reflexivity|]. right. split; [congruence | exact X]. }
  destruct (ty =? CERTIFICATE_REQUEST) eqn:K5.
  { apply N.eqb_eq in K5. rewrite Et, K5.
    apply (limit_errs _ _ _ _ _ I2 L2 (er_cert_request C) (safe_limits _ (safe_cert_request C))) in H.
    revert H. apply mild_mono. intros ->. left; left; reflexivity. }
  destruct (ty =? CERTIFICATE_VERIFY).
  { apply (limit_errs (fun _ => False) _ _ _ _ I2 L2 (er_cert_verify _) (safe_limits _ safe_cert_verify)) in H. revert H. apply mild_mono. tauto. }
  destruct (ty =? FINISHED).
  { apply (limit_errs (fun _ => False) _ _ _ _ I2 L2 (er_finished _) (safe_limits _ safe_finished)) in H. revert H. apply mild_mono. tauto. }
  destruct (_ || _).
  { apply (limit_errs (fun _ => False) _ _ _ _ I2 L2 (er_ret _ _) (safe_limits _ (safe_ret _))) in H. revert H. apply mild_mono. tauto. }
  destruct (ty =? MESSAGE_HASH) eqn:K6.
  { apply N.eqb_eq in K6. rewrite Et, K6. injection H; intros <-. right; right. left; left; reflexivity. }
  injection H; intros <-. left. exists ILLEGAL_PARAMETER. split; [reflexivity | split; [reflexivity | discriminate]].
Qed.

Lemma content_errs C pct ct data e : parse_content C pct ct data = Err e ->
  polite e \/ In e (faults ct data) \/ external C ct data e.
Proof.
  intro H. unfold parse_content in H. cbv zeta in H.
  assert (I : inside (stream_of data)) by (split; cbn; [lia | exact Logic.I]).
  match type of H with match rbind ?r ?k with _ => _ end = _ => set (p := r) in H; set (q := k) in H end.
  assert (P : forall e', p = Err e' -> mild (fun e => In e (faults ct data) \/ external C ct data e) e').
  { intros e' E. subst p. destruct (ct =? CT_CCS).
    { apply rbind_err in E as [E | [[b s1] [E1 E]]]; [exact (er_exactly _ _ _ _ I E)|]. destruct (beqb _ _); [discriminate|].
      injection E; intros <-. left. exists UNEXPECTED_MESSAGE. split; [reflexivity | split; [reflexivity | discriminate]]. }
    destruct (ct =? CT_ALERT).
    { unfold parse_alert in E. apply rbind_err in E as [E | [[b s1] [E1 E]]].
      - eapply er_enum in E; [exact E | reflexivity | reflexivity | exact I].
      - destruct (safe_enum _ _ _ _ _ _ I E1) as (_ & _ & _ & I1). apply rbind_err in E as [E | [[d s2] [E2 E]]]; [exact (er_int _ 1 eq_refl _ _ I1 E) | discriminate]. }
    destruct (ct =? CT_HANDSHAKE) eqn:K.
    { apply N.eqb_eq in K. rewrite K. apply rbind_err in E as [E | [[h s1] [E1 E]]]; [exact (hs_errs _ _ _ _ E) | discriminate]. }
    destruct (ct =? CT_APPDATA); [destruct (read_all (stream_of data)); discriminate|].
    destruct (ct =? CT_HEARTBEAT) eqn:K2.
    { apply N.eqb_eq in K2. rewrite K2. unfold parse_heartbeat in E. apply rbind_err in E as [E | [[b s1] [E1 E]]].
      - eapply er_enum in E; [exact E | reflexivity | reflexivity | exact I].
      - destruct (safe_enum _ _ _ _ _ _ I E1) as (_ & _ & _ & I1). apply rbind_err in E as [E | [[d s2] [E2 E]]]; [exact (er_var _ 2 eq_refl _ _ I1 E)|].
        destruct (read_all s2) as [pad s3]. right; right; left. destruct (_ <? _); [injection E; intros <-; left; reflexivity|].
        destruct (_ <? _); [injection E; intros <-; left; reflexivity | discriminate]. }
    destruct (ct =? CT_INVALID) eqn:K3.
    { apply N.eqb_eq in K3. rewrite K3. injection E; intros <-. right; right; left. left; reflexivity. }
    injection E; intros <-. left. exists DECODE_ERROR. split; [reflexivity | split; [reflexivity | discriminate]]. }
  assert (mild (fun e => In e (faults ct data) \/ external C ct data e) e \/ e = XAlert DECODE_ERROR) as [M | ->].
  { destruct (rbind p q) as [c|e'] eqn:E; [discriminate|]. destruct (is_buffer_error e') eqn:B; injection H; intros <-; [right; reflexivity | left].
    apply rbind_err in E as [E | [[c s1] [E1 E]]]; [exact (P _ E)|]. subst q. cbv beta iota in E.
    apply rbind_err in E as [E | [u [E2 E]]]; [|discriminate]. unfold assert_eof in E.
    repeat match type of E with (if ?c then _ else _) = _ => destruct c | match ?c with _ => _ end = _ => destruct c end; try discriminate;
    injection E; intros <-; discriminate B. }
  - destruct M as [M | [M | M]]; [left; exact M | | right; exact M].
    exfalso. destruct (rbind p q) as [c|e'] eqn:E; [discriminate|]. destruct (is_buffer_error e') eqn:B; injection H; intros <-; [discriminate M | congruence].
  - left. exists DECODE_ERROR. split; [reflexivity | split; [reflexivity | discriminate]].
Qed.

(* a heartbeat whose payload is too long *)
Lemma long_heartbeat C pct p : 16381 < blen p -> blen p < 65536 -> parse_content C pct CT_HEARTBEAT ([x01] ++ be_bytes 2 (blen p) ++ p) = Err XValue.
Proof.
  intros L M. unfold parse_content. cbv zeta. change (CT_HEARTBEAT =? CT_CCS) with false. change (CT_HEARTBEAT =? CT_ALERT) with false.
  change (CT_HEARTBEAT =? CT_HANDSHAKE) with false. change (CT_HEARTBEAT =? CT_APPDATA) with false. change (CT_HEARTBEAT =? CT_HEARTBEAT) with true. cbv iota.
  unfold parse_heartbeat.
  set (data := [x01] ++ be_bytes 2 (blen p) ++ p). set (s1 := mkStream data 1 []).
  assert (E1 : read_enum 1 [1; 2] ILLEGAL_PARAMETER (stream_of data) = Ok (1, s1)).
  { refine (r_enum 0 [1; 2] ILLEGAL_PARAMETER 1 [x01] eq_refl _ (stream_of data) (be_bytes 2 (blen p) ++ p) _ _); [cbn; tauto | reflexivity | exact Logic.I]. }
  rewrite E1. cbn [rbind].
  assert (V : put_var 2 p = Ok (be_bytes 2 (blen p) ++ p)).
  { unfold put_var, to_bytes. change (256 ^ N.of_nat 2) with 65536. apply N.ltb_lt in M. rewrite M. reflexivity. }
  assert (E2 : read_var 2 s1 = Ok (p, mkStream data (1 + blen (be_bytes 2 (blen p) ++ p)) [])).
  { refine (r_var 1 p _ V s1 [] _ _); [rewrite app_nil_r; reflexivity | exact Logic.I]. }
  rewrite E2. cbn [rbind]. destruct (read_all _) as [pad s3]. apply N.ltb_lt in L. rewrite L. reflexivity.
Qed.
