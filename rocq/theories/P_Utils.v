From Verif Require Import Base P_Base Iana Ext Config Utils S_Utils.

(* --- peekable --- *)
Definition pk_view {A} (p : peekable A) : list A :=
  match pk_peeked p with Some x => x :: pk_it p | None => pk_it p end.
Lemma pk_op_sim {A} (o : pop A) p : 
  fst (pk_op o p) = fst (list_op o (pk_view p)) /\ pk_view (snd (pk_op o p)) = snd (list_op o (pk_view p)).
Proof.
  destruct p as [it pk]. unfold pk_view.
  destruct o as [|[d|]]; destruct pk as [x|]; destruct it as [|y it]; cbn; auto.
Qed.
Lemma pk_ops_sim {A} (ops : list (pop A)) : forall p, pk_ops ops p = list_ops ops (pk_view p).
Proof.
  induction ops as [|o ops IH]; intros p; [reflexivity|].
  cbn [pk_ops list_ops]. pose proof (pk_op_sim o p) as [H1 H2].
  destruct (pk_op o p) as [r p']. destruct (list_op o (pk_view p)) as [r2 l2]. cbn in H1, H2.
  subst. rewrite IH. reflexivity.
Qed.
Lemma peekable_ops {A} (ops : list (pop A)) (l : list A) : pk_ops ops (peekable_new l) = list_ops ops l.
Proof. apply pk_ops_sim. Qed.

(* --- configuration --- *)
Lemma check_config_iff g :
  check_config g = Ok tt <->
  g_suites g <> [] /\ g_groups g <> [] /\ g_sigalgs g <> [] /\
  match g_side g with
  | Server => g_mfl g = 16384 /\ g_private g <> None /\
              ((exists c l, g_chain g = Some (c :: l)) \/ exists k, g_public g = Some k)
  | Client => g_hostnames g = []
  end.
Proof.
  unfold check_config, check_mandatory.
  destruct (g_suites g); cbn [is_nil rbind]; [split; [discriminate|intros [H _]; congruence]|].
  destruct (g_groups g); cbn [is_nil rbind]; [split; [discriminate|intros [_ [H _]]; congruence]|].
  destruct (g_sigalgs g); cbn [is_nil rbind]; [split; [discriminate|intros [_ [_ [H _]]]; congruence]|].
  destruct (g_side g).
  - unfold check_client. destruct (g_hostnames g); cbn; split; try discriminate; auto.
    + intros _. repeat split; congruence.
    + intros [_ [_ [_ H]]]. discriminate.
  - unfold check_server, has_chain.
    destruct (g_mfl g =? 16384) eqn:E; cbn [negb].
    2: { apply N.eqb_neq in E. split; [discriminate|]. intros [_ [_ [_ [H _]]]]. congruence. }
    apply N.eqb_eq in E.
    destruct (g_private g); cbn [opt_bool negb].
    2: { split; [discriminate|]. intros [_ [_ [_ [_ [H _]]]]]. congruence. }
    destruct (g_chain g) as [[|c ch]|]; destruct (g_public g) as [k|]; cbn [orb opt_bool negb];
      split; try discriminate; intros H; try reflexivity;
      try (repeat split; try congruence; eauto; fail);
      destruct H as [_ [_ [_ [_ [_ [[cc [ll H]]|[kk H]]]]]]]; discriminate.
Qed.
Lemma check_config_err g e : check_config g = Err e -> e = XValue.
Proof.
  unfold check_config, check_mandatory, check_server, check_client.
  destruct (is_nil (g_suites g)); cbn [rbind]; [congruence|].
  destruct (is_nil (g_groups g)); cbn [rbind]; [congruence|].
  destruct (is_nil (g_sigalgs g)); cbn [rbind]; [congruence|].
  destruct (g_side g).
  - destruct (negb _); congruence.
  - destruct (negb _); [congruence|]. destruct (negb _); [congruence|]. destruct (negb _); congruence.
Qed.

(* --- hexdump --- *)
Lemma unhex_pair x y : unhex_pairs (hexdigit (bN x / 16) :: hexdigit (bN x mod 16) :: y) =
  match unhex_pairs y with Some r => Some (x :: r) | None => None end.
Proof. destruct x; cbn; destruct (unhex_pairs y); reflexivity. Qed.
Lemma unhex_space y : unhex_pairs (x20 :: y) = unhex_pairs y.
Proof. reflexivity. Qed.
Lemma unhex_hexlify b y : 
  unhex_pairs (hexlify b ++ y) = match unhex_pairs y with Some r => Some (b ++ r) | None => None end.
Proof.
  revert y. induction b as [|x b IH]; intros y.
  - cbn. destruct (unhex_pairs y); reflexivity.
  - destruct b as [|x' b].
    + cbn [hexlify app]. apply unhex_pair.
    + change (hexlify (x :: x' :: b)) with (hexdigit (bN x / 16) :: hexdigit (bN x mod 16) :: x20 :: hexlify (x' :: b)).
      cbn [app]. rewrite unhex_pair, unhex_space, IH. destruct (unhex_pairs y); reflexivity.
Qed.
Lemma unhex_spaces n : unhex_pairs (repeat x20 n) = Some [].
Proof. induction n; [reflexivity|]. cbn [repeat]. rewrite unhex_space. assumption. Qed.

Lemma length_hexlify b : length (hexlify b) = (3 * length b - 1)%nat.
Proof.
  induction b as [|x b IH]; [reflexivity|]. destruct b as [|x' b]; [reflexivity|].
  change (hexlify (x :: x' :: b)) with (hexdigit (bN x / 16) :: hexdigit (bN x mod 16) :: x20 :: hexlify (x' :: b)).
  cbn [length] in *. lia.
Qed.

Lemma hex_columns_shape line : (length line <= 16)%nat ->
  exists k, hex_columns line = (hexlify (btake 8 line) ++ [x20; x20] ++ hexlify (bdrop 8 line)) ++ repeat x20 k
  /\ length (hex_columns line) = 50%nat.
Proof.
  intros H. unfold hex_columns.
  set (h := hexlify (btake 8 line) ++ [x20; x20] ++ hexlify (bdrop 8 line) ++ [x20; x20]).
  assert (length h <= 50)%nat as Hh.
  { unfold h. rewrite !app_length, !length_hexlify. cbn [length]. unfold btake, bdrop.
    change (N.to_nat 8) with 8%nat. rewrite firstn_length, skipn_length. lia. }
  exists (S (S (50 - length h)))%nat. split.
  - unfold h. rewrite <- !app_assoc. reflexivity.
  - rewrite app_length, repeat_length. lia.
Qed.

Lemma firstn_spaces a k n :
  (length a <= n)%nat -> (n <= length a + k)%nat ->
  firstn n (a ++ repeat x20 k) = a ++ repeat x20 (n - length a).
Proof.
  intros H1 H2. rewrite firstn_app. rewrite firstn_all2 by assumption. f_equal.
  assert (forall m j, (m <= j)%nat -> firstn m (repeat x20 j) = repeat x20 m) as HR.
  { induction m as [|m IHm]; intros j Hj; [reflexivity|]. destruct j; [lia|]. cbn. rewrite IHm by lia. reflexivity. }
  apply HR. lia.
Qed.

Lemma unhex_columns line tail : (length line <= 16)%nat ->
  unhex_pairs (btake 49 (x20 :: hex_columns line ++ tail)) = Some line.
Proof.
  intros H. destruct (hex_columns_shape line H) as [k [E L]].
  change (btake 49 (x20 :: hex_columns line ++ tail)) with (x20 :: firstn 48 (hex_columns line ++ tail)).
  rewrite unhex_space.
  rewrite firstn_app, L. change (48 - 50)%nat with 0%nat. rewrite firstn_O, app_nil_r.
  rewrite E in *. rewrite app_length, repeat_length in L.
  set (a := hexlify (btake 8 line) ++ [x20; x20] ++ hexlify (bdrop 8 line)) in *.
  assert (length a <= 48)%nat as La.
  { unfold a. rewrite !app_length, !length_hexlify. cbn [length]. unfold btake, bdrop.
    change (N.to_nat 8) with 8%nat. rewrite firstn_length, skipn_length. lia. }
  rewrite firstn_spaces by lia. unfold a. rewrite <- !app_assoc.
  rewrite unhex_hexlify. cbn [app]. rewrite !unhex_space, unhex_hexlify, unhex_spaces.
  rewrite app_nil_r, btake_bdrop. reflexivity.
Qed.

Lemma hexdigit_ok n : n < 16 -> unhex (hexdigit n) = Some n /\ Byte.eqb (hexdigit n) x3a = false
  /\ Byte.eqb (hexdigit n) x0a = false.
Proof.
  intros H. assert (In n [0;1;2;3;4;5;6;7;8;9;10;11;12;13;14;15]) as HI by (cbn; lia).
  cbn in HI. repeat (destruct HI as [HI|HI]; [subst n; vm_compute; auto|]). contradiction.
Qed.
Lemma hex_fixed_cut w n r : cut_colon (hex_fixed w n ++ x3a :: r) = (hex_fixed w n, r).
Proof.
  revert n r. induction w as [|w IH]; intros n r; [reflexivity|].
  cbn [hex_fixed]. rewrite <- app_assoc. cbn [app].
  assert (forall a c, Byte.eqb c x3a = false -> (forall r, cut_colon (a ++ x3a :: r) = (a, r)) ->
            forall z, cut_colon (a ++ c :: x3a :: z) = (a ++ [c], z)) as HC.
  { clear. induction a as [|x a IHa]; intros c Hc Ha z; cbn.
    - rewrite Hc. reflexivity.
    - specialize (Ha z) as Hz. cbn in Hz. destruct (Byte.eqb x x3a) eqn:Ex; [discriminate|].
      rewrite (IHa c Hc).
      + reflexivity.
      + intros r'. specialize (Ha r'). cbn in Ha. rewrite Ex in Ha.
        destruct (cut_colon (a ++ x3a :: r')) as [p q]. inversion Ha; subst. reflexivity. }
  apply HC; [|intros; apply IH].
  apply hexdigit_ok. apply N.mod_lt. lia.
Qed.
Lemma unhex_number_app a b acc : unhex_number acc (a ++ b) =
  match unhex_number acc a with Some v => unhex_number v b | None => None end.
Proof.
  revert acc; induction a as [|x a IH]; intros acc; cbn; [reflexivity|].
  destruct (unhex x); [apply IH|reflexivity].
Qed.
Lemma unhex_fixed w n acc : n < 16 ^ N.of_nat w ->
  unhex_number acc (hex_fixed w n) = Some (acc * 16 ^ N.of_nat w + n).
Proof.
  revert n acc. induction w as [|w IH]; intros n acc H.
  - cbn in *. f_equal. lia.
  - cbn [hex_fixed]. rewrite unhex_number_app.
    rewrite Nnat.Nat2N.inj_succ, N.pow_succ_r' in *.
    rewrite IH by (apply N.div_lt_upper_bound; lia). cbn [unhex_number].
    destruct (hexdigit_ok (n mod 16)) as [-> _]; [apply N.mod_lt; lia|].
    f_equal. pose proof (N.div_mod n 16). lia.
Qed.
Lemma size_pow16 n : n < 16 ^ hex_width n.
Proof.
  unfold hex_width. set (k := (N.size n + 3) / 4).
  assert (N.size n <= 4 * k) as Hk.
  { unfold k. pose proof (N.div_mod (N.size n + 3) 4 ltac:(lia)).
    pose proof (N.mod_lt (N.size n + 3) 4 ltac:(lia)). lia. }
  apply N.lt_le_trans with (2 ^ N.size n); [apply N.size_gt|].
  change 16 with (2 ^ 4). rewrite <- N.pow_mul_r. apply N.pow_le_mono_r; [lia|].
  assert (k <= N.max 1 k) by lia. nia.
Qed.
Lemma format_hex_number d i : unhex_number 0 (format_hex d i) = Some i.
Proof.
  unfold format_hex. rewrite unhex_fixed; [reflexivity|].
  rewrite Nnat.N2Nat.id. eapply N.lt_le_trans; [apply size_pow16|].
  apply N.pow_le_mono_r; [lia|]. lia.
Qed.

Lemma read_dump_line d i line : (length line <= 16)%nat -> read_line i (dump_line d i line) = Some line.
Proof.
  intros H. unfold read_line, dump_line. unfold format_hex at 1.
  cbn [app]. rewrite hex_fixed_cut. fold (format_hex d i). rewrite format_hex_number, N.eqb_refl.
  rewrite unhex_columns by assumption. reflexivity.
Qed.

(* no newline inside a line *)
Definition no_nl (b : bytes) : Prop := Forall (fun c => Byte.eqb c x0a = false) b.
Lemma no_nl_app a b : no_nl a -> no_nl b -> no_nl (a ++ b).
Proof. intros. apply Forall_app. split; assumption. Qed.
Lemma no_nl_repeat n : no_nl (repeat x20 n).
Proof. induction n; constructor; auto. Qed.
Lemma no_nl_hexlify b : no_nl (hexlify b).
Proof.
  induction b as [|x b IH]; [constructor|].
  assert (Byte.eqb (hexdigit (bN x / 16)) x0a = false /\ Byte.eqb (hexdigit (bN x mod 16)) x0a = false) as [H1 H2].
  { destruct x; vm_compute; auto. }
  destruct b as [|x' b].
  - repeat constructor; assumption.
  - change (hexlify (x :: x' :: b)) with (hexdigit (bN x / 16) :: hexdigit (bN x mod 16) :: x20 :: hexlify (x' :: b)).
    repeat (constructor; [assumption || reflexivity|]). exact IH.
Qed.
Lemma no_nl_fixed w n : no_nl (hex_fixed w n).
Proof.
  revert n; induction w as [|w IH]; intros n; [constructor|].
  cbn. apply no_nl_app; [apply IH|]. repeat constructor. apply hexdigit_ok. apply N.mod_lt. lia.
Qed.
Lemma no_nl_show b : no_nl (map show_byte b).
Proof.
  induction b as [|x b IH]; [constructor|]. constructor; [|exact IH].
  destruct x; reflexivity.
Qed.
Lemma no_nl_line d i line : no_nl (dump_line d i line).
Proof.
  unfold dump_line, hex_columns.
  repeat apply no_nl_app;
    try apply no_nl_fixed; try apply no_nl_hexlify; try apply no_nl_repeat; try apply no_nl_show;
    try (destruct (8 <? blen line)); repeat constructor.
Qed.

Lemma split_lines_none a : no_nl a -> split_lines a = [a].
Proof.
  induction 1 as [|c a Hc HF IH]; [reflexivity|]. cbn. rewrite Hc, IH. reflexivity.
Qed.
Lemma split_lines_cons a b : no_nl a -> split_lines (a ++ x0a :: b) = a :: split_lines b.
Proof.
  induction 1 as [|c a Hc HF IH]; [reflexivity|]. cbn [app split_lines]. rewrite Hc, IH. reflexivity.
Qed.

Lemma removelast_app_ne {A} (a b : list A) : b <> [] -> removelast (a ++ b) = a ++ removelast b.
Proof. intros. apply removelast_app. assumption. Qed.

Lemma dump_lines_ne fuel d i b : b <> [] -> (fuel <> 0)%nat -> dump_lines fuel d i b <> [].
Proof.
  intros Hb Hf. destruct fuel; [contradiction|]. destruct b; [contradiction|].
  cbn [dump_lines]. intros E. apply app_eq_nil in E as [_ E]. discriminate.
Qed.

Lemma read_dump_lines : forall fuel d i b, b <> [] -> (length b <= fuel)%nat ->
  read_lines i (split_lines (removelast (dump_lines fuel d i b))) = Some b.
Proof.
  induction fuel as [|fuel IH]; intros d i b Hb Hf.
  - destruct b; [contradiction|]. cbn in Hf. lia.
  - destruct b as [|x b]; [contradiction|]. set (b1 := x :: b) in *.
    assert (dump_lines (S fuel) d i b1 =
            dump_line d i (btake 16 b1) ++ [x0a] ++ dump_lines fuel d (i + 16) (bdrop 16 b1)) as -> by reflexivity.
    assert (length (btake 16 b1) <= 16)%nat as HL.
    { unfold btake. rewrite firstn_length. change (N.to_nat 16) with 16%nat. lia. }
    destruct (bdrop 16 b1) as [|y b2] eqn:E.
    + assert (dump_lines fuel d (i + 16) [] = []) as -> by (destruct fuel; reflexivity).
      rewrite app_nil_r, removelast_app_ne by discriminate. cbn [removelast].
      rewrite app_nil_r. rewrite split_lines_none by apply no_nl_line. cbn [read_lines].
      rewrite read_dump_line by assumption. f_equal.
      rewrite <- (btake_bdrop 16 b1) at 2. rewrite E, app_nil_r. reflexivity.
    + assert (length (y :: b2) <= fuel)%nat as HF.
      { rewrite <- E. unfold bdrop. rewrite skipn_length. change (N.to_nat 16) with 16%nat. lia. }
      assert (fuel <> 0)%nat as Hne by (cbn in HF; lia).
      rewrite app_assoc.
      rewrite removelast_app_ne by (apply dump_lines_ne; [discriminate|assumption]).
      rewrite <- app_assoc. cbn [app]. rewrite split_lines_cons by apply no_nl_line.
      specialize (IH d (i + 16) (y :: b2) ltac:(discriminate) HF).
      destruct (split_lines (removelast (dump_lines fuel d (i + 16) (y :: b2)))) as [|l ls] eqn:El; [discriminate|].
      cbn [read_lines] in *. rewrite read_dump_line by assumption. rewrite IH.
      assert (blen (btake 16 b1) = 16) as ->.
      { rewrite blen_btake. pose proof (blen_bdrop 16 b1) as HH. rewrite E, blen_cons in HH. lia. }
      cbn [N.eqb]. change (16 =? 16) with true. cbn iota. f_equal.
      rewrite <- (btake_bdrop 16 b1) at 2. rewrite E. reflexivity.
Qed.

Lemma undump_hexdump b : undump (hexdump b) = Some b.
Proof.
  unfold hexdump. destruct b as [|x b]; [reflexivity|]. cbn [is_nil].
  pose proof (read_dump_lines (length (x :: b)) (offset_digits (blen (x :: b))) 0 (x :: b)
               ltac:(discriminate) (le_n _)) as H.
  unfold undump. destruct (removelast _) as [|c r] eqn:E; [|exact H].
  exfalso. cbn in H. discriminate.
Qed.

Lemma line_text_dump d i line : (length line <= 16)%nat -> line_text (dump_line d i line) = map show_byte line.
Proof.
  intros H. unfold line_text, dump_line, format_hex.
  cbn [app]. rewrite hex_fixed_cut. cbn [snd].
  destruct (hex_columns_shape line H) as [k [_ L]].
  set (t := map show_byte (btake 8 line) ++ _).
  assert (bdrop 51 (x20 :: hex_columns line ++ t) = t) as ->.
  { change (skipn 50 (hex_columns line ++ t) = t).
    rewrite skipn_app, L. rewrite skipn_all2 by lia. reflexivity. }
  unfold t. destruct (8 <? blen line) eqn:E.
  - apply N.ltb_lt in E. unfold blen in E.
    assert (length (map show_byte (btake 8 line)) = 8)%nat as L8.
    { rewrite map_length. unfold btake. rewrite firstn_length. change (N.to_nat 8) with 8%nat. lia. }
    assert (forall u v : bytes, length u = 8%nat -> btake 8 (u ++ [x20] ++ v) ++ bdrop 9 (u ++ [x20] ++ v) = u ++ v) as S.
    { intros u v Lu. unfold btake, bdrop. change (N.to_nat 8) with 8%nat. change (N.to_nat 9) with 9%nat.
      rewrite firstn_app, skipn_app, Lu. rewrite firstn_all2 by lia. rewrite (skipn_all2 (n := 9)) by lia.
      cbn [Nat.sub firstn skipn app]. rewrite app_nil_r. reflexivity. }
    rewrite (S _ _ L8). rewrite <- map_app, btake_bdrop. reflexivity.
  - apply N.ltb_ge in E. unfold blen in E.
    assert (bdrop 8 line = []) as E8.
    { unfold bdrop. apply skipn_all2. lia. }
    rewrite E8. cbn [map app]. rewrite app_nil_r.
    assert (btake 8 line = line) as ->.
    { unfold btake. apply firstn_all2. lia. }
    unfold btake, bdrop. rewrite firstn_all2, skipn_all2 by (rewrite map_length; lia). apply app_nil_r.
Qed.

Lemma text_dump_lines : forall fuel d i b, b <> [] -> (length b <= fuel)%nat ->
  dump_text (removelast (dump_lines fuel d i b)) = map show_byte b.
Proof.
  induction fuel as [|fuel IH]; intros d i b Hb Hf.
  - destruct b; [contradiction|]. cbn in Hf. lia.
  - destruct b as [|x b]; [contradiction|]. set (b1 := x :: b) in *.
    assert (dump_lines (S fuel) d i b1 =
            dump_line d i (btake 16 b1) ++ [x0a] ++ dump_lines fuel d (i + 16) (bdrop 16 b1)) as -> by reflexivity.
    assert (length (btake 16 b1) <= 16)%nat as HL.
    { unfold btake. rewrite firstn_length. change (N.to_nat 16) with 16%nat. lia. }
    unfold dump_text in *. destruct (bdrop 16 b1) as [|y b2] eqn:E.
    + assert (dump_lines fuel d (i + 16) [] = []) as -> by (destruct fuel; reflexivity).
      rewrite app_nil_r, removelast_app_ne by discriminate. cbn [removelast].
      rewrite app_nil_r. rewrite split_lines_none by apply no_nl_line. cbn [map concat].
      rewrite line_text_dump by assumption. rewrite app_nil_r. f_equal.
      rewrite <- (btake_bdrop 16 b1) at 2. rewrite E, app_nil_r. reflexivity.
    + assert (length (y :: b2) <= fuel)%nat as HF.
      { rewrite <- E. unfold bdrop. rewrite skipn_length. change (N.to_nat 16) with 16%nat. lia. }
      assert (fuel <> 0)%nat as Hne by (cbn in HF; lia).
      rewrite app_assoc.
      rewrite removelast_app_ne by (apply dump_lines_ne; [discriminate|assumption]).
      rewrite <- app_assoc. cbn [app]. rewrite split_lines_cons by apply no_nl_line.
      cbn [map concat]. rewrite (IH d (i + 16) (y :: b2) ltac:(discriminate) HF).
      rewrite line_text_dump by assumption. rewrite <- map_app. f_equal.
      rewrite <- (btake_bdrop 16 b1) at 2. rewrite E. reflexivity.
Qed.

Lemma hexdump_text b : Forall2 shown b (dump_text (hexdump b)).
Proof.
  assert (dump_text (hexdump b) = map show_byte b) as ->.
  { unfold hexdump. destruct b as [|x b]; [reflexivity|]. cbn [is_nil].
    apply text_dump_lines; [discriminate|apply le_n]. }
  induction b as [|x b IH]; [constructor|]. constructor; [|exact IH].
  destruct x; reflexivity.
Qed.
