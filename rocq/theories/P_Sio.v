(* Proofs about the stream object. *)
From Coq Require Import ZArith Sorted Lia.
From Verif Require Import Base P_Base Serial S_Serial P_Serial Sio S_Sio.
Local Open Scope N_scope.

Lemma orderly_inside s : orderly s -> inside s.
Proof.
  intros [A B]. split; [exact A|]. destruct (s_limits s) as [|l r]; [trivial|].
  inversion B as [|? ? _ H]; subst. inversion H; subst. assumption.
Qed.
Lemma orderly_pos s p : orderly s -> p <= s_pos s -> orderly (with_pos s p).
Proof.
  intros [A B] L. split; [cbn; lia|]. cbn [with_pos s_pos s_limits].
  inversion B as [|? ? C H]; subst. constructor; [exact C|]. inversion H; subst; constructor. lia.
Qed.
Lemma orderly_adv s n : orderly s -> s_pos s + n <= blen (s_data s) ->
  match s_limits s with [] => True | lim :: _ => s_pos s + n <= lim end -> orderly (with_pos s (s_pos s + n)).
Proof.
  intros [A B] L M. split; [exact L|]. cbn [with_pos s_pos s_limits].
  inversion B as [|? ? C H]; subst. constructor; [exact C|]. destruct (s_limits s); constructor. exact M.
Qed.

(* --- reading keeps the data, the limits, the order ------------------------- *)
Lemma calm_ret {A} (x : A) : calm (sret x).
Proof. intros s r s1 O E. injection E; intros <- _. repeat split; try apply O. reflexivity. Qed.
Lemma calm_raise {A} e : calm (@sraise A e).
Proof. intros s r s1 O E. injection E; intros <- _. repeat split; try apply O. reflexivity. Qed.
Lemma calm_bind {A B} (m : SM A) (f : A -> SM B) : calm m -> (forall x, calm (f x)) -> calm (sbind m f).
Proof.
  intros M F s r s1 O E. unfold sbind in E. destruct (m s) as [[x|e] s0] eqn:X.
  - destruct (M _ _ _ O X) as (D & L & P & O'). destruct (F x _ _ _ O' E) as (D2 & L2 & P2 & O2).
    rewrite D2, L2. repeat split; try assumption; try apply O2. lia.
  - injection E; intros <- _. exact (M _ _ _ O X).
Qed.
Lemma calm_io_read n s r s1 : orderly s -> match s_limits s with [] => True | lim :: _ => (0 <= n)%Z /\ (n <= Z.of_N lim - Z.of_N (s_pos s))%Z end ->
  io_read n s = (r, s1) -> s_data s1 = s_data s /\ s_limits s1 = s_limits s /\ s_pos s <= s_pos s1 /\ orderly s1.
Proof.
  intros O L E. injection E; intros <- _. cbn [with_pos s_data s_limits s_pos].
  set (got := if Z.ltb n 0 then _ else _).
  assert (G : blen got <= blen (s_data s) - s_pos s).
  { subst got. destruct (Z.ltb n 0); rewrite ?blen_btake, ?blen_bdrop; lia. }
  repeat split; try lia; apply orderly_adv; try assumption; try (destruct O; lia).
  - destruct (s_limits s) as [|lim r0] eqn:X; [trivial|]. destruct L as [L1 L2].
    assert (Q : blen got <= Z.to_N n). { subst got. destruct (Z.ltb_spec n 0); [lia|]. rewrite blen_btake. lia. }
    lia.
  - destruct (s_limits s) as [|lim r0] eqn:X; [trivial|]. destruct L as [L1 L2].
    assert (Q : blen got <= Z.to_N n). { subst got. destruct (Z.ltb_spec n 0); [lia|]. rewrite blen_btake. lia. }
    lia.
Qed.
Lemma calm_read n : calm (sio_read n).
Proof.
  intros s r s1 O E. unfold sio_read in E. pose proof (orderly_inside _ O) as [_ I].
  destruct (s_limits s) as [|lim ls] eqn:X; destruct n as [n|].
  - rewrite <- X. revert E. apply calm_io_read; [exact O | rewrite X; trivial].
  - rewrite <- X. revert E. apply calm_io_read; [exact O | rewrite X; trivial].
  - destruct (Z.ltb_spec (Z.of_N lim - Z.of_N (s_pos s)) (Z.of_N n)).
    + injection E; intros <- _. repeat split; try apply O; [congruence | lia].
    + rewrite <- X. revert E. apply calm_io_read; [exact O | rewrite X; lia].
  - rewrite <- X. revert E. apply calm_io_read; [exact O | rewrite X; lia].
Qed.
Lemma calm_loop fuel : forall n d, calm (exactly_loop fuel n d).
Proof.
  induction fuel as [|fuel IH]; intros n d; cbn [exactly_loop]; destruct (blen d =? n); try apply calm_ret; [apply calm_raise|].
  apply calm_bind; [apply calm_read|]. intros [|y b]; [apply calm_raise | apply IH].
Qed.
Lemma calm_exactly n : calm (sio_exactly n).
Proof. apply calm_loop. Qed.
Lemma calm_int n : calm (sio_int n).
Proof. unfold sio_int. destruct (n =? 0); [apply calm_raise|]. apply calm_bind; [apply calm_exactly|]. intro; apply calm_ret. Qed.
Lemma calm_var n : calm (sio_var n).
Proof. apply calm_bind; [apply calm_int|]. intro; apply calm_exactly. Qed.
Lemma calm_listint a b : calm (sio_listint a b).
Proof.
  apply calm_bind; [apply calm_int|]. intro len. destruct (negb _); [apply calm_raise|].
  apply calm_bind; [apply calm_exactly|]. intro; apply calm_ret.
Qed.
Lemma calm_listvar a b : calm (sio_listvar a b).
Proof.
  apply calm_bind; [apply calm_var|]. intros d s r s1 O E. injection E; intros <- _. repeat split; try apply O. reflexivity.
Qed.
Lemma eof_same s : sio_eof s = (Ok (s_pos s =? blen (s_data s)), s).
Proof. destruct s. reflexivity. Qed.
Lemma calm_eof : calm sio_eof.
Proof. intros s r s1 O E. rewrite eof_same in E. injection E; intros <- _. repeat split; try apply O. reflexivity. Qed.
Lemma assert_eof_same s : sio_assert_eof s = (if s_pos s =? blen (s_data s) then Ok tt else Err XTooMuch, s).
Proof.
  destruct s as [d p l]. unfold sio_assert_eof, sbind, io_tell, io_seek_end. cbn [s_pos s_data with_pos].
  destruct (Z.eqb_spec (Z.of_N (blen d) - Z.of_N p) 0); destruct (N.eqb_spec p (blen d)); try lia; [|reflexivity].
  unfold with_pos. cbn. subst p. reflexivity.
Qed.
Lemma calm_assert_eof : calm sio_assert_eof.
Proof. intros s r s1 O E. rewrite assert_eof_same in E. injection E; intros <- _. repeat split; try apply O. reflexivity. Qed.
Lemma calm_quiet {A} (m : SM A) : calm m -> calm (quiet m).
Proof. intro M. apply calm_bind; [exact M|]. intro; apply calm_ret. Qed.
Lemma calm_call m : writes m = false -> calm (call m).
Proof.
  destruct m; cbn [writes call]; try discriminate; intros _; try apply calm_quiet;
    [apply calm_read | apply calm_exactly | apply calm_int | apply calm_var | apply calm_listint | apply calm_listvar
    | apply calm_eof | apply calm_assert_eof].
Qed.

(* code that only reads: the limits may grow by the blocks left by an exception *)
Lemma sorted_tail a l : Sorted N.le (a :: l) -> Sorted N.le l.
Proof. intro H. inversion H; assumption. Qed.
Lemma sorted_skip a b l : Sorted N.le (a :: b :: l) -> Sorted N.le (a :: l).
Proof.
  intro H. inversion H as [|? ? S A]; subst. inversion A; subst. inversion S as [|? ? S' B]; subst.
  constructor; [exact S'|]. inversion B; subst; constructor. lia.
Qed.
Lemma exec_reading p : forall s r s1, reading p = true -> orderly s -> exec p s = (r, s1) ->
  s_data s1 = s_data s /\ s_pos s <= s_pos s1 /\ orderly s1.
Proof.
  induction p as [|m|a IHa b IHb|a IHa|n a IHa|a IHa]; intros s r s1 R O E; cbn [reading exec] in R, E.
  - injection E; intros <- _. repeat split; try apply O. lia.
  - apply negb_true_iff in R. destruct (calm_call m R _ _ _ O E) as (D & _ & P & O'). repeat split; try assumption; apply O'.
  - apply andb_true_iff in R as [Ra Rb]. unfold sbind in E. destruct (exec a s) as [[x|e] s0] eqn:X.
    + destruct (IHa _ _ _ Ra O X) as (D & P & O'). destruct (IHb _ _ _ Rb O' E) as (D2 & P2 & O2).
      rewrite D2. repeat split; try assumption; try apply O2. lia.
    + injection E; intros <- _. exact (IHa _ _ _ Ra O X).
  - unfold sio_look in E. destruct (exec a s) as [r0 s0] eqn:X. injection E; intros <- _.
    destruct (IHa _ _ _ R O X) as (D & P & O'). cbn [with_pos s_data s_pos]. repeat split; [exact D | lia | | ];
      apply orderly_pos; assumption.
  - unfold sio_limit in E. destruct (match s_limits s with [] => false | lim :: _ => lim <? s_pos s + n end) eqn:T.
    { injection E; intros <- _. repeat split; try apply O. lia. }
    assert (O1 : orderly (mkStream (s_data s) (s_pos s) (s_pos s + n :: s_limits s))).
    { destruct O as [O1 O2]. split; [exact O1|]. cbn [s_pos s_limits]. constructor; [|constructor; lia].
      constructor; [exact (sorted_tail _ _ O2)|]. destruct (s_limits s) as [|lim ls]; constructor. apply N.ltb_ge in T. exact T. }
    destruct (exec a _) as [[x|e] s0] eqn:X.
    + destruct (IHa _ _ _ R O1 X) as (D & P & O'). cbn [s_data s_pos] in D, P.
      destruct (s_limits s0) as [|l rest] eqn:Y; [injection E; intros <- _; repeat split; try assumption; apply O'|].
      assert (O2 : orderly (mkStream (s_data s0) (s_pos s0) rest)).
      { destruct O' as [Q1 Q2]. split; [exact Q1|]. cbn [s_pos s_limits]. rewrite Y in Q2. exact (sorted_skip _ _ _ Q2). }
      destruct (negb _); [|destruct (Z.eqb _ _)]; injection E; intros <- _; repeat split; try assumption; apply O2.
    + injection E; intros <- _. exact (IHa _ _ _ R O1 X).
  - injection E; intros <- _. destruct (exec a s) as [r0 s0] eqn:X. exact (IHa _ _ _ R O X).
Qed.
Lemma look_back p s : s_pos (snd (exec (CLook p) s)) = s_pos s.
Proof. cbn [exec]. unfold sio_look. destruct (exec p s). reflexivity. Qed.

(* --- limits -------------------------------------------------------------------- *)
Definition keeps_limits {A} (m : SM A) : Prop := forall s, s_limits (snd (m s)) = s_limits s.
Lemma kl_ret {A} (x : A) : keeps_limits (sret x). Proof. intro; reflexivity. Qed.
Lemma kl_raise {A} e : keeps_limits (@sraise A e). Proof. intro; reflexivity. Qed.
Lemma kl_bind {A B} (m : SM A) (f : A -> SM B) : keeps_limits m -> (forall x, keeps_limits (f x)) -> keeps_limits (sbind m f).
Proof. intros M F s. unfold sbind. specialize (M s). destruct (m s) as [[x|e] s0]; cbn [snd] in *; [rewrite F|]; exact M. Qed.
Lemma kl_read n : keeps_limits (sio_read n).
Proof. intro s. unfold sio_read. destruct (s_limits s) as [|l r] eqn:X, n; try exact X. destruct (Z.ltb _ _); exact X. Qed.
Lemma kl_loop fuel : forall n d, keeps_limits (exactly_loop fuel n d).
Proof.
  induction fuel as [|fuel IH]; intros n d; cbn [exactly_loop]; destruct (blen d =? n); try apply kl_ret; [apply kl_raise|].
  apply kl_bind; [apply kl_read|]. intros [|y b]; [apply kl_raise | apply IH].
Qed.
Lemma kl_int n : keeps_limits (sio_int n).
Proof. unfold sio_int. destruct (n =? 0); [apply kl_raise|]. apply kl_bind; [apply kl_loop|]. intro; apply kl_ret. Qed.
Lemma kl_var n : keeps_limits (sio_var n).
Proof. apply kl_bind; [apply kl_int|]. intro; apply kl_loop. Qed.
Lemma kl_write b : keeps_limits (io_write b). Proof. intro s. destruct b; reflexivity. Qed.
Lemma kl_write_int n i : keeps_limits (sio_write_int n i).
Proof. intro s. unfold sio_write_int. destruct (to_bytes n i); [apply kl_write | reflexivity]. Qed.
Lemma kl_write_var n b : keeps_limits (sio_write_var n b).
Proof. apply kl_bind; [apply kl_write_int|]. intro; apply kl_write. Qed.
Lemma kl_each {A} (m : A -> SM unit) l : (forall x, keeps_limits (m x)) -> keeps_limits (each m l).
Proof. intro M. induction l as [|x l IH]; cbn [each]; [apply kl_ret|]. apply kl_bind; [apply M|]. intro; exact IH. Qed.
Lemma kl_call m : keeps_limits (call m).
Proof.
  assert (Q : forall A (m : SM A), keeps_limits m -> keeps_limits (quiet m)) by (intros A x M; apply kl_bind; [exact M|]; intro; apply kl_ret).
  destruct m; cbn [call]; try apply Q.
  - apply kl_read.
  - apply kl_loop.
  - apply kl_int.
  - apply kl_var.
  - apply kl_bind; [apply kl_int|]. intro len. destruct (negb _); [apply kl_raise|]. apply kl_bind; [apply kl_loop|]. intro; apply kl_ret.
  - apply kl_bind; [apply kl_var|]. intros d s. reflexivity.
  - intro s. rewrite eof_same. reflexivity.
  - intro s. rewrite assert_eof_same. reflexivity.
  - apply kl_write.
  - apply kl_write_int.
  - apply kl_write_var.
  - apply kl_bind; [apply kl_write_int|]. intro. apply kl_each. apply kl_write_int.
  - unfold sio_write_listvar. apply kl_bind; [intro; reflexivity|]. intro pre. apply kl_bind; [apply kl_write_int|]. intros _.
    apply kl_bind; [apply kl_each, kl_write_var|]. intros _. apply kl_bind; [intro; reflexivity|]. intro post.
    apply kl_bind; [intro; reflexivity|]. intros _. apply kl_bind; [apply kl_write_int|]. intros _. intro; reflexivity.
Qed.
(* at most some limits are added on top *)
Lemma exec_suffix p : forall s, exists pre, s_limits (snd (exec p s)) = pre ++ s_limits s.
Proof.
  induction p as [|m|a IHa b IHb|a IHa|n a IHa|a IHa]; intro s; cbn [exec].
  - exists []. reflexivity.
  - exists []. apply kl_call.
  - unfold sbind. destruct (IHa s) as (p1 & E1). destruct (exec a s) as [[x|e] s0]; cbn [snd] in *; [|exists p1; exact E1].
    destruct (IHb s0) as (p2 & E2). exists (p2 ++ p1). rewrite E2, E1, app_assoc. reflexivity.
  - unfold sio_look. destruct (IHa s) as (p1 & E1). destruct (exec a s) as [r s0]. exists p1. exact E1.
  - unfold sio_limit. destruct (match s_limits s with [] => false | lim :: _ => lim <? s_pos s + n end); [exists []; reflexivity|].
    destruct (IHa (mkStream (s_data s) (s_pos s) (s_pos s + n :: s_limits s))) as (p1 & E1). cbn [s_limits] in E1.
    destruct (exec a _) as [[x|e] s0]; cbn [snd] in E1.
    + destruct (s_limits s0) as [|l rest]; [destruct p1; discriminate|].
      assert (P : exists pre, rest = pre ++ s_limits s).
      { destruct p1 as [|q p1]; injection E1; intros -> _; [exists []; reflexivity | exists (p1 ++ [s_pos s + n]); rewrite <- app_assoc; reflexivity]. }
      destruct (negb _); [|destruct (Z.eqb _ _)]; exact P.
    + exists (p1 ++ [s_pos s + n]). cbn [snd]. rewrite <- app_assoc. exact E1.
  - destruct (IHa s) as (p1 & E1). exists p1. exact E1.
Qed.
(* none, when no exception was caught *)
Lemma exec_limits p : forall s s1, uncaught p = true -> exec p s = (Ok tt, s1) -> s_limits s1 = s_limits s.
Proof.
  induction p as [|m|a IHa b IHb|a IHa|n a IHa|a IHa]; intros s s1 U E; cbn [uncaught exec] in U, E.
  - injection E; intros <-. reflexivity.
  - pose proof (kl_call m s) as K. rewrite E in K. exact K.
  - apply andb_true_iff in U as [Ua Ub]. unfold sbind in E. destruct (exec a s) as [[[]|e] s0] eqn:X; [|discriminate].
    rewrite (IHb _ _ Ub E). exact (IHa _ _ Ua X).
  - unfold sio_look in E. destruct (exec a s) as [r s0] eqn:X. injection E; intros <- ->. exact (IHa _ _ U X).
  - unfold sio_limit in E. destruct (match s_limits s with [] => false | lim :: _ => lim <? s_pos s + n end); [discriminate|].
    destruct (exec a _) as [[[]|e] s0] eqn:X; [|discriminate]. apply (IHa _ _ U) in X. cbn [s_limits] in X. rewrite X, N.eqb_refl in E. cbn [negb] in E.
    destruct (Z.eqb _ _); [|discriminate]. injection E; intros <-. reflexivity.
  - discriminate.
Qed.
(* a block of limit that completes ends at its limit *)
Lemma exec_limit_end n p s s1 : exec (CLimit n p) s = (Ok tt, s1) -> s_pos s1 = s_pos s + n.
Proof.
  cbn [exec]. unfold sio_limit. intro E. destruct (match s_limits s with [] => false | lim :: _ => lim <? s_pos s + n end); [discriminate|].
  destruct (exec p _) as [[[]|e] s0]; [|discriminate]. destruct (s_limits s0) as [|l r]; [discriminate|]. destruct (negb _); [discriminate|].
  destruct (Z.eqb_spec (Z.of_N (s_pos s + n) - Z.of_N (s_pos s0)) 0); [|discriminate]. injection E; intros <-. cbn [s_pos]. lia.
Qed.

(* --- the functions of Serial.v --------------------------------------------------- *)
Lemma agrees_ret {A} (x : A) : agrees (sret x) (fun s => Ok (x, s)).
Proof. intros s O. reflexivity. Qed.
Lemma agrees_raise {A} e : agrees (@sraise A e) (fun s => Err e).
Proof. intros s O. reflexivity. Qed.
Lemma agrees_bind {A B} (m : SM A) p (f : A -> SM B) (q : A -> stream -> res (B * stream)) : calm m -> agrees m p -> (forall x, agrees (f x) (q x)) ->
  agrees (sbind m f) (fun s => let* (x, s1) := p s in q x s1).
Proof.
  intros K M F s O. specialize (M s O). unfold sbind. destruct (p s) as [[x s1]|e]; cbn [rbind].
  - rewrite M. destruct (K _ _ _ O M) as (_ & _ & _ & O'). exact (F x s1 O').
  - destruct (m s) as [r s0]. cbn [fst] in M. rewrite M. reflexivity.
Qed.
Lemma agrees_read n : agrees (sio_read (Some n)) (read_n n).
Proof.
  intros s O. destruct (orderly_inside _ O) as [_ I]. unfold sio_read, read_n.
  assert (R : io_read (Z.of_N n) s = (Ok (fst (raw_read n s)), snd (raw_read n s))).
  { unfold io_read, raw_read. destruct (Z.ltb_spec (Z.of_N n) 0); [lia|]. rewrite N2Z.id. reflexivity. }
  destruct (s_limits s) as [|lim ls]; [exact R|].
  destruct (Z.ltb_spec (Z.of_N lim - Z.of_N (s_pos s)) (Z.of_N n)); destruct (N.ltb_spec (lim - s_pos s) n); try lia; [reflexivity | exact R].
Qed.
Lemma agrees_read_all : agrees (sio_read None) (fun s => Ok (read_all s)).
Proof.
  intros s O. destruct (orderly_inside _ O) as [P I]. unfold sio_read, read_all.
  assert (R : forall n, io_read (Z.of_N n) s = (Ok (fst (raw_read n s)), snd (raw_read n s))).
  { intro n. unfold io_read, raw_read. destruct (Z.ltb_spec (Z.of_N n) 0); [lia|]. rewrite N2Z.id. reflexivity. }
  destruct (s_limits s) as [|lim ls].
  - unfold raw_read, io_read. cbn [Z.ltb Z.compare]. rewrite (btake_all (blen (s_data s))) by (rewrite blen_bdrop; lia). reflexivity.
  - rewrite <- N2Z.inj_sub by exact I. rewrite R. destruct (raw_read _ s). reflexivity.
Qed.
Lemma short_read n s b s1 : orderly s -> read_n n s = Ok (b, s1) -> blen b <> n -> blen b < n /\ forall k, read_n k s1 = Err XTooMuch \/ read_n k s1 = Ok ([], s1).
Proof.
  intros O E L.
  assert (R : raw_read n s = (b, s1)) by (unfold read_n in E; destruct (s_limits s) as [|lim ?]; [congruence|]; destruct (_ <? _); congruence).
  unfold raw_read in R. injection R; intros <- B. assert (N0 : blen b = N.min n (blen (s_data s) - s_pos s)) by (rewrite <- B, blen_btake, blen_bdrop; reflexivity).
  split; [lia|]. intro k. unfold read_n. rewrite B.
  assert (Q : raw_read k (with_pos s (s_pos s + blen b)) = ([], with_pos s (s_pos s + blen b))).
  { unfold raw_read. cbn [with_pos s_pos s_data]. rewrite (bdrop_all (s_pos s + blen b)) by (destruct O; lia). unfold btake. rewrite firstn_nil, blen_nil, N.add_0_r. reflexivity. }
  rewrite Q. destruct (s_limits _); [auto|]. destruct (_ <? _); auto.
Qed.
Lemma agrees_exactly n : agrees (sio_exactly n) (read_exactly n).
Proof.
  intros s O. unfold sio_exactly, read_exactly. cbn [exactly_loop]. rewrite blen_nil, N.sub_0_r.
  destruct (N.eqb_spec n 0) as [->|N0]; [cbn [N.eqb]; reflexivity|].
  destruct (N.eqb_spec 0 n); [lia|]. pose proof (agrees_read n s O) as A. pose proof (calm_read (Some n)) as K. unfold sbind.
  destruct (read_n n s) as [[got s1]|e] eqn:R; cbn [rbind].
  2:{ destruct (sio_read (Some n) s) as [r s0]. cbn [fst] in A. rewrite A. reflexivity. }
  rewrite A. destruct (K _ _ _ O A) as (_ & _ & _ & O1). destruct (N.eqb_spec (blen got) n) as [G|G].
  - destruct got as [|g got]; [rewrite blen_nil in G; lia|]. cbn [app]. destruct (N.to_nat n); cbn [exactly_loop]; rewrite (proj2 (N.eqb_eq _ _) G); reflexivity.
  - destruct (short_read _ _ _ _ O R G) as (Lt & Q). destruct got as [|g got]; [reflexivity|]. cbn [app].
    assert (exists f, N.to_nat n = S f) as (f & ->) by (exists (Nat.pred (N.to_nat n)); lia). cbn [exactly_loop].
    rewrite (proj2 (N.eqb_neq _ _) G). unfold sbind. pose proof (agrees_read (n - blen (g :: got)) s1 O1) as A2.
    destruct (Q (n - blen (g :: got))) as [Z|Z]; rewrite Z in A2; rewrite Z; cbn [rbind].
    + destruct (sio_read _ s1) as [r s0]. cbn [fst] in A2. rewrite A2. reflexivity.
    + rewrite A2. reflexivity.
Qed.
Lemma agrees_ext {A} (m : SM A) p q : (forall s, p s = q s) -> agrees m p -> agrees m q.
Proof. intros E M s O. rewrite <- E. exact (M s O). Qed.
Lemma agrees_int n : agrees (sio_int n) (read_int n).
Proof.
  unfold sio_int, read_int. destruct (n =? 0) eqn:E; [intros s O; reflexivity|].
  apply (agrees_bind _ (read_exactly n) _ (fun b s => Ok (of_bytes b, s))); [apply calm_exactly | apply agrees_exactly | intro; apply agrees_ret].
Qed.
Lemma agrees_var n : agrees (sio_var n) (read_var n).
Proof. apply (agrees_bind _ (read_int n) _ (fun len s => read_exactly len s)); [apply calm_int | apply agrees_int | intro; apply agrees_exactly]. Qed.
Lemma agrees_listint a b : agrees (sio_listint a b) (read_listint a b).
Proof.
  apply (agrees_bind _ (read_int a) _ (fun len s => if negb (len mod b =? 0) then Err XBuf else let* (d, s2) := read_exactly len s in Ok (groups (N.to_nat (len / b)) b d, s2)));
    [apply calm_int | apply agrees_int|]. intro len. destruct (negb _); [apply agrees_raise|].
  apply (agrees_bind _ (read_exactly len) _ (fun d s => Ok (groups (N.to_nat (len / b)) b d, s))); [apply calm_exactly | apply agrees_exactly | intro; apply agrees_ret].
Qed.
Lemma eof_loop_until {A} (m : SM A) p fuel : calm m -> agrees m p -> forall acc s, orderly s ->
  fst (eof_loop fuel m acc s) = (let* l := until_eof fuel p s in Ok (acc ++ l)).
Proof.
  intros K M. induction fuel as [|fuel IH]; intros acc s O; cbn [eof_loop until_eof]; unfold sbind at 1; rewrite eof_same; fold (is_eof s); unfold is_eof;
    destruct (s_pos s =? blen (s_data s)); try (cbn [fst sret rbind]; rewrite app_nil_r; reflexivity); [reflexivity|].
  unfold sbind. specialize (M s O). destruct (p s) as [[x s1]|e]; cbn [rbind].
  - rewrite M. destruct (K _ _ _ O M) as (_ & _ & _ & O1). rewrite (IH _ _ O1). destruct (until_eof fuel p s1); cbn [rbind]; [|reflexivity].
    rewrite <- app_assoc. reflexivity.
  - destruct (m s) as [r s0]. cbn [fst] in M. rewrite M. reflexivity.
Qed.
Lemma orderly_new b : orderly (stream_of b).
Proof. split; [cbn; lia | repeat constructor]. Qed.
Lemma agrees_listvar a b : agrees (sio_listvar a b) (read_listvar a b).
Proof.
  apply (agrees_bind _ (read_var a) _ (fun d s => let* l := parse_list (read_var b) d in Ok (l, s))); [apply calm_var | apply agrees_var|].
  intros d s O. pose proof (eof_loop_until (sio_var b) (read_var b) (length d) (calm_var b) (agrees_var b) [] _ (orderly_new d)) as E. rewrite E.
  unfold parse_list. destruct (until_eof _ _ _); reflexivity.
Qed.
Lemma agrees_limit {A} n (body : N -> SM A) p : (forall l, calm (body l)) -> (forall l, agrees (body l) (p l)) -> agrees (sio_limit n body) (with_limit n p).
Proof.
  intros K M s O. unfold sio_limit, with_limit. destruct (match s_limits s with [] => false | lim :: _ => lim <? s_pos s + n end) eqn:T; [reflexivity|].
  assert (O1 : orderly (mkStream (s_data s) (s_pos s) (s_pos s + n :: s_limits s))).
  { destruct O as [O1 O2]. split; [exact O1|]. cbn [s_pos s_limits]. constructor; [|constructor; lia].
    constructor; [exact (sorted_tail _ _ O2)|]. destruct (s_limits s) as [|lim ls]; constructor. apply N.ltb_ge in T. exact T. }
  specialize (M (s_pos s + n) _ O1). destruct (p _ _) as [[x s1]|e]; cbn [rbind].
  - rewrite M. destruct (K _ _ _ _ O1 M) as (_ & L & _ & _). cbn [s_limits] in L. rewrite L. destruct (negb _); [reflexivity|].
    destruct (Z.eqb_spec (Z.of_N (s_pos s + n) - Z.of_N (s_pos s1)) 0); destruct (N.eqb_spec (s_pos s + n) (s_pos s1)); try lia; reflexivity.
  - destruct (body _ _) as [r s0]. cbn [fst] in M. rewrite M. reflexivity.
Qed.
Lemma agrees_assert_eof : agrees sio_assert_eof (fun s => let* _ := assert_eof s in Ok (tt, s)).
Proof. intros s O. rewrite assert_eof_same. unfold assert_eof. destruct (s_pos s =? blen (s_data s)); reflexivity. Qed.

(* --- writing ------------------------------------------------------------------- *)
Lemma over_nil s : over s [] = s.
Proof. destruct s as [d p l]. unfold over. cbn [s_pos s_data s_limits]. rewrite blen_nil, N.add_0_r. cbn [app]. rewrite btake_bdrop. reflexivity. Qed.
Lemma over_fits s b : s_pos s <= blen (s_data s) -> s_pos (over s b) <= blen (s_data (over s b)).
Proof. intro H. unfold over. cbn [s_pos s_data]. rewrite !blen_app, blen_btake, blen_bdrop. lia. Qed.
Lemma blen_take_pos s : s_pos s <= blen (s_data s) -> blen (btake (s_pos s) (s_data s)) = s_pos s.
Proof. intro H. rewrite blen_btake. lia. Qed.
Lemma over_over s a b : s_pos s <= blen (s_data s) -> over (over s a) b = over s (a ++ b).
Proof.
  intro H. pose proof (blen_take_pos s H) as L. destruct s as [d p l]. unfold over. cbn [s_pos s_data s_limits] in *. rewrite blen_app, N.add_assoc. f_equal.
  rewrite (app_assoc (btake p d) a). rewrite btake_app_exact' by (rewrite blen_app; lia). rewrite <- !app_assoc. do 3 f_equal.
  rewrite app_assoc, bdrop_app_ge by (rewrite blen_app; lia). rewrite bdrop_bdrop. f_equal. rewrite blen_app. lia.
Qed.
Lemma io_write_over b s : s_pos s <= blen (s_data s) -> io_write b s = (Ok tt, over s b).
Proof.
  intro H. destruct b as [|x b]; [cbn [io_write]; rewrite over_nil; reflexivity|]. unfold io_write, over. replace (s_pos s - blen (s_data s)) with 0 by lia.
  cbn [zeros N.to_nat repeat]. change (zeros 0) with (@nil Byte.byte). rewrite app_nil_r. reflexivity.
Qed.
Lemma puts_int n i : puts (sio_write_int n i) (write_int n i).
Proof. intros s H. unfold sio_write_int, write_int. destruct (to_bytes n i) as [b|e]; [exact (io_write_over b s H) | reflexivity]. Qed.
Lemma puts_bind m (r : res bytes) m2 (r2 : res bytes) : puts m r -> puts m2 r2 ->
  puts (sbind m (fun _ => m2)) (let* a := r in let* b := r2 in Ok (a ++ b)).
Proof.
  intros M M2 s H. specialize (M s H). unfold sbind. destruct r as [a|e]; cbn [rbind].
  - rewrite M. specialize (M2 _ (over_fits s a H)). destruct r2 as [b|e]; cbn [rbind]; [|exact M2]. rewrite M2, over_over by exact H. reflexivity.
  - destruct (m s) as [x s0]. cbn [fst] in M. rewrite M. reflexivity.
Qed.
Lemma puts_var n b : puts (sio_write_var n b) (write_var n b).
Proof. exact (puts_bind _ (to_bytes n (blen b)) _ (Ok b) (puts_int n (blen b)) (io_write_over b)). Qed.
Lemma puts_each {A} (m : A -> SM unit) f l : (forall x, puts (m x) (f x)) -> puts (each m l) (join_map f l).
Proof.
  intro M. induction l as [|x l IH]; cbn [each join_map]; [intros s H; rewrite over_nil; reflexivity|]. exact (puts_bind _ (f x) _ _ (M x) IH).
Qed.
Lemma puts_listint a b l : puts (sio_write_listint a b l) (write_listint a b l).
Proof. exact (puts_bind _ (to_bytes a _) _ _ (puts_int a _) (puts_each _ _ l (puts_int b))). Qed.
Lemma over_again s ph b l : s_pos s <= blen (s_data s) -> blen l = blen ph ->
  with_pos (over (with_pos (over s (ph ++ b)) (s_pos s)) l) (s_pos s + blen (ph ++ b)) = over s (l ++ b).
Proof.
  intros H E. pose proof (blen_take_pos s H) as L. destruct s as [d p lm]. unfold over, with_pos. cbn [s_pos s_data s_limits] in *. rewrite !blen_app, E. f_equal.
  set (tail := bdrop (p + (blen ph + blen b)) d).
  assert (B : bdrop (p + blen ph) (btake p d ++ (ph ++ b) ++ tail) = b ++ tail) by (rewrite <- (app_assoc ph b), app_assoc; apply bdrop_app_exact'; rewrite blen_app; lia).
  rewrite B. rewrite (btake_app_exact' p) by lia. rewrite <- app_assoc. reflexivity.
Qed.
Lemma join_overflow {A} (f : A -> res bytes) l e : (forall x e, f x = Err e -> e = XOverflow) -> join_map f l = Err e -> e = XOverflow.
Proof.
  intro F. induction l as [|x l IH]; cbn [join_map]; [discriminate|]. destruct (f x) eqn:X; cbn [rbind]; [|intro Q; injection Q; intros <-; exact (F _ _ X)].
  destruct (join_map f l); cbn [rbind]; [discriminate|]. exact IH.
Qed.
Lemma puts_listvar a b l : puts (sio_write_listvar a b l) (write_listvar a b l).
Proof.
  intros s H. unfold sio_write_listvar, write_listvar, io_tell, io_seek.
  assert (Z : to_bytes a 0 = Ok (be_bytes a 0)) by (apply to_bytes_lt; apply N.neq_0_lt_0; apply N.pow_nonzero; discriminate).
  pose proof (puts_int a 0 s H) as P1. unfold write_int in P1. rewrite Z in P1. unfold sbind. rewrite P1.
  pose proof (puts_each (sio_write_var b) (write_var b) l (puts_var b) _ (over_fits s (be_bytes a 0) H)) as P2. unfold write_var in P2.
  destruct (join_map (put_var b) l) as [d|e] eqn:J; cbn [rbind].
  - rewrite P2. rewrite over_over by exact H. set (s2 := over s (be_bytes a 0 ++ d)).
    assert (P : s_pos s2 = s_pos s + N.of_nat a + blen d) by (unfold s2, over; cbn [s_pos]; rewrite blen_app, blen_be_bytes; lia).
    rewrite P. replace (s_pos s + N.of_nat a + blen d - s_pos s - N.of_nat a) with (blen d) by lia.
    assert (F : s_pos (with_pos s2 (s_pos s)) <= blen (s_data (with_pos s2 (s_pos s)))).
    { pose proof (over_fits s (be_bytes a 0 ++ d) H) as Q. fold s2 in Q. cbn [with_pos s_pos s_data]. lia. }
    pose proof (puts_int a (blen d) _ F) as P3. unfold write_int in P3. destruct (to_bytes a (blen d)) as [lb|e] eqn:T; cbn [rbind].
    + rewrite P3. apply to_bytes_ok in T as [-> [_ _]]. unfold s2. replace (s_pos s + N.of_nat a + blen d) with (s_pos s + blen (be_bytes a 0 ++ d)) by (rewrite blen_app, blen_be_bytes; lia).
      rewrite (over_again s (be_bytes a 0) d (be_bytes a (blen d)) H) by (rewrite !blen_be_bytes; reflexivity). reflexivity.
    + destruct (sio_write_int a (blen d) _) as [r s3]. cbn [fst] in P3. rewrite P3. reflexivity.
  - destruct (each _ _ _) as [r s0]. cbn [fst] in P2. rewrite P2. reflexivity.
Qed.

(* --- writing, then reading --------------------------------------------------------- *)
Definition encoding (v : value) : res bytes :=
  match v with VInt n i => write_int n i | VVar n b => write_var n b
  | VListInt a b l => write_listint a b l | VListVar a b l => write_listvar a b l end.
Lemma puts_value v : puts (put v) (encoding v).
Proof. destruct v; [apply puts_int | apply puts_var | apply puts_listint | apply puts_listvar]. Qed.
Lemma take_reads v b s post : value_sizes v -> encoding v = Ok b -> orderly s -> rest s = b ++ post -> room s (blen b) ->
  take v s = (Ok v, adv s (blen b)).
Proof.
  intros W E O R Q. destruct v as [n i|n d|a c l|a c l]; cbn [value_sizes encoding take] in *; unfold sbind.
  - apply to_bytes_ok in E as [-> [V _]]. pose proof (agrees_int (N.of_nat n) s O) as A. rewrite (reads_int n i W V s post R Q) in A. rewrite A. reflexivity.
  - apply put_var_ok in E as [-> V]. pose proof (agrees_var (N.of_nat n) s O) as A. rewrite (reads_var n d W V s post R Q) in A. rewrite A. reflexivity.
  - pose proof (agrees_listint (N.of_nat a) (N.of_nat c) s O) as A. rewrite (reads_listint a c l b (proj1 W) (proj2 W) E s post R Q) in A. rewrite A. reflexivity.
  - pose proof (agrees_listvar (N.of_nat a) (N.of_nat c) s O) as A. rewrite (reads_listvar a c l b (proj1 W) (proj2 W) E s post R Q) in A. rewrite A. reflexivity.
Qed.
Lemma take_all_reads vs : forall b s post, Forall value_sizes vs -> join_map encoding vs = Ok b -> orderly s -> s_limits s = [] -> rest s = b ++ post ->
  take_all vs s = (Ok vs, adv s (blen b)).
Proof.
  induction vs as [|v vs IH]; intros b s post W E O L R; cbn [take_all join_map] in *.
  - injection E; intros <-. rewrite blen_nil, adv_0. reflexivity.
  - inversion W as [|? ? Wv Ws]; subst. apply rbind_ok in E as [b1 [E1 E]]. apply rbind_ok in E as [b2 [E2 E]]. injection E; intros <-.
    rewrite <- app_assoc in R. assert (Q : room s (blen b1)) by (unfold room; rewrite L; trivial).
    unfold sbind. rewrite (take_reads v b1 s _ Wv E1 O R Q).
    assert (O1 : orderly (adv s (blen b1))).
    { apply orderly_adv; [exact O | | rewrite L; trivial]. pose proof (f_equal blen R) as X. unfold rest in X. rewrite blen_bdrop, !blen_app in X. destruct O. lia. }
    rewrite (IH b2 _ post Ws E2 O1 L (rest_adv_app _ _ _ R)). rewrite adv_adv, blen_app. reflexivity.
Qed.
Lemma put_join vs s s1 : s_pos s <= blen (s_data s) -> each put vs s = (Ok tt, s1) -> exists b, join_map encoding vs = Ok b /\ s1 = over s b.
Proof.
  intros H E. pose proof (puts_each put encoding vs puts_value s H) as P. destruct (join_map encoding vs) as [b|e].
  - exists b. split; [reflexivity|]. rewrite P in E. congruence.
  - rewrite E in P. discriminate.
Qed.
Lemma written_read vs s s1 : Forall value_sizes vs -> s_pos s <= blen (s_data s) -> s_limits s = [] -> each put vs s = (Ok tt, s1) ->
  take_all vs (with_pos s1 (s_pos s)) = (Ok vs, s1).
Proof.
  intros W H L E. destruct (put_join vs s s1 H E) as (b & J & ->).
  assert (R : rest (with_pos (over s b) (s_pos s)) = b ++ bdrop (s_pos s + blen b) (s_data s)).
  { unfold rest, over. cbn [with_pos s_pos s_data]. apply bdrop_app_exact'. rewrite blen_take_pos by exact H. reflexivity. }
  assert (O : orderly (with_pos (over s b) (s_pos s))).
  { split; [pose proof (over_fits s b H); cbn [with_pos s_pos s_data over] in *; lia|]. cbn [with_pos s_pos s_limits over]. rewrite L. repeat constructor. }
  rewrite (take_all_reads vs b _ _ W J O L R). reflexivity.
Qed.
