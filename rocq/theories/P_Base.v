(* Lemmas about bytes and integers. *)
From Verif Require Import Base.

Lemma bN_lt b : bN b < 256.
Proof. unfold bN. pose proof (Byte.to_N_bounded b). lia. Qed.

Lemma Nb_bN b : Nb (bN b) = b.
Proof. unfold Nb, bN. rewrite Byte.of_to_N. reflexivity. Qed.

Lemma bN_Nb n : n < 256 -> bN (Nb n) = n.
Proof.
  intros H. unfold Nb, bN. destruct (Byte.of_N n) eqn:E.
  - apply Byte.to_of_N in E. exact E.
  - apply Byte.of_N_None_iff in E. lia.
Qed.

Lemma bN_inj a b : bN a = bN b -> a = b.
Proof. intros H. rewrite <- (Nb_bN a), <- (Nb_bN b), H. reflexivity. Qed.

Lemma beqb_eq a b : beqb a b = true <-> a = b.
Proof.
  revert b; induction a as [|x a IH]; destruct b as [|y b]; cbn; split; try congruence; auto.
  - intros H. apply andb_prop in H as [H1 H2].
    apply Byte.byte_dec_bl in H1. apply IH in H2. congruence.
  - intros H. inversion H; subst. rewrite (Byte.byte_dec_lb eq_refl). cbn. apply IH. reflexivity.
Qed.

Lemma beqb_refl a : beqb a a = true.
Proof. apply beqb_eq. reflexivity. Qed.

Lemma beqb_neq a b : beqb a b = false <-> a <> b.
Proof.
  destruct (beqb a b) eqn:E; split; intros H; try congruence.
  - apply beqb_eq in E. contradiction.
  - intros ->. rewrite beqb_refl in E. congruence.
Qed.

Lemma blen_nil : blen [] = 0. Proof. reflexivity. Qed.
Lemma blen_cons x b : blen (x :: b) = 1 + blen b.
Proof. unfold blen. cbn [length]. lia. Qed.
Lemma blen_app a b : blen (a ++ b) = blen a + blen b.
Proof. unfold blen. rewrite app_length. lia. Qed.
Lemma blen_zero b : blen b = 0 -> b = [].
Proof. destruct b; [auto|]. rewrite blen_cons. lia. Qed.
Lemma blen_zeros n : blen (zeros n) = n.
Proof. unfold blen, zeros. rewrite repeat_length. lia. Qed.
Lemma blen_rev b : blen (rev b) = blen b.
Proof. unfold blen. rewrite rev_length. reflexivity. Qed.
Lemma length_blen b : length b = N.to_nat (blen b).
Proof. unfold blen. lia. Qed.

Lemma btake_app_exact a b : btake (blen a) (a ++ b) = a.
Proof.
  unfold btake, blen. rewrite Nnat.Nat2N.id, firstn_app, PeanoNat.Nat.sub_diag, firstn_all.
  cbn. apply app_nil_r.
Qed.
Lemma bdrop_app_exact a b : bdrop (blen a) (a ++ b) = b.
Proof.
  unfold bdrop, blen. rewrite Nnat.Nat2N.id, skipn_app, PeanoNat.Nat.sub_diag, skipn_all.
  reflexivity.
Qed.
Lemma btake_app_exact' n a b : n = blen a -> btake n (a ++ b) = a.
Proof. intros ->. apply btake_app_exact. Qed.
Lemma bdrop_app_exact' n a b : n = blen a -> bdrop n (a ++ b) = b.
Proof. intros ->. apply bdrop_app_exact. Qed.
Lemma btake_all n b : blen b <= n -> btake n b = b.
Proof. intros H. unfold btake. apply firstn_all2. unfold blen in H. lia. Qed.
Lemma bdrop_all n b : blen b <= n -> bdrop n b = [].
Proof. intros H. unfold bdrop. apply skipn_all2. unfold blen in H. lia. Qed.
Lemma btake_bdrop n b : btake n b ++ bdrop n b = b.
Proof. apply firstn_skipn. Qed.
Lemma btake_0 b : btake 0 b = []. Proof. reflexivity. Qed.
Lemma bdrop_0 b : bdrop 0 b = b. Proof. reflexivity. Qed.
Lemma blen_btake n b : blen (btake n b) = N.min n (blen b).
Proof. unfold blen, btake. rewrite firstn_length. lia. Qed.
Lemma blen_bdrop n b : blen (bdrop n b) = blen b - n.
Proof. unfold blen, bdrop. rewrite skipn_length. lia. Qed.
Lemma bdrop_bdrop n m b : bdrop n (bdrop m b) = bdrop (m + n) b.
Proof.
  unfold bdrop. rewrite Nnat.N2Nat.inj_add.
  generalize (N.to_nat n) as i, (N.to_nat m) as j. clear. intros i j. revert b.
  induction j as [|j IH]; intros b; [reflexivity|].
  destruct b; cbn; [apply skipn_nil|apply IH].
Qed.
Lemma btake_app_le n a b : n <= blen a -> btake n (a ++ b) = btake n a.
Proof.
  intros H. unfold btake, blen in *. rewrite firstn_app.
  replace (N.to_nat n - length a)%nat with 0%nat by lia. cbn. apply app_nil_r.
Qed.
Lemma bdrop_app_le n a b : n <= blen a -> bdrop n (a ++ b) = bdrop n a ++ b.
Proof.
  intros H. unfold bdrop, blen in *. rewrite skipn_app.
  replace (N.to_nat n - length a)%nat with 0%nat by lia. reflexivity.
Qed.
Lemma bdrop_app_ge n a b : blen a <= n -> bdrop n (a ++ b) = bdrop (n - blen a) b.
Proof.
  intros H. unfold bdrop, blen in *. rewrite skipn_app.
  rewrite skipn_all2 by lia. cbn. f_equal. lia.
Qed.
Lemma btake_app_ge n a b : blen a <= n -> btake n (a ++ b) = a ++ btake (n - blen a) b.
Proof.
  intros H. unfold btake, blen in *. rewrite firstn_app.
  rewrite firstn_all2 by lia. do 2 f_equal. lia.
Qed.

(* integers *)
Lemma of_bytes_acc b acc :
  fold_left (fun acc x => acc * 256 + bN x) b acc = acc * 256 ^ blen b + of_bytes b.
Proof.
  unfold of_bytes. revert acc. induction b as [|x b IH]; intros acc.
  - cbn. lia.
  - cbn [fold_left]. rewrite (IH (acc * 256 + bN x)), (IH (0 * 256 + bN x)), blen_cons.
    rewrite N.pow_add_r. change (256 ^ 1) with 256. lia.
Qed.
Lemma of_bytes_cons x b : of_bytes (x :: b) = bN x * 256 ^ blen b + of_bytes b.
Proof. unfold of_bytes at 1. cbn [fold_left]. rewrite of_bytes_acc. lia. Qed.
Lemma of_bytes_app a b : of_bytes (a ++ b) = of_bytes a * 256 ^ blen b + of_bytes b.
Proof. unfold of_bytes at 1. rewrite fold_left_app. fold (of_bytes a). apply of_bytes_acc. Qed.
Lemma of_bytes_nil : of_bytes [] = 0. Proof. reflexivity. Qed.
Lemma of_bytes_one x : of_bytes [x] = bN x.
Proof. reflexivity. Qed.
Lemma of_bytes_lt b : of_bytes b < 256 ^ blen b.
Proof.
  induction b as [|x b IH]; [cbn; lia|].
  rewrite of_bytes_cons, blen_cons, N.pow_add_r. change (256 ^ 1) with 256.
  pose proof (bN_lt x). nia.
Qed.

Lemma length_be_bytes n v : length (be_bytes n v) = n.
Proof.
  revert v; induction n as [|n IH]; intros v; [reflexivity|].
  cbn [be_bytes]. rewrite app_length, IH. cbn. lia.
Qed.
Lemma blen_be_bytes n v : blen (be_bytes n v) = N.of_nat n.
Proof. unfold blen. rewrite length_be_bytes. reflexivity. Qed.

Lemma of_be_bytes n v : v < 256 ^ N.of_nat n -> of_bytes (be_bytes n v) = v.
Proof.
  revert v; induction n as [|n IH]; intros v H.
  - cbn in *. lia.
  - cbn [be_bytes]. rewrite of_bytes_app, of_bytes_one.
    rewrite Nnat.Nat2N.inj_succ, N.pow_succ_r' in H.
    rewrite IH by (apply N.div_lt_upper_bound; lia).
    rewrite bN_Nb by (apply N.mod_lt; lia).
    change (256 ^ blen [Nb (v mod 256)]) with 256.
    pose proof (N.div_mod v 256). lia.
Qed.

Lemma be_of_bytes b : be_bytes (length b) (of_bytes b) = b.
Proof.
  induction b as [|x b IH] using rev_ind; [reflexivity|].
  rewrite app_length. cbn [length]. rewrite PeanoNat.Nat.add_1_r. cbn [be_bytes].
  rewrite of_bytes_app, of_bytes_one. change (256 ^ blen [x]) with 256.
  pose proof (bN_lt x).
  rewrite N.div_add_l by lia. rewrite N.div_small by lia. rewrite N.add_0_r, IH.
  rewrite N.add_comm, N.mod_add by lia. rewrite N.mod_small by lia. rewrite Nb_bN. reflexivity.
Qed.

Lemma of_bytes_inj a b : length a = length b -> of_bytes a = of_bytes b -> a = b.
Proof. intros H1 H2. rewrite <- (be_of_bytes a), <- (be_of_bytes b), H1, H2. reflexivity. Qed.

Lemma to_bytes_ok n v b : to_bytes n v = Ok b ->
  b = be_bytes n v /\ v < 256 ^ N.of_nat n /\ blen b = N.of_nat n /\ of_bytes b = v.
Proof.
  unfold to_bytes. destruct (v <? 256 ^ N.of_nat n) eqn:E; [|discriminate].
  intros H; inversion H; subst. apply N.ltb_lt in E.
  rewrite blen_be_bytes, of_be_bytes by assumption. auto.
Qed.
Lemma to_bytes_lt n v : v < 256 ^ N.of_nat n -> to_bytes n v = Ok (be_bytes n v).
Proof. intros H. unfold to_bytes. apply N.ltb_lt in H. rewrite H. reflexivity. Qed.
Lemma to_bytes_err n v e : to_bytes n v = Err e -> e = XOverflow /\ 256 ^ N.of_nat n <= v.
Proof.
  unfold to_bytes. destruct (v <? 256 ^ N.of_nat n) eqn:E; [discriminate|].
  intros H; inversion H. apply N.ltb_ge in E. auto.
Qed.

Lemma put_var_ok n b r : put_var n b = Ok r ->
  r = be_bytes n (blen b) ++ b /\ blen b < 256 ^ N.of_nat n.
Proof.
  unfold put_var. destruct (to_bytes n (blen b)) as [l|] eqn:E; cbn; [|discriminate].
  intros H; inversion H; subst. apply to_bytes_ok in E as [-> [? _]]. auto.
Qed.
Lemma put_var_lt n b : blen b < 256 ^ N.of_nat n -> put_var n b = Ok (be_bytes n (blen b) ++ b).
Proof. intros H. unfold put_var. rewrite to_bytes_lt by assumption. reflexivity. Qed.

(* membership *)
Lemma memN_In x l : memN x l = true <-> In x l.
Proof.
  unfold memN. rewrite existsb_exists. split.
  - intros [y [H E]]. apply N.eqb_eq in E. congruence.
  - intros H. exists x. split; [assumption|apply N.eqb_refl].
Qed.
Lemma memN_false x l : memN x l = false <-> ~ In x l.
Proof. rewrite <- memN_In. destruct (memN x l); split; congruence. Qed.
Lemma memB_In x l : memB x l = true <-> In x l.
Proof.
  unfold memB. rewrite existsb_exists. split.
  - intros [y [H E]]. apply beqb_eq in E. congruence.
  - intros H. exists x. split; [assumption|apply beqb_refl].
Qed.
Lemma memB_false x l : memB x l = false <-> ~ In x l.
Proof. rewrite <- memB_In. destruct (memB x l); split; congruence. Qed.
Lemma assocN_Some {A} x l (v : A) : assocN x l = Some v -> In (x, v) l.
Proof.
  induction l as [|[k w] l IH]; cbn; [discriminate|].
  destruct (x =? k) eqn:E.
  - apply N.eqb_eq in E. intros H; inversion H; subst. auto.
  - auto.
Qed.
Lemma is_nil_true {A} (l : list A) : is_nil l = true <-> l = [].
Proof. destruct l; cbn; split; congruence. Qed.
Lemma is_nil_false {A} (l : list A) : is_nil l = false <-> l <> [].
Proof. destruct l; cbn; split; congruence. Qed.

Lemma rbind_ok {A B} (m : res A) (f : A -> res B) b :
  rbind m f = Ok b -> exists a, m = Ok a /\ f a = Ok b.
Proof. destruct m; cbn; [eauto|discriminate]. Qed.
Lemma rbind_err {A B} (m : res A) (f : A -> res B) e :
  rbind m f = Err e -> m = Err e \/ exists a, m = Ok a /\ f a = Err e.
Proof. destruct m; cbn; intros H; [right; eauto|left; congruence]. Qed.
