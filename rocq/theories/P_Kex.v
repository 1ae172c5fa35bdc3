(* Finite field Diffie-Hellman. *)
From Verif Require Import Base P_Base Iana Crypto Kex S_Kex.

Lemma powm_spec p b e : p <> 0 -> powm p b e = b ^ e mod p.
Proof.
  intro P. destruct e as [|q]; [reflexivity|]. cbn [powm]. induction q as [q IH|q IH|]; cbn [powm_pos].
  - rewrite IH. replace (N.pos q~1) with (N.pos q + N.pos q + 1) by lia. rewrite !N.pow_add_r, N.pow_1_r.
    rewrite <- N.mul_mod by exact P. rewrite N.mul_mod_idemp_l by exact P. reflexivity.
  - rewrite IH. replace (N.pos q~0) with (N.pos q + N.pos q) by lia. rewrite N.pow_add_r, <- N.mul_mod by exact P. reflexivity.
  - rewrite N.pow_1_r. reflexivity.
Qed.
Lemma pow_mod p a e : p <> 0 -> (a mod p) ^ e mod p = a ^ e mod p.
Proof.
  intro P. induction e as [|e IH] using N.peano_ind; [reflexivity|].
  rewrite !N.pow_succ_r', N.mul_mod, IH, N.mod_mod, <- N.mul_mod by exact P. reflexivity.
Qed.
Lemma dh_comm p x y : p <> 0 -> powm p (powm p 2 x) y = dh_shared p x y.
Proof. intro P. rewrite !powm_spec, pow_mod, <- N.pow_mul_r by exact P. reflexivity. Qed.

Definition good (f : ffdhe) : Prop := 2 < ff_p f /\ ff_p f < 256 ^ N.of_nat (ff_len f).
Lemma params_good g f : ffdhe_params g = Some f -> good f.
Proof.
  unfold ffdhe_params. repeat (destruct (_ =? _); [intro E; injection E; intros <-; split; vm_compute; reflexivity|]). discriminate.
Qed.
Lemma params_of g v : In (g, v) ffdhe_groups -> exists f, ffdhe_params g = Some f /\ 8 * N.of_nat (ff_len f) = fst v /\ memN g named_groups = true.
Proof.
  intro I. repeat (destruct I as [I|I]; [injection I; intros <- <-; eexists; split; [reflexivity|]; split; vm_compute; reflexivity|]). destruct I.
Qed.
Lemma init_ok f priv : good f -> ff_init f priv = Ok (be_bytes (ff_len f) (2 ^ of_bytes priv mod ff_p f)).
Proof.
  intros [P L]. unfold ff_init. rewrite powm_spec by lia. apply to_bytes_lt.
  eapply N.lt_trans; [apply N.mod_lt; lia | exact L].
Qed.

(* leading zeros *)
Lemma lstrip_significant b : significant b (blen (lstrip0 b)).
Proof.
  induction b as [|x b IH]; [exists 0%nat, []; repeat split|]. cbn [lstrip0]. destruct (Byte.byte_eq_dec x x00) as [->|N].
  - destruct IH as (z & s & E & L & K). exists (S z), s. cbn [repeat app]. rewrite <- E. auto.
  - exists 0%nat, (x :: b). destruct x; try (repeat split; discriminate). contradiction.
Qed.
Lemma significant_unique b n m : significant b n -> significant b m -> n = m.
Proof.
  revert n m. induction b as [|x b IH]; intros n m (z & s & E & L & K) (z' & s' & E' & L' & K').
  - destruct z, z'; try discriminate. cbn in *. subst. reflexivity.
  - destruct z as [|z]; destruct z' as [|z']; cbn in *.
    + subst. reflexivity.
    + subst s. injection E'; intros; subst. contradiction.
    + subst s'. injection E; intros; subst. contradiction.
    + injection E; intros -> ->. injection E'; intros E1. apply IH; [exists z, s | exists z', s']; auto.
Qed.
Lemma resume_ok f priv peer n : good f -> significant peer n -> ff_min f <= n ->
  2 <= of_bytes peer -> of_bytes peer <= ff_p f - 2 ->
  ff_resume f priv peer = Ok (be_bytes (ff_len f) (of_bytes peer ^ of_bytes priv mod ff_p f)).
Proof.
  intros [P L] Sg M L1 L2. unfold ff_resume. rewrite (significant_unique _ _ _ (lstrip_significant peer) Sg).
  destruct (N.ltb_spec n (ff_min f)); [lia|]. cbv zeta.
  destruct (N.ltb_spec 1 (of_bytes peer)); [|lia]. destruct (N.ltb_spec (of_bytes peer) (ff_p f - 1)); [|lia]. cbn [negb andb].
  rewrite powm_spec by lia. apply to_bytes_lt. eapply N.lt_trans; [apply N.mod_lt; lia | exact L].
Qed.
Lemma resume_short f priv peer n : significant peer n -> n < ff_min f -> ff_resume f priv peer = Err (XAlert INSUFFICIENT_SECURITY).
Proof.
  intros Sg M. unfold ff_resume. rewrite (significant_unique _ _ _ (lstrip_significant peer) Sg). apply N.ltb_lt in M. rewrite M. reflexivity.
Qed.
Lemma resume_refused f priv peer : good f -> of_bytes peer < 2 \/ ff_p f - 2 < of_bytes peer ->
  ff_resume f priv peer = Err (XAlert INSUFFICIENT_SECURITY) \/ ff_resume f priv peer = Err XValue.
Proof.
  intros [P L] O. unfold ff_resume. destruct (_ <? _); [left; reflexivity|]. right. cbv zeta.
  destruct (N.ltb_spec 1 (of_bytes peer)); [destruct (N.ltb_spec (of_bytes peer) (ff_p f - 1)); [lia|]|]; reflexivity.
Qed.
Lemma resume_inv f priv peer s : good f -> ff_resume f priv peer = Ok s ->
  2 <= of_bytes peer /\ of_bytes peer <= ff_p f - 2 /\ s = be_bytes (ff_len f) (of_bytes peer ^ of_bytes priv mod ff_p f).
Proof.
  intros G E. pose proof G as [P L]. unfold ff_resume in E. destruct (_ <? _); [discriminate|]. cbv zeta in E.
  destruct (N.ltb_spec 1 (of_bytes peer)); [destruct (N.ltb_spec (of_bytes peer) (ff_p f - 1))|]; try discriminate. cbn [negb andb] in E.
  apply to_bytes_ok in E as [E _]. rewrite powm_spec in E by lia. repeat split; try lia. exact E.
Qed.
Lemma ffdhe_agree C g v x y X Y s : In (g, v) ffdhe_groups -> kx_init C g x = Ok X -> kx_init C g y = Ok Y -> kx_resume C g x Y = Ok s ->
  exists f, ffdhe_params g = Some f /\ 8 * blen s = fst v /\ 8 * blen X = fst v /\ of_bytes s = dh_shared (ff_p f) (of_bytes x) (of_bytes y) /\
    forall s', kx_resume C g y X = Ok s' -> s' = s.
Proof.
  intro I. destruct (params_of g v I) as (f & E & L & M). pose proof (params_good _ _ E) as Gd. unfold kx_init, kx_resume. rewrite E, M. cbn [negb].
  rewrite !init_ok by exact Gd. intros E1 E2. injection E1; intros <-. injection E2; intros <-. intro R.
  pose proof Gd as [P L'].
  assert (B : forall z, z mod ff_p f < 256 ^ N.of_nat (ff_len f)) by (intro z; eapply N.lt_trans; [apply N.mod_lt; lia | exact L']).
  apply (resume_inv _ _ _ _ Gd) in R as (_ & _ & ->). exists f. split; [reflexivity|].
  rewrite !blen_be_bytes. split; [exact L|]. split; [exact L|].
  rewrite !of_be_bytes by apply B. rewrite pow_mod, <- N.pow_mul_r by lia.
  split; [unfold dh_shared; f_equal; f_equal; apply N.mul_comm|].
  intros s' R. apply (resume_inv _ _ _ _ Gd) in R as (_ & _ & ->). rewrite of_be_bytes by apply B. rewrite pow_mod, <- N.pow_mul_r by lia.
  f_equal. f_equal. f_equal. apply N.mul_comm.
Qed.
Lemma ffdhe_refused C g v f priv peer : In (g, v) ffdhe_groups -> ffdhe_params g = Some f ->
  of_bytes peer < 2 \/ ff_p f - 2 < of_bytes peer ->
  kx_resume C g priv peer = Err (XAlert INSUFFICIENT_SECURITY) \/ kx_resume C g priv peer = Err XValue.
Proof.
  intros I E O. destruct (params_of g v I) as (f' & E' & _ & M). rewrite E in E'. injection E'; intros <-.
  unfold kx_resume. rewrite E, M. cbn [negb]. apply resume_refused; [eapply params_good; exact E | exact O].
Qed.
Lemma ffdhe_accepted C g v f priv peer n : In (g, v) ffdhe_groups -> ffdhe_params g = Some f ->
  significant peer n -> ff_min f <= n -> 2 <= of_bytes peer -> of_bytes peer <= ff_p f - 2 ->
  exists s, kx_resume C g priv peer = Ok s /\ of_bytes s = of_bytes peer ^ of_bytes priv mod ff_p f /\ 8 * blen s = fst v.
Proof.
  intros I E Sg M L1 L2. destruct (params_of g v I) as (f' & E' & L & Mg). rewrite E in E'. injection E'; intros <-.
  pose proof (params_good _ _ E) as Gd. unfold kx_resume. rewrite E, Mg. cbn [negb]. rewrite (resume_ok f priv peer n) by assumption.
  eexists. split; [reflexivity|]. rewrite blen_be_bytes. split; [|exact L]. apply of_be_bytes.
  destruct Gd as [P L']. eapply N.lt_trans; [apply N.mod_lt; lia | exact L'].
Qed.
Lemma ffdhe_small C g v f priv peer n : In (g, v) ffdhe_groups -> ffdhe_params g = Some f -> significant peer n -> n < ff_min f ->
  kx_resume C g priv peer = Err (XAlert INSUFFICIENT_SECURITY).
Proof.
  intros I E Sg M. destruct (params_of g v I) as (f' & E' & L & Mg).
  unfold kx_resume. rewrite E, Mg. cbn [negb]. eapply resume_short; eassumption.
Qed.

(* the numbers *)
(* what the formula has for e in a group of b bits *)
Definition digits (b X p : N) : N := N.shiftr (p + 2 ^ (b - 64) + 1 - 2 ^ b) 64 - X.
Definition digits_e : N := digits 3072 2625351 ffdhe3072_p.
Definition digits_check (m : N) (k : nat) (E : N) : bool :=
  let (n, d) := e_sum k in (E * d <=? N.shiftl n m) && (N.shiftl (n + 1) m <? E * d + d).
Lemma floor_check m k E : digits_check m k E = true -> floor_e m E.
Proof.
  unfold digits_check. intro H. exists k. destruct (e_sum k) as [n d].
  exists n, d. split; [reflexivity|]. apply andb_prop in H as [E1 E2]. apply N.leb_le in E1. apply N.ltb_lt in E2.
  rewrite N.shiftl_mul_pow2 in E1, E2. split; [exact E1|]. rewrite (N.mul_add_distr_r E 1 d), (N.mul_1_l d). exact E2.
Qed.
Lemma digits_ok : digits_check 2942 450 digits_e = true.
Proof. vm_compute. reflexivity. Qed.
Lemma floor_3072 : floor_e 2942 digits_e.
Proof. exact (floor_check 2942 450 digits_e digits_ok). Qed.
Lemma floor_shift m k E : floor_e (m + k) E -> floor_e m (E / 2 ^ k).
Proof.
  intros (j & n & d & Ed & L1 & L2). exists j, n, d. split; [exact Ed|].
  assert (P : 2 ^ k <> 0) by (apply N.pow_nonzero; discriminate).
  pose proof (N.div_mod E (2 ^ k) P) as Dm. pose proof (N.mod_lt E (2 ^ k) P) as Dl.
  set (q := E / 2 ^ k) in *. set (r := E mod 2 ^ k) in *. set (K := 2 ^ k) in *. rewrite N.pow_add_r in L1, L2. fold K in L1, L2. set (m2 := 2 ^ m) in *.
  split; apply (N.mul_le_mono_pos_r _ _ K) || apply (N.mul_lt_mono_pos_r K); try lia.
  - apply N.le_trans with (E * d); [|lia]. rewrite Dm. nia.
  - apply N.lt_le_trans with ((E + 1) * d); [lia|]. rewrite Dm. nia.
Qed.
Definition prime_ok (b X p : N) : bool :=
  let E := digits b X p in
  (p + 2 ^ (b - 64) + 1 =? 2 ^ b + N.shiftl (E + X) 64) && (N.shiftr E (b - 3072) =? N.shiftr digits_e (3072 - b)) && (130 <=? b).
Lemma prime_check b X p : prime_ok b X p = true -> rfc7919_prime 2942 b X p.
Proof.
  intro H. pose proof floor_3072 as F. unfold prime_ok in H. cbv zeta in H. generalize dependent (digits b X p). generalize dependent digits_e. intros D F E H.
  rewrite !N.shiftr_div_pow2, N.shiftl_mul_pow2 in H. apply andb_prop in H as [H L]. apply andb_prop in H as [H1 H2].
  apply N.eqb_eq in H1, H2. apply N.leb_le in L. exists E. split; [|exact H1].
  replace (b - 130 - 2942) with (b - 3072) by lia. rewrite H2. apply floor_shift.
  replace (N.min 2942 (b - 130) + (3072 - b)) with 2942 by lia. exact F.
Qed.
Lemma ffdhe_numbers g b X f : In (g, (b, X)) ffdhe_groups -> ffdhe_params g = Some f ->
  rfc7919_prime 2942 b X (ff_p f) /\ ff_p f = 2 * ff_q f + 1.
Proof.
  intro I. repeat (destruct I as [I|I]; [injection I; intros <- <- <-; intro E; injection E; intros <-; cbn [ff_p ff_q]|]); [| | | | |destruct I].
  - split; [apply (prime_check 2048 560316 ffdhe2048_p) | apply N.eqb_eq]; vm_compute; reflexivity.
  - split; [apply (prime_check 3072 2625351 ffdhe3072_p) | apply N.eqb_eq]; vm_compute; reflexivity.
  - split; [apply (prime_check 4096 5736041 ffdhe4096_p) | apply N.eqb_eq]; vm_compute; reflexivity.
  - split; [apply (prime_check 6144 15705020 ffdhe6144_p) | apply N.eqb_eq]; vm_compute; reflexivity.
  - split; [apply (prime_check 8192 10965728 ffdhe8192_p) | apply N.eqb_eq]; vm_compute; reflexivity.
Qed.
