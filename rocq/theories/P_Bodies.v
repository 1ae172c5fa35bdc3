From Verif Require Import Base P_Base Iana Serial S_Serial P_Serial P_Serial2 Crypto Ext P_Codec S_Layout P_Layout Bodies S_Bodies.

Lemma flat_length l : blen (flat l) = 2 * N.of_nat (length l).
Proof.
  unfold blen. induction l as [|p l IH]; [reflexivity|]. unfold flat in *. cbn [map concat app length]. lia.
Qed.
Lemma flat_pairs l : pairs_of (flat l) = l.
Proof. induction l as [|[x y] l IH]; [reflexivity|]. unfold flat in *. cbn [map concat app fst snd pairs_of]. rewrite IH. reflexivity. Qed.
Lemma pairs_flat k : forall b, (length b <= k)%nat -> blen b mod 2 = 0 -> flat (pairs_of b) = b.
Proof.
  induction k as [|k IH]; intros b L E.
  - destruct b; [reflexivity | cbn in L; lia].
  - destruct b as [|x [|y r]]; [reflexivity | discriminate E|].
    unfold flat in *. cbn [pairs_of map concat app fst snd]. rewrite IH; [reflexivity | cbn in L; lia|].
    rewrite <- E. unfold blen. cbn [length]. replace (N.of_nat (S (S (length r)))) with (N.of_nat (length r) + 1 * 2) by lia.
    rewrite N.mod_add by discriminate. reflexivity.
Qed.
Lemma var_ok n b : blen b < 256 ^ N.of_nat n -> put_var n b = Ok (vec n b).
Proof. intro H. unfold put_var, to_bytes, vec. apply N.ltb_lt in H. rewrite H. reflexivity. Qed.
Lemma srtp_reads profiles mki : srtp_fits profiles mki -> reads srtp_parse (srtp_bytes profiles mki) (profiles, mki).
Proof.
  intros (H1 & H2) s post HR HB. unfold srtp_bytes in *. fold (flat profiles) in *.
  assert (E1 : put_var 2 (flat profiles) = Ok (vec 2 (flat profiles))) by (apply var_ok; rewrite flat_length; exact H1).
  assert (E2 : put_var 1 mki = Ok (vec 1 mki)) by (apply var_ok; exact H2).
  rewrite blen_app in *. unfold srtp_parse.
  pose proof (r_var 1 _ _ E1 s (vec 1 mki ++ post)) as R1. cbn [N.of_nat Pos.of_succ_nat Pos.succ] in R1.
  rewrite R1; [|rewrite HR, <- app_assoc; reflexivity | eapply room_le; [exact HB | lia]]. cbn [rbind].
  rewrite flat_length. replace (2 * N.of_nat (length profiles)) with (N.of_nat (length profiles) * 2) by lia.
  rewrite N.mod_mul by discriminate. cbn [N.eqb negb].
  pose proof (r_var 0 _ _ E2 (adv s (blen (vec 2 (flat profiles)))) post) as R2. cbn [N.of_nat Pos.of_succ_nat Pos.succ] in R2.
  rewrite R2; [|apply rest_adv_app; rewrite HR, <- app_assoc; reflexivity | apply room_adv; exact HB].
  cbn [rbind]. rewrite flat_pairs, adv_adv. reflexivity.
Qed.
Lemma srtp_took s profiles mki s1 : inside s -> srtp_parse s = Ok ((profiles, mki), s1) ->
  took s s1 (srtp_bytes profiles mki) /\ srtp_fits profiles mki.
Proof.
  intros I H. unfold srtp_parse in H. apply rbind_ok in H as [[b s2] [H1 H]].
  destruct (negb (blen b mod 2 =? 0)) eqn:E; [discriminate|]. apply Bool.negb_false_iff, N.eqb_eq in E.
  apply rbind_ok in H as [[m s3] [H2 H]]. injection H; intros <- <- <-.
  destruct (tk_var 2 _ _ _ I H1) as (T1 & L1). destruct (tk_var 1 _ _ _ (took_inside _ _ _ T1) H2) as (T2 & L2).
  pose proof (pairs_flat _ b (le_n _) E) as F. split.
  - unfold srtp_bytes. fold (flat (pairs_of b)). rewrite F. exact (took_app _ _ _ _ _ T1 T2).
  - split; [rewrite <- flat_length, F; exact L1 | exact L2].
Qed.
Lemma be_same n v w x y : v < 256 ^ N.of_nat n -> w < 256 ^ N.of_nat n -> be_bytes n v ++ x = be_bytes n w ++ y -> v = w /\ x = y.
Proof.
  intros V W E. assert (X : bdrop (N.of_nat n) (be_bytes n v ++ x) = bdrop (N.of_nat n) (be_bytes n w ++ y)) by (rewrite E; reflexivity).
  rewrite !bdrop_app_exact' in X by (rewrite blen_be_bytes; reflexivity). subst y. apply app_inv_tail in E.
  split; [|reflexivity]. rewrite <- (of_be_bytes n v V), <- (of_be_bytes n w W), E. reflexivity.
Qed.
Lemma srtp_written profiles mki b : srtp_serialize profiles mki = Ok b ->
  b = be_bytes 2 (2 * blen mki) ++ flat profiles ++ vec 1 mki /\ blen mki < 2 ^ 8.
Proof.
  intro H. unfold srtp_serialize in H. apply rbind_ok in H as [l [H1 H]]. apply rbind_ok in H as [k [H2 H]]. injection H; intros <-.
  apply to_bytes_ok in H1 as (-> & L1 & _). apply to_bytes_ok in H2 as (-> & L2 & _).
  rewrite (N.mul_comm (blen mki) 2). split; [reflexivity | exact L2].
Qed.
Lemma srtp_exact profiles mki b : srtp_fits profiles mki -> srtp_serialize profiles mki = Ok b ->
  (b = srtp_bytes profiles mki <-> length profiles = length mki).
Proof.
  intros (F & _) H. apply srtp_written in H as (-> & L). unfold srtp_bytes. fold (flat profiles). unfold vec at 2.
  rewrite flat_length, <- app_assoc. split.
  - intro E. apply be_same in E as (E & _); [unfold blen in E; lia | change (256 ^ N.of_nat 2) with (2 ^ 16); change (2 ^ 8) with 256 in L; change (2 ^ 16) with 65536; lia | exact F].
  - intro E. unfold blen at 1. rewrite E. reflexivity.
Qed.
Lemma srtp_back profiles mki b pre post limits : srtp_fits profiles mki -> srtp_serialize profiles mki = Ok b ->
  fits limits (blen pre + blen b) ->
  ((exists s, srtp_parse (before pre b post limits) = Ok ((profiles, mki), s)) <-> length profiles = length mki).
Proof.
  intros F H HF. split.
  - intros (s & E). apply srtp_written in H as (Eb & L).
    assert (I : inside (before pre b post limits)).
    { unfold inside, before. cbn [s_pos s_data s_limits]. rewrite !blen_app. unfold fits in HF. destruct limits; (split; [lia|]); [exact I | lia]. }
    destruct (srtp_took _ _ _ _ I E) as ((_ & _ & _ & _ & R) & _).
    unfold rest, before in R. cbn [s_data s_pos] in R. rewrite bdrop_app_exact in R. subst b.
    unfold srtp_bytes in R. fold (flat profiles) in R. unfold vec at 2 in R. rewrite flat_length, <- !app_assoc in R.
    apply be_same in R as (R & _); [unfold blen in R; lia | change (256 ^ N.of_nat 2) with 65536; change (2 ^ 8) with 256 in L; lia | exact (proj1 F)].
  - intro E. apply (srtp_exact _ _ _ F H) in E. exists (after pre b post limits). apply reads_before; [|exact HF].
    rewrite E. apply srtp_reads. exact F.
Qed.
Lemma joined l : Forall (fun x : bytes => N.of_nat (length x) < 2 ^ 16) l -> join_map (put_var 2) l = Ok (concat (map (vec 2) l)).
Proof.
  induction 1 as [|x l H _ IH]; [reflexivity|]. cbn [join_map map concat]. rewrite (var_ok 2 x H). cbn [rbind]. rewrite IH. reflexivity.
Qed.
Lemma authorities_written l : (authorities_fit l -> authorities_serialize l = Ok (authorities_bytes l)) /\
  (~ authorities_fit l -> authorities_serialize l = Err XOverflow).
Proof.
  split.
  - intros (F & S). unfold authorities_serialize. rewrite (joined l F). cbn [rbind]. apply var_ok. exact S.
  - intro N0. unfold authorities_serialize.
    destruct (join_map_total (put_var 2) (fun x : bytes => N.of_nat (length x) < 2 ^ 16) XOverflow l) as [(F & b & Hb)|(F & Hb)].
    + intro x. unfold put_var. destruct (to_bytes_total 2 (blen x)) as [(L & b & ->)|(L & ->)]; [left | right]; cbn [rbind]; (split; [|eauto]).
      * exact L.
      * unfold blen in L. change (256 ^ N.of_nat 2) with (2 ^ 16) in L. lia.
    + rewrite (joined l F). cbn [rbind]. unfold put_var.
      destruct (to_bytes_total 2 (blen (concat (map (vec 2) l)))) as [(L & _)|(_ & ->)]; [|reflexivity].
      destruct N0. split; [exact F | exact L].
    + rewrite Hb. reflexivity.
Qed.
Lemma authorities_back l pre post limits : authorities_fit l -> fits limits (blen pre + blen (authorities_bytes l)) ->
  authorities_parse (before pre (authorities_bytes l) post limits) = Ok (l, after pre (authorities_bytes l) post limits).
Proof.
  intros (F & S) HF. apply reads_before; [|exact HF]. unfold authorities_parse.
  apply (r_listvar 1 1 l _ _ (joined l F)). apply var_ok. exact S.
Qed.
Lemma unbuilt C ty s :
  parse_ext_body C ty CUseSrtp s = match srtp_parse s with Ok _ => Err XType | Err e => Err e end /\
  parse_ext_body C ty CCertAuthorities s = match authorities_parse s with Ok _ => Err XType | Err e => Err e end.
Proof.
  unfold parse_ext_body, srtp_parse, authorities_parse. split.
  - destruct (read_var 2 s) as [[b s1]|]; [|reflexivity]. cbn [rbind]. destruct (negb _); [reflexivity|].
    destruct (read_var 1 s1) as [[m s2]|]; reflexivity.
  - destruct (read_listvar 2 2 s) as [[l s1]|]; reflexivity.
Qed.
Lemma srtp_total profiles mki :
  (N.of_nat (length mki) < 2 ^ 8 -> exists b, srtp_serialize profiles mki = Ok b) /\
  (2 ^ 8 <= N.of_nat (length mki) -> srtp_serialize profiles mki = Err XOverflow).
Proof.
  unfold srtp_serialize. fold (blen mki). change (2 ^ 8) with (256 ^ N.of_nat 1).
  destruct (to_bytes_total 2 (blen mki * 2)) as [(L2 & l & ->)|(L2 & ->)]; cbn [rbind];
  destruct (to_bytes_total 1 (blen mki)) as [(L1 & k & E)|(L1 & E)]; try rewrite E; cbn [rbind];
  change (256 ^ N.of_nat 1) with 256 in *; change (256 ^ N.of_nat 2) with 65536 in *; split; intro; first [reflexivity | eauto; fail | lia].
Qed.
