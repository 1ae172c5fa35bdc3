From Verif Require Import Base Iana Sig Suites S_Suites.

Lemma dget_dset {V} k (v : V) d j : dget j (dset k v d) = if j =? k then Some v else dget j d.
Proof.
  induction d as [|[a w] d IH]; cbn [dset dget]; [reflexivity|]. destruct (N.eqb_spec k a) as [E|E]; cbn [dget].
  - rewrite E. destruct (j =? a); reflexivity.
  - destruct (N.eqb_spec j a) as [F|F]; [|exact IH]. destruct (N.eqb_spec j k); [congruence | reflexivity].
Qed.
Lemma dset_keys {V} k (v : V) d : map fst (dset k v d) = if memN k (map fst d) then map fst d else map fst d ++ [k].
Proof.
  induction d as [|[a w] d IH]; cbn [dset map fst]; [reflexivity|]. unfold memN in *. cbn [existsb].
  destruct (N.eqb_spec k a) as [E|E]; cbn [map fst orb]; [reflexivity|]. rewrite IH.
  destruct (existsb (N.eqb k) (map fst d)); reflexivity.
Qed.

Lemma last_app f a b : last_of f (a ++ b) = match last_of f b with Some k => Some k | None => last_of f a end.
Proof. induction a as [|x a IH]; cbn [app last_of]; [destruct (last_of f b); reflexivity|]. rewrite IH. destruct (last_of f b); reflexivity. Qed.
Lemma firsts_app l x : forall seen, firsts seen (l ++ [x]) =
  firsts seen l ++ (if memN x seen || memN x (firsts seen l) then [] else [x]).
Proof.
  induction l as [|a l IH]; intro seen; cbn [app firsts].
  - destruct (memN x seen); reflexivity.
  - destruct (memN a seen) eqn:A; [apply IH|]. cbn [app]. rewrite IH. f_equal. f_equal. unfold memN. cbn [existsb].
    destruct (x =? a), (existsb (N.eqb x) seen), (existsb (N.eqb x) (firsts (a :: seen) l)); reflexivity.
Qed.

Record inv (ks : list klass) (r : regs) : Prop := mkInv {
  i_all : forall i, dget i (r_all r) = last_of (puts_all i) ks;
  i_sign : forall s, dget s (r_sign r) = last_of (puts_sign s) ks;
  i_pub : forall o, match dget o (r_pub r) with
                    | None => existsb (puts_pub o) ks = false
                    | Some d => existsb (puts_pub o) ks = true /\ map fst d = firsts [] (ids_of o ks) /\
                                forall i, dget i d = last_of (puts_inner o i) ks
                    end }.
Lemma inv_step ks r k : inv ks r -> inv (ks ++ [k]) (snd (init_subclass k r)).
Proof.
  intros [A S P]. unfold init_subclass.
  assert (LA : forall i, last_of (puts_all i) (ks ++ [k]) = if puts_all i k then Some k else dget i (r_all r))
    by (intro i; rewrite last_app, <- A; cbn [last_of]; destruct (puts_all i k); reflexivity).
  assert (LS : forall s, last_of (puts_sign s) (ks ++ [k]) = if puts_sign s k then Some k else dget s (r_sign r))
    by (intro s; rewrite last_app, <- S; cbn [last_of]; destruct (puts_sign s k); reflexivity).
  assert (LI : forall o i, last_of (puts_inner o i) (ks ++ [k]) = if puts_inner o i k then Some k else last_of (puts_inner o i) ks)
    by (intros o i; rewrite last_app; cbn [last_of]; destruct (puts_inner o i k); reflexivity).
  assert (LE : forall o, existsb (puts_pub o) (ks ++ [k]) = existsb (puts_pub o) ks || puts_pub o k)
    by (intro o; rewrite existsb_app; cbn [existsb]; rewrite Bool.orb_false_r; reflexivity).
  assert (LD : forall o, ids_of o (ks ++ [k]) = ids_of o ks ++ (if puts_pub o k then match k_iana k with Some i => [i] | None => [] end else []))
    by (intro o; unfold ids_of; rewrite flat_map_app; cbn [flat_map]; rewrite app_nil_r; reflexivity).
  (* nothing under [o] *)
  assert (K : forall o, puts_pub o k = false -> match dget o (r_pub r) with
                    | None => existsb (puts_pub o) (ks ++ [k]) = false
                    | Some d => existsb (puts_pub o) (ks ++ [k]) = true /\ map fst d = firsts [] (ids_of o (ks ++ [k])) /\
                                forall i, dget i d = last_of (puts_inner o i) (ks ++ [k])
                    end).
  { intros o N. specialize (P o). rewrite LE, LD, N. rewrite app_nil_r, Bool.orb_false_r. destruct (dget o (r_pub r)) as [d|]; [|exact P].
    destruct P as (P1 & P2 & P3). split; [exact P1|]. split; [exact P2|]. intro i. rewrite LI. unfold puts_inner at 1. rewrite N. apply P3. }
  destruct (k_direct k) eqn:D; cbn [negb].
  2:{ cbn [snd]. constructor.
      - intro i. rewrite LA. unfold puts_all. rewrite D. reflexivity.
      - intro s. rewrite LS. unfold puts_sign. rewrite D. reflexivity.
      - intro o. apply K. unfold puts_pub. rewrite D. reflexivity. }
  destruct (k_pubkey k) as [o|] eqn:PK.
  2:{ cbn [snd]. constructor.
      - intro i. rewrite LA. unfold puts_all. rewrite D, PK. reflexivity.
      - intro s. rewrite LS. unfold puts_sign. rewrite D, PK. reflexivity.
      - intro o. apply K. unfold puts_pub. rewrite D, PK. reflexivity. }
  set (pub := match dget o (r_pub r) with Some _ => r_pub r | None => dset o [] (r_pub r) end).
  set (inner := match dget o pub with Some d => d | None => [] end).
  assert (Gp : forall j, dget j pub = if j =? o then Some inner else dget j (r_pub r)).
  { intro j. subst inner. subst pub. destruct (dget o (r_pub r)) as [d|] eqn:E.
    - rewrite E. destruct (N.eqb_spec j o) as [->|]; [exact E | reflexivity].
    - rewrite !dget_dset, N.eqb_refl. reflexivity. }
  assert (Gi : map fst inner = firsts [] (ids_of o ks) /\ forall i, dget i inner = last_of (puts_inner o i) ks).
  { specialize (P o). subst inner. subst pub. destruct (dget o (r_pub r)) as [d|] eqn:E; [rewrite E; destruct P as (_ & P); exact P|].
    rewrite dget_dset, N.eqb_refl.
    assert (Q : forall ks, existsb (puts_pub o) ks = false -> ids_of o ks = [] /\ forall i, last_of (puts_inner o i) ks = None).
    { clear. induction ks as [|x ks IH]; intro H; [split; reflexivity|]. cbn [existsb] in H. apply Bool.orb_false_iff in H as [H1 H2]. destruct (IH H2) as (I1 & I2).
      split; [unfold ids_of; cbn [flat_map]; rewrite H1; exact I1|]. intro i. cbn [last_of]. rewrite I2. unfold puts_inner. rewrite H1. reflexivity. }
    destruct (Q _ P) as (Q1 & Q2). rewrite Q1. split; [reflexivity|]. intro i. rewrite Q2. reflexivity. }
  clearbody pub inner. destruct Gi as (G1 & G2).
  assert (PP : forall j, puts_pub j k = (j =? o)) by (intro j; unfold puts_pub; rewrite D, PK; reflexivity).
  destruct (k_iana k) as [i|] eqn:I.
  2:{ cbn [snd]. constructor; cbn [r_all r_sign r_pub].
      - intro i. rewrite LA. unfold puts_all. rewrite D, PK, I. reflexivity.
      - intro s. rewrite LS. unfold puts_sign. rewrite D, PK, I. reflexivity.
      - intro j. rewrite Gp. destruct (N.eqb_spec j o) as [->|E]; [|apply K; rewrite PP; apply N.eqb_neq; exact E].
        rewrite LE, LD, PP, N.eqb_refl, app_nil_r, Bool.orb_true_r. split; [reflexivity|]. split; [exact G1|].
        intro i. rewrite LI. unfold puts_inner at 1. rewrite I, Bool.andb_false_r. apply G2. }
  assert (FP : forall j, match dget j (dset o (dset i k inner) pub) with
                    | None => existsb (puts_pub j) (ks ++ [k]) = false
                    | Some d => existsb (puts_pub j) (ks ++ [k]) = true /\ map fst d = firsts [] (ids_of j (ks ++ [k])) /\
                                forall n, dget n d = last_of (puts_inner j n) (ks ++ [k])
                    end).
  { intro j. rewrite dget_dset, Gp. destruct (N.eqb_spec j o) as [->|E]; [|apply K; rewrite PP; apply N.eqb_neq; exact E].
    rewrite LE, LD, PP, N.eqb_refl, Bool.orb_true_r. split; [reflexivity|]. split.
    - rewrite dset_keys, firsts_app, G1. cbn [memN existsb orb]. unfold memN. destruct (existsb (N.eqb i) (firsts [] (ids_of o ks))); [rewrite app_nil_r|]; reflexivity.
    - intro n. rewrite dget_dset, LI, G2. replace (puts_inner o n k) with (n =? i); [reflexivity|]. unfold puts_inner. rewrite PP, N.eqb_refl, I. reflexivity. }
  assert (FA : forall j, dget j (dset i k (r_all r)) = last_of (puts_all j) (ks ++ [k]))
    by (intro j; rewrite dget_dset, LA; unfold puts_all; rewrite D, PK, I; reflexivity).
  destruct (k_sign k) as [s|] eqn:SG; cbn [snd]; constructor; cbn [r_all r_sign r_pub]; try assumption.
  - intro t. rewrite dget_dset, LS. unfold puts_sign. rewrite D, PK, I, SG. reflexivity.
  - intro t. rewrite LS. unfold puts_sign. rewrite D, PK, I, SG. reflexivity.
Qed.
Lemma inv_declare ks : inv ks (declare ks).
Proof.
  unfold declare, declare_from. induction ks as [|k ks IH] using rev_ind; [constructor; reflexivity|]. rewrite fold_left_app. apply (inv_step _ _ k IH).
Qed.

Lemma by_id ks i : get_suite i (declare ks) = or_key (last_of (puts_all i) ks).
Proof. unfold get_suite. rewrite (i_all _ _ (inv_declare ks)). reflexivity. Qed.
Lemma by_sign ks s : get_by_sign s (declare ks) = or_key (last_of (puts_sign s) ks).
Proof. unfold get_by_sign. rewrite (i_sign _ _ (inv_declare ks)). reflexivity. Qed.
Lemma by_pubkey ks o : match get_by_pubkey o (declare ks) with
  | Ok d => existsb (puts_pub o) ks = true /\ map fst d = firsts [] (ids_of o ks) /\ forall i, dget i d = last_of (puts_inner o i) ks
  | Err e => e = XKey /\ existsb (puts_pub o) ks = false
  end.
Proof. unfold get_by_pubkey. pose proof (i_pub _ _ (inv_declare ks) o) as H. destruct (dget o (r_pub (declare ks))); cbn [or_key]; auto. Qed.

(* --- further classes ------------------------------------------------------- *)
Lemma last_none f ks : existsb f ks = false -> last_of f ks = None.
Proof.
  induction ks as [|k ks IH]; intro H; [reflexivity|]. cbn [existsb] in H. apply Bool.orb_false_iff in H as [H1 H2]. cbn [last_of]. rewrite (IH H2), H1. reflexivity.
Qed.
Lemma more_classes ks more :
  (forall i, existsb (puts_all i) more = false -> get_suite i (declare (ks ++ more)) = get_suite i (declare ks)) /\
  (forall s, existsb (puts_sign s) more = false -> get_by_sign s (declare (ks ++ more)) = get_by_sign s (declare ks)).
Proof.
  split; [intros i H; rewrite !by_id | intros s H; rewrite !by_sign]; rewrite last_app, (last_none _ _ H); reflexivity.
Qed.
Lemma reached ks k i s : k_direct k = true -> k_iana k = Some i -> k_sign k = Some s -> k_pubkey k <> None -> forall before after, ks = before ++ k :: after ->
  (existsb (puts_all i) after = false -> get_suite i (declare ks) = Ok k) /\
  (existsb (puts_sign s) after = false -> get_by_sign s (declare ks) = Ok k) /\
  (existsb (puts_sign s) after = true -> ~ In k after -> get_by_sign s (declare ks) <> Ok k).
Proof.
  intros D I S P before after ->. assert (G : given (k_pubkey k) = true) by (destruct (k_pubkey k); [reflexivity | congruence]). rewrite by_id, by_sign.
  rewrite !last_app. cbn [last_of]. split; [|split].
  - intro H. rewrite (last_none _ _ H). unfold puts_all. rewrite D, G, I. cbn [is_some andb]. rewrite N.eqb_refl. reflexivity.
  - intro H. rewrite (last_none _ _ H). unfold puts_sign. rewrite D, G, I, S. cbn [is_some given andb]. rewrite N.eqb_refl. reflexivity.
  - intros H N. assert (L : forall l, existsb (puts_sign s) l = true -> exists j, last_of (puts_sign s) l = Some j /\ In j l).
    { clear. induction l as [|x l IH]; cbn [existsb last_of]; [discriminate|]. intro H. destruct (existsb (puts_sign s) l) eqn:E.
      - destruct (IH eq_refl) as (j & -> & J). exists j. split; [reflexivity | right; exact J].
      - rewrite (last_none _ _ E). rewrite Bool.orb_false_r in H. rewrite H. exists x. split; [reflexivity | left; reflexivity]. }
    destruct (L _ H) as (j & -> & J). cbn [or_key]. intro E. injection E; intros ->. contradiction.
Qed.

(* --- the module -------------------------------------------------------------- *)
Lemma tables :
  map fst (r_all (declare shipped)) = signature_suites /\
  (forall o, from_signature_oid o = let* k := get_by_sign o (declare shipped) in Ok (k_name k)) /\
  (forall o, for_public_key_oid o = let* d := get_by_pubkey o (declare shipped) in Ok (map fst d)) /\
  (forall i, memN i signature_suites = match get_suite i (declare shipped) with Ok k => i =? k_name k | Err _ => false end).
Proof.
  let r := eval vm_compute in (declare shipped) in replace (declare shipped) with r by (vm_compute; reflexivity).
  split; [reflexivity|]. split; [|split]; intro o.
  - cbv [from_signature_oid get_by_sign SO_RSA_SHA256 SO_RSA_SHA384 SO_RSA_SHA512 SO_RSASSA_PSS SO_ECDSA_SHA256 SO_ECDSA_SHA384 SO_ECDSA_SHA512 SO_ED25519 SO_ED448].
    cbn [dget r_sign]. repeat match goal with |- context [o =? ?k] => destruct (o =? k); [reflexivity|] end. reflexivity.
  - cbv [for_public_key_oid get_by_pubkey PK_RSAES_PKCS1 PK_RSASSA_PSS PK_EC PK_ED25519 PK_ED448].
    cbn [dget r_pub]. repeat match goal with |- context [o =? ?k] => destruct (o =? k); [reflexivity|] end. reflexivity.
  - let l := eval vm_compute in signature_suites in change signature_suites with l. unfold memN, get_suite. cbn [dget r_all existsb].
    repeat match goal with |- context [o =? ?k] => destruct (N.eqb_spec o k) as [->|?]; [reflexivity|]; cbn [orb] end. reflexivity.
Qed.
