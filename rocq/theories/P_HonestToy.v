(* toy endpoints that should understand each other *)
From Verif Require Import Base Iana Crypto Config Serial Ext Msg Cipher Kex Sig Ocsp Conn Toy P_Base P_Toy S_Utils S_Hist S_Conn S_Keys S_Codec S_Server S_Deliver S_Honest.

Definition toy_gc (suites groups : list N) (mfl : N) : config :=
  mkConfig Client suites groups [ed25519; ed448] (Some 1) None 5 [] None None None
    mfl true [ascii_bytes "h2"%string; ascii_bytes "http/1.1"%string] [].
Definition toy_gs (suites groups : list N) : config :=
  mkConfig Server suites groups [ed25519; ed448] None None 5 []
    (Some toy_cert) None (Some [toy_cert]) 16384 true
    [ascii_bytes "http/1.1"%string; ascii_bytes "h2"%string] [].
Definition toy_c (g : config) : conn := get_ok (new_conn false g (Some (ascii_bytes "example.org"%string)) false (toy_rng 1 100) (toy_rng 1)).
Definition toy_s (g : config) : conn := get_ok (new_conn false g None false (toy_rng 2 100) (toy_rng 2)).

Lemma toy_honest : honest_crypto toy.
Proof. constructor; [exact toy_aead_correct | exact toy_aead_sized | exact toy_hmac_sized | exact toy_hash_sized]. Qed.

Lemma xor_comm : forall a b, xor_bytes a b = xor_bytes b a.
Proof. induction a as [|x a IH]; destruct b as [|y b]; try reflexivity. cbn [xor_bytes]. rewrite N.lxor_comm, IH. reflexivity. Qed.
Lemma toy_rng_size seed i : length (toy_rng seed i) = 32%nat.
Proof. apply length_be_bytes. Qed.
Lemma toy_dh group i j : In group [x25519; secp256r1] -> dh_agrees toy group (toy_rng 1 i) (toy_rng 2 j).
Proof.
  intro Ig. pose proof (toy_rng_size 1 i) as La. pose proof (toy_rng_size 2 j) as Lb.
  exists (toy_rng 1 i), (toy_rng 2 j), (xor_bytes (toy_rng 1 i) (toy_rng 2 j)). generalize dependent (toy_rng 1 i). generalize dependent (toy_rng 2 j). intros b Lb a La.
  destruct a as [|x a]; [discriminate|]. destruct b as [|y b]; [discriminate|].
  assert (L : forall l : bytes, length l = 32%nat -> blen l <= 2048) by (intros l E; unfold blen; rewrite E; lia).
  unfold kx_init, kx_resume. cbn [In] in Ig. destruct Ig as [<-|[<-|[]]]; (repeat split; [rewrite xor_comm; reflexivity | discriminate | apply L; exact La | apply L; exact Lb]).
Qed.
Lemma toy_key sg : key_of_cert toy sg toy_cert toy_cert.
Proof.
  intro m. exists (toy_hash SHA256 (be_bytes 2 sg ++ toy_cert ++ m)). split; [reflexivity|]. split.
  - unfold blen, toy_hash. rewrite length_be_bytes. vm_compute. discriminate.
  - cbn [toy cr_sig_verify cr_cert_pubkey]. rewrite (proj2 (beqb_eq _ _) eq_refl). reflexivity.
Qed.

Lemma toy_compatible suites suites' groups groups' mfl suite group :
  created (toy_gc suites groups mfl) (toy_c (toy_gc suites groups mfl)) -> created (toy_gs suites' groups') (toy_s (toy_gs suites' groups')) ->
  c_cunique (toy_c (toy_gc suites groups mfl)) = Some (toy_rng 1 100) -> c_sunique (toy_s (toy_gs suites' groups')) = Some (toy_rng 2 100) ->
  c_rng (toy_c (toy_gc suites groups mfl)) = toy_rng 1 -> c_rng (toy_s (toy_gs suites' groups')) = toy_rng 2 ->
  c_ocsp (toy_s (toy_gs suites' groups')) = false -> c_host (toy_c (toy_gc suites groups mfl)) = Some (ascii_bytes "example.org"%string) ->
  (length suites <= 1000)%nat -> code_points groups ->
  prefers (fun x => In x suites) suites' suite -> prefers (fun x => In x groups) groups' group -> In group [x25519; secp256r1] ->
  compatible toy (toy_gc suites groups mfl) (toy_gs suites' groups') (toy_c (toy_gc suites groups mfl)) (toy_s (toy_gs suites' groups')).
Proof.
  intros Cc Cs Uc Us Rc Rs Os Hc Ls Lg Ps Pg Ig. constructor.
  - split; reflexivity.
  - split; assumption.
  - split; [exists (toy_rng 1 100); split; [exact Uc | vm_compute; reflexivity]|].
    exists (toy_rng 2 100). split; [exact Us|]. split; [vm_compute; reflexivity | discriminate].
  - split; [exact Ls|]. split; [exact Lg|]. split; [cbn; lia|]. repeat constructor.
  - exists suite. exact Ps.
  - exists group. split; [exact Pg|]. intros i j. rewrite Rc, Rs. apply toy_dh. exact Ig.
  - repeat split.
  - exists toy_cert, [], toy_cert, None. split; [reflexivity|]. split; [reflexivity|]. split; [repeat constructor|]. split.
    + exists ed25519. split; [|apply toy_key]. exists [], [ed448]. split; [reflexivity|]. split; [cbn; auto | intros y []].
    + split; [apply st_off; rewrite Os; auto|]. split; [vm_compute; discriminate|]. intros _. split; [reflexivity|]. split.
      * eexists. vm_compute. reflexivity.
      * intros pre e i post E. exfalso. apply (f_equal (@length bytes)) in E. rewrite app_length in E. cbn in E. lia.
  - split; [|split; [vm_compute; discriminate | right; right; exists (ascii_bytes "h2"%string); cbn; auto]].
    repeat constructor; vm_compute; discriminate.
  - rewrite Hc. split; [|vm_compute; discriminate]. intros _ _. exists (ascii_bytes "example.org"%string). repeat split.
Qed.

(* --- two endpoints with nothing left to say ------------------------------- *)
Definition connected_b (c : conn) : bool := match c_state c with Connected => true | _ => false end.
Definition round_fails (w : conn * conn) : bool := negb (connected_b (fst w)) && negb (connected_b (snd w)).
Fixpoint stuck (C : crypto) (k : nat) (w : conn * conn) : bool :=
  round_fails w && match k with
                   | O => is_nil (c_out (fst w)) && is_nil (c_out (snd w))
                   | S k' => stuck C k' (round C w)
                   end.
Lemma round_quiet C w : c_out (fst w) = [] -> c_out (snd w) = [] -> round C w = w.
Proof.
  destruct w as [c s]. cbn [fst snd]. intros Ec Es. unfold round. 
  assert (F : forall x, c_out x = [] -> returned C OFlush x = [] /\ after C OFlush x = x).
  { intros x E. split; [exact E|]. unfold after, step. change (snd (data_to_send x)) with (cset_out [] x). rewrite <- E. destruct x; reflexivity. }
  destruct (F c Ec) as [-> ->]. change (give C [] s) with s. destruct (F s Es) as [-> ->]. reflexivity.
Qed.
Lemma iter_shift {A} (f : A -> A) n x : Nat.iter (S n) f x = Nat.iter n f (f x).
Proof. induction n as [|n IH]; [reflexivity|]. cbn [Nat.iter nat_rect]. unfold Nat.iter in IH. cbn [nat_rect] in IH. rewrite <- IH. reflexivity. Qed.
Lemma stuck_never C k : forall w, stuck C k w = true -> forall n, round_fails (Nat.iter n (round C) w) = true.
Proof.
  induction k as [|k IH]; intros w H n.
  - cbn [stuck] in H. apply andb_true_iff in H as [H1 H2]. apply andb_true_iff in H2 as [H2 H3].
    assert (E : round C w = w) by (apply round_quiet; [destruct (c_out (fst w)) | destruct (c_out (snd w))]; (reflexivity || discriminate)).
    induction n as [|n IHn]; [exact H1|]. rewrite iter_shift, E. exact IHn.
  - cbn [stuck] in H. apply andb_true_iff in H as [H1 H2]. destruct n as [|n]; [exact H1|]. rewrite iter_shift. apply IH. exact H2.
Qed.
Lemma stuck_pump C k c s : stuck C k (after C OInit c, after C OInit s) = true -> never_connected C c s.
Proof.
  intros H n. pose proof (stuck_never C k _ H n) as X. fold (pump C n c s) in X. unfold round_fails in X.
  apply andb_true_iff in X as [X1 X2]. unfold connected_b in *. split; [intro E; rewrite E in X1 | intro E; rewrite E in X2]; discriminate.
Qed.
