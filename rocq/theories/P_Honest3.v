From Verif Require Import Base Iana Crypto Config Ext Msg Cipher Kex Sig Ocsp Transcript Conn S_Hist S_Codec S_Honest P_Base P_Serial P_Codec.

(* the messages of the library fit in their fields *)
Lemma to_bytes_fits n v : v < 256 ^ N.of_nat n -> exists b, to_bytes n v = Ok b /\ blen b = N.of_nat n.
Proof. intro L. unfold to_bytes. apply N.ltb_lt in L. rewrite L. eexists. split; [reflexivity|]. apply blen_be_bytes. Qed.
Lemma put_var_fits n b : blen b < 256 ^ N.of_nat n -> exists r, put_var n b = Ok r /\ blen r = N.of_nat n + blen b.
Proof.
  intro L. destruct (to_bytes_fits n _ L) as (l & E & Ll). unfold put_var. rewrite E. eexists. split; [reflexivity|]. rewrite blen_app, Ll. reflexivity.
Qed.
(* the items take at most [n] bytes *)
Definition fits {A} (f : A -> res bytes) (l : list A) (n : N) : Prop := exists b, join_map f l = Ok b /\ blen b <= n.
Lemma fits_nil {A} (f : A -> res bytes) : fits f [] 0.
Proof. exists []. split; [reflexivity | unfold blen; cbn [length]; lia]. Qed.
Lemma fits_cons {A} (f : A -> res bytes) x l n m b : f x = Ok b -> blen b <= n -> fits f l m -> fits f (x :: l) (n + m).
Proof.
  intros E L (r & Er & Lr). exists (b ++ r). cbn [join_map]. rewrite E. cbn [rbind]. rewrite Er. cbn [rbind]. split; [reflexivity|].
  rewrite blen_app. lia.
Qed.
Lemma fits_app {A} (f : A -> res bytes) l1 l2 n m : fits f l1 n -> fits f l2 m -> fits f (l1 ++ l2) (n + m).
Proof.
  intros (b & E & L) (r & Er & Lr). exists (b ++ r). split; [|rewrite blen_app; lia].
  revert b E L. induction l1 as [|x l1 IH]; intros b E L.
  - cbn in E. injection E; intros <-. exact Er.
  - cbn [join_map] in E. apply rbind_ok in E as (b1 & E1 & E). apply rbind_ok in E as (b2 & E2 & E). injection E; intros <-.
    cbn [join_map app]. rewrite E1. cbn [rbind]. rewrite (IH b2 E2) by (rewrite blen_app in L; lia). cbn [rbind].
    rewrite app_assoc. reflexivity.
Qed.
Lemma fits_le {A} (f : A -> res bytes) l n m : fits f l n -> n <= m -> fits f l m.
Proof. intros (b & E & L) H. exists b. split; [exact E | lia]. Qed.

Lemma ints_fit n k l m : Forall (fun x => x < 256 ^ N.of_nat k) l -> (length l <= m)%nat ->
  N.of_nat m * N.of_nat k < 256 ^ N.of_nat n ->
  exists b, put_ints n k l = Ok b /\ blen b <= N.of_nat n + N.of_nat m * N.of_nat k.
Proof.
  intros F L Lm. unfold put_ints.
  assert (L' : N.of_nat (length l) * N.of_nat k <= N.of_nat m * N.of_nat k) by (apply N.mul_le_mono_r; lia).
  destruct (to_bytes_fits n (N.of_nat (length l) * N.of_nat k) ltac:(lia)) as (a & -> & La). cbn [rbind].
  assert (J : exists b, join_map (to_bytes k) l = Ok b /\ blen b = N.of_nat (length l) * N.of_nat k).
  { clear L Lm L' a La. induction F as [|x l Hx F IH]; [exists []; split; reflexivity|].
    destruct IH as (b & E & Lb). destruct (to_bytes_fits k x Hx) as (a & Ea & La).
    exists (a ++ b). cbn [join_map]. rewrite Ea. cbn [rbind]. rewrite E. split; [reflexivity|]. rewrite blen_app, La, Lb. cbn [length].
    rewrite Nat2N.inj_succ, N.mul_succ_l. lia. }
  destruct J as (b & -> & Lb). cbn [rbind]. eexists. split; [reflexivity|]. rewrite blen_app, La, Lb. lia.
Qed.
(* one extension *)
Lemma ext_fits C e n b : ser_ext_body C e = Ok b -> blen b <= n -> n < 65536 -> ext_type e < 65536 -> fits (ser_ext C) [e] (n + 4).
Proof.
  intros E L Ln Lt. destruct (to_bytes_fits 2 (ext_type e) Lt) as (t & Et & Ltt).
  destruct (put_var_fits 2 b) as (d & Ed & Ld); [change (256 ^ N.of_nat 2) with 65536; lia|].
  rewrite <- (N.add_0_r (n + 4)). eapply fits_cons; [|shelve|apply fits_nil]. 
  unfold ser_ext. rewrite E. cbn [rbind]. rewrite Et. cbn [rbind]. rewrite Ed. reflexivity.
  Unshelve. rewrite blen_app, Ltt, Ld. change (N.of_nat 2) with 2. lia.
Qed.
Lemma names_fit l : Forall (fun p => blen p <= 255) l -> fits (put_var 1) l (names_size l).
Proof.
  induction 1 as [|p l Hp F IH]; [apply fits_nil|]. cbn [names_size fold_right]. fold (names_size l).
  destruct (put_var_fits 1 p) as (b & E & L); [change (256 ^ N.of_nat 1) with 256; lia|].
  eapply fits_cons; [exact E | rewrite L; change (N.of_nat 1) with 1; lia | exact IH].
Qed.

Lemma one_ext_fits C e n : (exists b, ser_ext_body C e = Ok b /\ blen b <= n) -> n < 65536 -> ext_type e < 65536 ->
  fits (ser_ext C) [e] (n + 4).
Proof. intros (b & E & L). apply (ext_fits C e n b E L). Qed.

Lemma client_extensions_fit C gc host group share :
  code_points (g_groups gc) -> code_points (g_sigalgs gc) ->
  Forall (fun p => blen p <= 255) (g_alpn gc) -> names_size (g_alpn gc) <= 10000 ->
  host_fine C host -> match host with Some h => str_len h <= 1000 | None => True end ->
  g_public gc = None -> g_trusted_keys gc = [] -> group < 65536 -> blen share <= 2048 ->
  fits (ser_ext C) (client_extensions C gc host None (group, share)) 20000.
Proof.
  intros [Lg Fg] [Ls Fs] Fa La Hh Lh Hp Ht Lgr Lsh. unfold client_extensions. rewrite Hp, Ht.
  change (opt_bool (@None bytes)) with false. change (is_nil (@nil bytes)) with true. cbv iota. cbn [app].
  eapply fits_le.
  - apply (fits_app (ser_ext C) [_; _; _; _] _ 4100).
    + eapply fits_le; [apply (fits_app (ser_ext C) [_] [_; _; _] 10)|].
      * eapply fits_le; [apply (one_ext_fits C _ 6); [exists [x02; x03; x04]; split; [reflexivity | vm_compute; discriminate] | reflexivity | reflexivity] | vm_compute; discriminate].
      * apply (fits_app (ser_ext C) [_] [_; _] 2006).
        -- change 2006 with (2002 + 4). apply one_ext_fits; [|reflexivity | reflexivity]. exact (ints_fit 2 2 _ 1000 Fs Ls eq_refl).
        -- apply (fits_app (ser_ext C) [_] [_] 2006).
           ++ change 2006 with (2002 + 4). apply one_ext_fits; [|reflexivity | reflexivity]. exact (ints_fit 2 2 _ 1000 Fg Lg eq_refl).
           ++ apply (one_ext_fits C _ 1); [|reflexivity | reflexivity]. cbn [ser_ext_body].
              destruct (g_echo gc); eexists; (split; [reflexivity | vm_compute; discriminate]).
      * vm_compute; discriminate.
    + apply (fits_app (ser_ext C) _ _ 1009).
      * destruct host as [[|x h]|]; try (eapply fits_le; [apply fits_nil | lia]). destruct (cr_is_ip C (x :: h)) eqn:Ei; [eapply fits_le; [apply fits_nil | lia]|].
        destruct (Hh ltac:(discriminate) Ei) as (b & Eb & _ & Lb).
        eapply fits_le; [apply (one_ext_fits C _ 1005)|]; [|reflexivity | reflexivity | lia].
        cbn [ser_ext_body]. unfold put_host_name. change (to_bytes 1 0) with (@Ok bytes [x00]). cbn [rbind].
        destruct (to_bytes_fits 2 (str_len (x :: h))) as (a & -> & Lla); [change (256 ^ N.of_nat 2) with 65536; lia|]. cbn [rbind]. rewrite Eb. cbn [rbind].
        destruct (put_var_fits 2 ([x00] ++ a ++ b)) as (r & -> & Lr).
        { rewrite !blen_app, Lla. change (blen [x00]) with 1. change (256 ^ N.of_nat 2) with 65536. change (N.of_nat 2) with 2. lia. }
        eexists. split; [reflexivity|]. rewrite Lr, !blen_app, Lla. change (blen [x00]) with 1. change (N.of_nat 2) with 2. lia.
      * apply (fits_app (ser_ext C) _ _ 10006).
        -- destruct (is_nil (g_alpn gc)); [eapply fits_le; [apply fits_nil | lia]|].
           eapply fits_le; [apply (one_ext_fits C _ 10002)|]; [|reflexivity | reflexivity | lia].
           cbn [ser_ext_body]. destruct (names_fit _ Fa) as (b & -> & Lb). cbn [rbind].
           destruct (put_var_fits 2 b) as (r & -> & Lr); [change (256 ^ N.of_nat 2) with 65536; lia|].
           eexists. split; [reflexivity|]. rewrite Lr. change (N.of_nat 2) with 2. lia.
        -- apply (fits_app (ser_ext C) _ _ 9).
           ++ destruct (opt_bool (g_trust gc)); [|eapply fits_le; [apply fits_nil | lia]].
              apply (one_ext_fits C _ 5); [|reflexivity | reflexivity]. eexists. split; [reflexivity | vm_compute; discriminate].
           ++ apply (one_ext_fits C _ 2054); [|reflexivity | reflexivity]. cbn [ser_ext_body join_map fst snd].
              destruct (to_bytes_fits 2 group Lgr) as (a & -> & Lla). cbn [rbind].
              destruct (put_var_fits 2 share) as (k & -> & Lk); [change (256 ^ N.of_nat 2) with 65536; lia|]. cbn [rbind].
              destruct (put_var_fits 2 ((a ++ k) ++ [])) as (r & -> & Lr).
              { rewrite app_nil_r, blen_app, Lla, Lk. change (256 ^ N.of_nat 2) with 65536. change (N.of_nat 2) with 2. lia. }
              eexists. split; [reflexivity|]. rewrite Lr, app_nil_r, blen_app, Lla, Lk. change (N.of_nat 2) with 2. lia.
  - vm_compute; discriminate.
Qed.

(* whole messages *)
Lemma hs_fits C h ty b n : ser_hs_body C h = Ok b -> msg_type h = Some ty -> ty < 256 -> blen b <= n -> n < 16777216 ->
  exists data, ser_content C (KHandshake h) = Ok data /\ blen data <= n + 4.
Proof.
  intros E Et Lt L Ln. unfold ser_content, ser_hs. rewrite E. cbn [rbind]. rewrite Et.
  destruct (to_bytes_fits 1 ty) as (t & -> & Ltt); [exact Lt|]. cbn [rbind].
  destruct (put_var_fits 3 b) as (d & -> & Ld); [change (256 ^ N.of_nat 3) with 16777216; lia|].
  eexists. split; [reflexivity|]. rewrite blen_app, Ltt, Ld. change (N.of_nat 1) with 1. change (N.of_nat 3) with 3. lia.
Qed.
Lemma client_hello_fits C random suites exts : blen random = 32 -> (length suites <= 1000)%nat -> Forall (fun x => x < 65536) suites ->
  fits (ser_ext C) exts 20000 -> exists data, ser_content C (KHandshake (HClientHello random [] suites exts)) = Ok data.
Proof.
  intros Lr Ls Fs (x & Ex & Lx).
  destruct (ints_fit 2 2 suites 1000 Fs Ls eq_refl) as (c & Ec & Lc).
  destruct (put_var_fits 2 x) as (e & Ee & Le); [change (256 ^ N.of_nat 2) with 65536; lia|].
  assert (X : exists b, ser_hs_body C (HClientHello random [] suites exts) = Ok b /\ blen b <= 23000).
  { cbn [ser_hs_body]. rewrite Ex. cbn [rbind]. change (to_bytes 2 TLS_1_2) with (@Ok bytes [x03; x03]). cbn [rbind].
    change (put_var 1 []) with (@Ok bytes [x00]). cbn [rbind]. rewrite Ec. cbn [rbind]. change (put_var 1 [x00]) with (@Ok bytes [x01; x00]). cbn [rbind].
    rewrite Ee. cbn [rbind]. eexists. split; [reflexivity|]. rewrite !blen_app, Lr, Le. change (blen [x03; x03]) with 2. change (blen [x00]) with 1. change (blen [x01; x00]) with 2.
    change (N.of_nat 2) with 2 in *. change (N.of_nat 1000) with 1000 in Lc. lia. }
  destruct X as (b & E & L). destruct (hs_fits C _ CLIENT_HELLO b 23000 E eq_refl eq_refl L eq_refl) as (data & D & _). exists data. exact D.
Qed.
Lemma server_hello_fits C random suite group share : blen random = 32 -> suite < 65536 -> group < 65536 -> blen share <= 2048 ->
  exists data, ser_content C (KHandshake (HServerHello false random [] suite [ESupVersionsResp TLS_1_3; EKeyShareResp group share])) = Ok data /\ blen data <= 4096.
Proof.
  intros Lr Ls Lg Lsh.
  assert (F : fits (ser_ext C) [ESupVersionsResp TLS_1_3; EKeyShareResp group share] (6 + 2056)).
  { apply (fits_app (ser_ext C) [_] [_]).
    - apply (one_ext_fits C _ 2); [|reflexivity | reflexivity]. eexists. split; [reflexivity | vm_compute; discriminate].
    - apply (one_ext_fits C _ 2052); [|reflexivity | reflexivity]. cbn [ser_ext_body].
      destruct (to_bytes_fits 2 group Lg) as (a & -> & Lla). cbn [rbind].
      destruct (put_var_fits 2 share) as (k & -> & Lk); [change (256 ^ N.of_nat 2) with 65536; lia|]. cbn [rbind].
      eexists. split; [reflexivity|]. rewrite blen_app, Lla, Lk. change (N.of_nat 2) with 2. lia. }
  destruct F as (x & Ex & Lx).
  destruct (put_var_fits 2 x) as (e & Ee & Le); [change (256 ^ N.of_nat 2) with 65536; lia|].
  destruct (to_bytes_fits 2 suite Ls) as (c & Ec & Lc).
  assert (X : exists b, ser_hs_body C (HServerHello false random [] suite [ESupVersionsResp TLS_1_3; EKeyShareResp group share]) = Ok b /\ blen b <= 3000).
  { cbn [ser_hs_body]. rewrite Ex. cbn [rbind]. change (to_bytes 2 TLS_1_2) with (@Ok bytes [x03; x03]). cbn [rbind].
    change (put_var 1 []) with (@Ok bytes [x00]). cbn [rbind]. rewrite Ec. cbn [rbind]. change (to_bytes 1 0) with (@Ok bytes [x00]). cbn [rbind].
    rewrite Ee. cbn [rbind]. eexists. split; [reflexivity|]. rewrite !blen_app, Lr, Le, Lc. change (blen [x03; x03]) with 2. change (blen [x00]) with 1.
    change (N.of_nat 2) with 2 in *. lia. }
  destruct X as (b & E & L). destruct (hs_fits C _ SERVER_HELLO b 3000 E eq_refl eq_refl L eq_refl) as (data & D & Ld). exists data. split; [exact D | lia].
Qed.
(* EncryptedExtensions: an application protocol or not, the heartbeat mode *)
Lemma enc_exts_fit C alpn m : match alpn with Some p => blen p <= 255 | None => True end -> m < 256 ->
  exists data, ser_content C (KHandshake (HEncExt (match alpn with Some p => [EAlpn [p]] | None => [] end ++ [EHeartbeat m]))) = Ok data /\ blen data <= 300.
Proof.
  intros La Lm.
  assert (F : fits (ser_ext C) (match alpn with Some p => [EAlpn [p]] | None => [] end ++ [EHeartbeat m]) (262 + 5)).
  { apply fits_app.
    - destruct alpn as [p|]; [|eapply fits_le; [apply fits_nil | lia]]. apply (one_ext_fits C _ 258); [|reflexivity | reflexivity].
      cbn [ser_ext_body join_map]. destruct (put_var_fits 1 p) as (a & -> & Lla); [change (256 ^ N.of_nat 1) with 256; lia|]. cbn [rbind].
      destruct (put_var_fits 2 (a ++ [])) as (k & -> & Lk); [rewrite app_nil_r, Lla; change (256 ^ N.of_nat 2) with 65536; change (N.of_nat 1) with 1; lia|].
      eexists. split; [reflexivity|]. rewrite Lk, app_nil_r, Lla. change (N.of_nat 2) with 2. change (N.of_nat 1) with 1. lia.
    - apply (one_ext_fits C _ 1); [|reflexivity | reflexivity]. cbn [ser_ext_body]. destruct (to_bytes_fits 1 m Lm) as (a & -> & Lla).
      eexists. split; [reflexivity|]. rewrite Lla. change (N.of_nat 1) with 1. lia. }
  destruct F as (x & Ex & Lx). destruct (put_var_fits 2 x) as (e & Ee & Le); [change (256 ^ N.of_nat 2) with 65536; lia|].
  apply (hs_fits C _ ENCRYPTED_EXTENSIONS e 296); [|reflexivity | reflexivity | rewrite Le; change (N.of_nat 2) with 2; lia | reflexivity].
  cbn [ser_hs_body]. unfold ser_exts. rewrite Ex. exact Ee.
Qed.
(* Certificate: the chain, an OCSP answer on the leaf *)
Definition leaf_exts (st : option bytes) : list ext := match st with Some der => [EOcspStatus der] | None => [] end.
Definition entries_of (leaf : bytes) (rest : list bytes) (st : option bytes) : list centry :=
  mkEntry CT_X509 leaf (leaf_exts st) :: map (fun cert => mkEntry CT_X509 cert []) rest.
Lemma entry_fits C ct d x n : blen d < 16777216 -> fits (ser_ext C) x n -> n < 65536 ->
  exists b, ser_entry C (mkEntry ct d x) = Ok b /\ blen b <= blen d + 5 + n.
Proof.
  intros Ld (e & Ee & Le) Ln. unfold ser_entry. cbn [en_exts en_data]. rewrite Ee. cbn [rbind].
  destruct (put_var_fits 3 d) as (a & -> & La); [exact Ld|]. cbn [rbind].
  destruct (put_var_fits 2 e) as (b & -> & Lb); [change (256 ^ N.of_nat 2) with 65536; lia|]. cbn [rbind].
  eexists. split; [reflexivity|]. rewrite blen_app, La, Lb. change (N.of_nat 3) with 3. change (N.of_nat 2) with 2. lia.
Qed.
Lemma certificate_fits C leaf rest st : chain_size (leaf :: rest) + match st with Some der => blen der | None => 0 end <= 16350 ->
  exists data, ser_content C (KHandshake (HCert [] (entries_of leaf rest st))) = Ok data /\ blen data <= 16366.
Proof.
  intro L. cbn [chain_size fold_right] in L. fold (chain_size rest) in L. set (sz := match st with Some der => blen der | None => 0 end) in *.
  assert (F1 : fits (ser_ext C) (leaf_exts st) (sz + 8)).
  { unfold sz, leaf_exts. destruct st as [der|]; [|eapply fits_le; [apply fits_nil | lia]]. replace (blen der + 8) with (blen der + 4 + 4) by lia.
    apply one_ext_fits; [| lia | reflexivity]. cbn [ser_ext_body]. change (to_bytes 1 STATUS_OCSP) with (@Ok bytes [x01]). cbn [rbind].
    destruct (put_var_fits 3 der) as (a & -> & La); [change (256 ^ N.of_nat 3) with 16777216; lia|]. cbn [rbind].
    eexists. split; [reflexivity|]. rewrite blen_app, La. change (blen [x01]) with 1. change (N.of_nat 3) with 3. lia. }
  assert (F2 : fits (ser_entry C) (map (fun cert => mkEntry CT_X509 cert []) rest) (chain_size rest)).
  { assert (Lr : chain_size rest < 16777216) by lia. clear - Lr. induction rest as [|c rest IH]; [apply fits_nil|].
    cbn [chain_size fold_right] in *. fold (chain_size rest) in *. cbn [map].
    destruct (entry_fits C CT_X509 c [] 0) as (b & E & Lb); [lia | apply fits_nil | reflexivity|].
    eapply fits_cons; [exact E | rewrite N.add_0_r in Lb; exact Lb | apply IH; lia]. }
  destruct (entry_fits C CT_X509 leaf (leaf_exts st) (sz + 8)) as (b & E & Lb); [lia | exact F1 | lia|].
  destruct (fits_cons _ _ _ _ _ _ E Lb F2) as (x & Ex & Lx).
  destruct (put_var_fits 3 x) as (e & Ee & Le); [change (256 ^ N.of_nat 3) with 16777216; lia|].
  apply (hs_fits C _ CERTIFICATE ([x00] ++ e) 16362); [|reflexivity | reflexivity | rewrite blen_app, Le; change (blen [x00]) with 1; change (N.of_nat 3) with 3; lia | reflexivity].
  cbn [ser_hs_body]. unfold entries_of. rewrite Ex. cbn [rbind]. change (put_var 1 []) with (@Ok bytes [x00]). cbn [rbind]. rewrite Ee. reflexivity.
Qed.
Lemma cert_verify_fits C sg sig : sg < 65536 -> blen sig <= 8192 ->
  exists data, ser_content C (KHandshake (HCertVerify sg sig)) = Ok data /\ blen data <= 8200.
Proof.
  intros Ls L. destruct (to_bytes_fits 2 sg Ls) as (a & Ea & La). destruct (put_var_fits 2 sig) as (e & Ee & Le); [change (256 ^ N.of_nat 2) with 65536; lia|].
  apply (hs_fits C _ CERTIFICATE_VERIFY (a ++ e) 8196); [|reflexivity | reflexivity | rewrite blen_app, La, Le; change (N.of_nat 2) with 2; lia | reflexivity].
  cbn [ser_hs_body]. rewrite Ea. cbn [rbind]. rewrite Ee. reflexivity.
Qed.
Lemma finished_fits C v : blen v <= 64 -> exists data, ser_content C (KHandshake (HFinished v)) = Ok data /\ blen data <= 68.
Proof. intro L. apply (hs_fits C _ FINISHED v 64); [reflexivity | reflexivity | reflexivity | exact L | reflexivity]. Qed.
