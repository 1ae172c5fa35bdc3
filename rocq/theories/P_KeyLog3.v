(* The key logs of two endpoints that shook hands. *)
From Verif Require Import Base P_Base Iana Crypto Config Serial Ext Msg Hkdf Cipher Kex Sig Ocsp Transcript Conn KeyLog
  S_Hist S_Conn S_Send S_Utils S_Keys S_Honest S_KeyLog P_Monad P_Hist P_Send P_Keys P_Honest P_Honest10 P_KeyLog P_KeyLog2.

Lemma hello_head C r sid suites exts d : ser_content C (KHandshake (HClientHello r sid suites exts)) = Ok d ->
  exists p q, d = p ++ r ++ q /\ blen p = 6.
Proof.
  cbn [ser_content]. unfold ser_hs. cbn [ser_hs_body msg_type].
  destruct (join_map (ser_ext C) exts) as [x|]; [|discriminate]. cbn [rbind].
  change (to_bytes 2 TLS_1_2) with (@Ok bytes [x03; x03]). cbn [rbind].
  destruct (put_var 1 sid) as [b|]; [|discriminate]. cbn [rbind].
  destruct (put_ints 2 2 suites) as [c|]; [|discriminate]. cbn [rbind].
  destruct (put_var 1 [x00]) as [e|]; [|discriminate]. cbn [rbind].
  destruct (put_var 2 x) as [f|]; [|discriminate]. cbn [rbind].
  change (to_bytes 1 CLIENT_HELLO) with (@Ok bytes [x01]). cbn [rbind].
  destruct (put_var 3 _) as [g|] eqn:E; [|discriminate]. cbn [rbind]. intro H. injection H; intros <-.
  unfold put_var in E. destruct (to_bytes 3 _) as [l|] eqn:L; [|discriminate]. cbn [rbind] in E. injection E; intros <-.
  apply to_bytes_ok in L. destruct L as (_ & _ & L).
  exists ([x01] ++ l ++ [x03; x03]), (b ++ c ++ e ++ f). split; [cbn [app]; rewrite <- !app_assoc; reflexivity|].
  rewrite !blen_app. change (blen [x01]) with 1. change (blen [x03; x03]) with 2. lia.
Qed.
Lemma wire_head m d : 4096 <= m -> 38 <= blen d -> btake 32 (bdrop 11 (plain_wire m d)) = btake 32 (bdrop 6 d).
Proof.
  intros Lm L. assert (exists f r, plain_wire m d = record CT_HANDSHAKE f ++ r /\ 38 <= blen f /\ btake 32 (bdrop 6 f) = btake 32 (bdrop 6 d)) as (f & r & E & Lf & Ef).
  { unfold plain_wire, frags. destruct (blen d <=? m) eqn:Le.
    - exists d, []. cbn [map concat]. auto.
    - apply N.leb_gt in Le. destruct d as [|x d]; [unfold blen in L; cbn in L; lia|]. cbn [length chunks]. do 2 eexists. cbn [map concat].
      split; [reflexivity|]. split; [rewrite blen_btake; lia|].
      rewrite <- (btake_bdrop m (x :: d)) at 2. rewrite bdrop_app_le by (rewrite blen_btake; lia).
      rewrite btake_app_le; [reflexivity|]. rewrite blen_bdrop, blen_btake. lia. }
  rewrite E. unfold record. change (Nb CT_HANDSHAKE :: x03 :: x03 :: be_bytes 2 (blen f) ++ f) with ((Nb CT_HANDSHAKE :: x03 :: x03 :: be_bytes 2 (blen f)) ++ f).
  rewrite <- app_assoc, bdrop_app_ge by (rewrite !blen_cons, blen_be_bytes; vm_compute; discriminate).
  replace (11 - blen (Nb CT_HANDSHAKE :: x03 :: x03 :: be_bytes 2 (blen f))) with 6 by (rewrite !blen_cons, blen_be_bytes; reflexivity).
  rewrite bdrop_app_le by lia. rewrite btake_app_le by (rewrite blen_bdrop; lia). exact Ef.
Qed.
Lemma honest_log C gc gs c s : honest_crypto C -> compatible C gc gs c s ->
  wide_fragments gc -> first_share gc gs -> no_ccm gc gs ->
  exists u h shared th th_sf, btake 32 (bdrop 11 (flight1 C c)) = u /\
    holds (key_lines true (run C (client_ops C c s) c)) u (five_lines C h shared th th_sf) /\
    key_lines true (run C (server_ops C c s) s) = key_lines true (run C (client_ops C c s) c).
Proof.
  intros HC Cp Mc Sh Nccm. destruct (honest_all C gc gs c s HC Cp Mc Sh Nccm) as (_ & _ & _ & _ & _ & _ & _ & _ & _ & _ & S & _).
  destruct S as (d & u & x & w & suite & h & klen & shared & th & th_sf & ex & Eu & (m & Lm & F) & Mk & Ser & Uc & Us & Ec & Es & I & Ac & Asv).
  destruct (cp_randoms _ _ _ _ _ Cp) as [(u' & Eu' & Lu) _]. rewrite Eu in Eu'. injection Eu'; intros <-.
  assert (Nu : u <> []) by (intros ->; discriminate Lu). pose proof (hc_hmac _ HC) as Hs.
  exists u, h, shared, th, th_sf. split.
  { destruct (hello_head _ _ _ _ _ _ Ser) as (p & q & -> & Lp). rewrite F, (wire_head _ _ Lm) by (rewrite !blen_app; lia).
    rewrite (bdrop_app_exact' 6 p) by (symmetry; exact Lp). apply btake_app_exact'. symmetry; exact Lu. }
  split; [exact (app_holds C suite Client shared th th_sf x h klen _ u Hs I Ac Ec Uc Nu)|].
  rewrite (key_lines_on _ u Uc Nu), (key_lines_on _ u Us Nu). unfold klog. rewrite Ec, Es.
  rewrite (application_keys_log _ _ _ _ _ _ _ _ _ Hs I Ac), (application_keys_log _ _ _ _ _ _ _ _ _ Hs I Asv). reflexivity.
Qed.
