(* What the invariant of the server says. *)
From Verif Require Import Base P_Base Iana Crypto Config Serial Ext Msg Hkdf Cipher Kex Sig Ocsp Transcript Conn
  S_Hist S_Conn S_State S_Send S_Nonce S_Alert S_Utils S_Keys S_Auth S_Server
  P_Monad P_Frame P_Hist P_Send P_Wp P_State P_Speak P_Alert P_Keys P_Tr P_Auth P_Client P_Flight P_Server.

Section facts.
Variables (C : crypto) (g : config) (c : conn).
Hypothesis As : aead_sized C.
Hypothesis Hs : hmac_sized C.
Hypothesis Hh : hash_sized C.
Hypothesis Hg : g_side g = Server.
Hypothesis R : started C g c.

Lemma w_tokens rng unique k : ctx_ok C g rng unique k -> map token_of (W k) = hello_word (y_n k) ++ [TSH].
Proof.
  intros (K1 & _ & _ & K3 & _). unfold W. rewrite map_app. change (map token_of (y_w0 k) ++ [token_of (Server, SERVER_HELLO, y_d1 k)] = hello_word (y_n k) ++ [TSH]).
  rewrite K1. cbn [map token_of m_side m_type fst snd].
  change (SERVER_HELLO =? 2) with true. cbv iota. rewrite K3. reflexivity.
Qed.
(* the transcript of a server is that of RFC 8446 4.4.1 *)
Lemma t_rfc rng unique k ms : ctx_ok C g rng unique k -> forallb (fun m => negb (is_retry m)) ms = true ->
  H C k ms = rfc_transcript C (y_h k) (W k ++ ms).
Proof.
  intros (_ & _ & _ & K3 & Hl & _) F. unfold H, T, rfc_transcript. f_equal.
  assert (F' : forallb (fun m => negb (is_retry m)) ((Server, SERVER_HELLO, y_d1 k) :: ms) = true) by (cbn [forallb]; rewrite K3; exact F).
  unfold W. rewrite <- app_assoc. cbn [app].
  destruct Hl as [(random & -> & _) | (d0 & dr & random & -> & Ir & _)].
  - apply heard_rfc_plain. cbn [app forallb] in *. exact F'.
  - cbn [app]. apply heard_rfc_retry; [reflexivity | exact (proj1 Ir) |]. cbn [forallb] in *. exact F'.
Qed.

(* C17 *)
Lemma server_finished : c_state c = Connected ->
  exists hello sh ee cd vd sd j1 fd j2 dn suite h group sg pub shared,
    c_hs c = hello ++ [(Server, SERVER_HELLO, sh); EE ee; Cert cd; CV vd; SFin sd] ++ j1 ++ [CFin fd] ++ j2 /\
    (few c -> j1 = [] /\ j2 = []) /\
    hellos C g hello dn suite group sg /\ shares C (c_rng c) dn group pub shared /\ suite_hash suite = Some h /\
    finished_says C h Client shared (rfc_transcript C h (hello ++ [(Server, SERVER_HELLO, sh)]))
      (rfc_transcript C h (hello ++ [(Server, SERVER_HELLO, sh); EE ee; Cert cd; CV vd; SFin sd])) fd.
Proof.
  intro S. destruct (server_live C g c As Hs Hh Hg R) as (ocsp & rng & unique & hl & _ & _ & _ & L). unfold live in L. rewrite S in L.
  destruct L as (k & ee & cd & vd & sd & fd & j1 & j2 & x & K & (S1 & S2 & S3 & S4) & _ & En & Fl & Eh & Fy & Ex & Ak & U & J).
  exists (y_w0 k), (y_d1 k), ee, cd, vd, sd, j1, fd, j2, (y_dn k), (y_suite k), (y_h k), (y_group k), (y_sg k), (y_pub k), (y_shared k).
  assert (E : forall l, @app (side*N*bytes) (y_w0 k) (@cons (side*N*bytes) (Server, SERVER_HELLO, y_d1 k) l) = W k ++ l) by (intro; unfold W; rewrite <- app_assoc; reflexivity).
  rewrite S2. rewrite (E []). cbn [app]. rewrite !E. cbn [app] in Eh. split; [exact Eh|]. split; [intro F; destruct (J F) as (-> & -> & _); auto|].
  rewrite <- !(t_rfc rng unique k) by (exact K || reflexivity).
  destruct K as (_ & _ & Sh & _ & Hl & Sr & _). split; [exact Hl|]. split; [exact Sr|]. split; [exact Sh|]. exact Fy.
Qed.
(* C18 *)
Lemma server_no_auth : (c_state c = Connected \/ exists h, c_state c = ServerWaitFinished h) -> require_peer_auth g = false.
Proof.
  intro S. destruct (server_live C g c As Hs Hh Hg R) as (ocsp & rng & unique & hl & _ & _ & _ & L). unfold live in L.
  destruct S as [S | [h S]]; rewrite S in L.
  - destruct L as (k & ee & cd & vd & sd & fd & j1 & j2 & x & K & St & Ra & _). exact Ra.
  - destruct L as (k & ee & cd & vd & sd & j & x & K & St & Ra & _). exact Ra.
Qed.
(* C20 *)
Lemma server_settled : chosen (c_state c) = true ->
  exists hello sh rest dn suite group sg pub shared nc enc ee sid u key sig th vd ct,
    c_hs c = hello ++ (Server, SERVER_HELLO, sh) :: rest /\
    hellos C g hello dn suite group sg /\ shares C (c_rng c) dn group pub shared /\
    c_nc c = Some nc /\ n_suite nc = Some suite /\ n_group nc = Some group /\ settles C g dn nc enc /\
    ser_content C (KHandshake (HServerHello false u sid suite
       (ext_dict [ESupVersionsResp 0x0304; EKeyShareResp group pub]))) = Ok sh /\
    In (EE ee) rest /\ ser_content C (KHandshake (HEncExt (ext_dict enc))) = Ok ee /\
    In (CV vd) rest /\ g_private g = Some key /\ cr_sign C sg key (signed_content Server th) = Ok sig /\
    ser_content C (KHandshake (HCertVerify sg sig)) = Ok vd /\ In (Cert ct) rest /\
    exists h, suite_hash suite = Some h /\ th = rfc_transcript C h (hello ++ [(Server, SERVER_HELLO, sh); EE ee; Cert ct]).
Proof.
  intro S. destruct (server_live C g c As Hs Hh Hg R) as (ocsp & rng & unique & hl & _ & _ & _ & L). unfold live in L.
  assert (X : exists k ee cd vd sd tail, ctx_ok C g rng unique k /\ c_rng c = rng /\ c_nc c = Some (y_nc k) /\ flight C g k ee cd vd sd /\
     c_hs c = W k ++ [EE ee; Cert cd; CV vd; SFin sd] ++ tail).
  { destruct (c_state c) eqn:Sc; try discriminate S.
    - destruct L as (k & ee & cd & vd & sd & j & x & K & (_ & St & _) & Ra & En & Fl & Eh & _). do 6 eexists. repeat (split; [eassumption|]). exact Eh.
    - destruct L as (k & ee & cd & vd & sd & fd & j1 & j2 & x & K & (_ & St & _) & Ra & En & Fl & Eh & _). do 6 eexists. repeat (split; [eassumption|]). exact Eh. }
  clear L. destruct X as (k & ee & cd & vd & sd & tail & K & Er & En & (F1 & (l & _ & F2) & (key & sig & F3 & F4 & F5) & F6) & Eh).
  assert (E : forall l, @app (side*N*bytes) (y_w0 k) (@cons (side*N*bytes) (Server, SERVER_HELLO, y_d1 k) l) = W k ++ l) by (intro; unfold W; rewrite <- app_assoc; reflexivity).
  rewrite (t_rfc rng unique k) in F4 by (exact K || reflexivity).
  destruct K as (_ & _ & Sh & _ & Hl & Sr & St & Ns & Ng & sid & D1).
  exists (y_w0 k), (y_d1 k), ([EE ee; Cert cd; CV vd; SFin sd] ++ tail), (y_dn k), (y_suite k), (y_group k), (y_sg k), (y_pub k), (y_shared k), (y_nc k), (y_enc k), ee, sid, unique, key, sig.
  eexists. exists vd, cd. rewrite E, Er. cbn [app] in *. split; [exact Eh|].
  split; [exact Hl|]. split; [exact Sr|]. split; [exact En|]. split; [exact Ns|]. split; [exact Ng|]. split; [exact St|]. split; [exact D1|].
  split; [left; reflexivity|]. split; [exact F1|]. split; [do 2 right; left; reflexivity|]. split; [exact F3|]. split; [exact F4|]. split; [exact F5|].
  split; [right; left; reflexivity|]. exists (y_h k). split; [exact Sh|]. rewrite E. reflexivity.
Qed.
(* C23 *)
Lemma server_order : running (c_state c) = true -> few c -> exists n, (n <= 1)%nat /\ handshake_prefix n (c_hs c).
Proof.
  intros D F. destruct (server_live C g c As Hs Hh Hg R) as (ocsp & rng & unique & hl & _ & _ & _ & L). unfold live in L.
  destruct (c_state c) eqn:Sc; try discriminate D; try contradiction; unfold handshake_prefix.
  - exists 0%nat. split; [lia|]. exists false. destruct L as (_ & _ & -> & _). exists (word 0 false). reflexivity.
  - destruct L as [L|L].
    destruct L as (_ & _ & _ & n & Ln & Et). exists n. split; [exact Ln|]. exists false. rewrite Et. exists [TEE; TCert; TCV; TSFin; TCFin]. unfold word. rewrite <- app_assoc. reflexivity.
    destruct L as (_ & _ & Wt). destruct first.
    + destruct Wt as (-> & _). exists 0%nat. split; [lia|]. exists false. exists (word 0 false). reflexivity.
    + destruct Wt as (d0 & dr & random & suite & h & group & sg & n & _ & -> & Ir & _). exists 1%nat. split; [lia|]. exists false.
      cbn [map]. change (token_of (Client, CLIENT_HELLO, d0)) with TCH.
      assert (Et : token_of (Server, SERVER_HELLO, dr) = THRR) by (cbn [token_of m_side m_type fst snd]; change (SERVER_HELLO =? 2) with true; cbv iota; rewrite (proj1 Ir); reflexivity).
      rewrite Et. eexists. reflexivity.
  - destruct L as (x & ee & cd & vd & sd & j & y & K & St & Ra & En & Fl & Eh & Ef & Ex & Hk & U & J). destruct (J F) as [-> _].
    exists (y_n x). split; [apply K|]. exists false. rewrite Eh, map_app, (w_tokens _ _ _ K), <- app_assoc. exists [TCFin]. unfold word. rewrite <- app_assoc. reflexivity.
  - destruct L as (x & ee & cd & vd & sd & fd & j1 & j2 & y & K & St & Ra & En & Fl & Eh & Fy & Ex & Ak & U & J). destruct (J F) as (-> & -> & _).
    exists (y_n x). split; [apply K|]. exists false. rewrite Eh, map_app, (w_tokens _ _ _ K), <- app_assoc. exists []. unfold word. rewrite app_nil_r. reflexivity.
Qed.
(* C24 *)
Lemma server_transcript : chosen (c_state c) = true -> few c ->
  exists nc suite h, c_nc c = Some nc /\ n_suite nc = Some suite /\ suite_hash suite = Some h /\
    tr_digest C (c_tr c) = Ok (rfc_transcript C h (c_hs c)).
Proof.
  intros S F. destruct (server_live C g c As Hs Hh Hg R) as (ocsp & rng & unique & hl & _ & _ & _ & L). unfold live in L.
  destruct (c_state c) eqn:Sc; try discriminate S.
  - destruct L as (k & ee & cd & vd & sd & j & y & K & St & Ra & En & Fl & Eh & Ef & Ex & Hk & U & J). destruct (J F) as [-> Et].
    exists (y_nc k), (y_suite k), (y_h k). split; [exact En|]. split; [apply K|]. split; [apply K|]. rewrite Et, Eh, app_nil_r.
    rewrite <- (t_rfc _ _ _ _ K) by reflexivity. reflexivity.
  - destruct L as (k & ee & cd & vd & sd & fd & j1 & j2 & y & K & St & Ra & En & Fl & Eh & Fy & Ex & Ak & U & J). destruct (J F) as (-> & -> & Et).
    exists (y_nc k), (y_suite k), (y_h k). split; [exact En|]. split; [apply K|]. split; [apply K|]. rewrite Et, Eh. rewrite app_nil_r. cbn [app].
    rewrite <- (t_rfc _ _ _ _ K) by reflexivity. reflexivity.
Qed.
End facts.
