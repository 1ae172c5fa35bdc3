(* clients with raw public keys *)
From Verif Require Import Base Iana Crypto Config Serial Ext Msg Cipher Kex Conn S_Hist S_Conn S_Codec P_Base P_Hist P_Codec.

Lemma client_exts_nodup C g host cookie share : NoDup (map ext_type (client_extensions C g host cookie share)).
Proof.
  unfold client_extensions.
  set (hl := match host with Some (x :: h) => _ | _ => [] end).
  assert (Hl : map ext_type hl = [] \/ map ext_type hl = [SERVER_NAME]).
  { unfold hl. destruct host as [[|x h]|]; auto. destruct (cr_is_ip C (x :: h)); auto. }
  set (cl := match cookie with Some (x :: b) => _ | _ => [] end).
  assert (Cl : map ext_type cl = [] \/ map ext_type cl = [COOKIE]).
  { unfold cl. destruct cookie as [[|x h]|]; auto. }
  rewrite !map_app. destruct Hl as [->| ->], Cl as [->| ->];
  destruct (is_nil (g_alpn g)), (opt_bool (g_public g)), (is_nil (g_trusted_keys g)), (opt_bool (g_trust g)); cbn [map ext_type app];
  repeat (constructor; [cbn [In]; vm_compute; intuition discriminate|]); constructor.
Qed.
Lemma join_err A (f : A -> res bytes) x l e : In x l -> f x = Err e -> exists e', join_map f l = Err e'.
Proof.
  induction l as [|y l IH]; [intros []|]. intros [<-|I] E; cbn [join_map].
  - rewrite E. eexists. reflexivity.
  - destruct (f y); [|eexists; reflexivity]. destruct (IH I E) as (e' & E'). rewrite E'. eexists. reflexivity.
Qed.
Lemma raw_client C g c : created g c -> g_side g = Client -> opt_bool (g_public g) = true \/ g_trusted_keys g <> [] ->
  exists e, fst (step C OInit c) = Err e /\ c_out (after C OInit c) = [] /\ c_state (after C OInit c) = c_state c.
Proof.
  intros Cr Hs Hr. destruct (created_cases _ _ Cr) as [(_ & host & cocsp & cu & crng & tc & -> & _)|(X & _)]; [|congruence].
  unfold after, step, initiate_connection. cbv [bind get raise ret draw modify lift]. cbn [c_state fst snd].
  unfold client_initiate. cbv [bind get raise ret draw modify lift]. cbn [c_config].
  destruct (g_groups g) as [|group l]; [eexists; repeat split; reflexivity|].
  cbn [c_rng c_rngi cset_rngi c_config c_cunique]. destruct (kx_init C group (crng 0)) as [share|e]; [|eexists; repeat split; reflexivity].
  set (exts := client_extensions C g _ None (group, share)).
  destruct (mk_client_hello cu (g_suites g) exts) as [ch|e] eqn:M; [|eexists; repeat split; reflexivity].
  assert (exists sid, ch = HClientHello cu sid (g_suites g) exts) as (sid & ->).
  { unfold mk_client_hello in M. rewrite (ext_dict_nodup exts (client_exts_nodup C g _ None (group, share))) in M.
    repeat match type of M with (if ?c then _ else _) = _ => destruct c; [discriminate|] end. exists []. congruence. }
  assert (exists e, ser_content C (KHandshake (HClientHello cu sid (g_suites g) exts)) = Err e) as (e & E).
  { assert (exists x, In x exts /\ exists e, ser_ext C x = Err e) as (x & Ix & e & Ex).
    { unfold exts, client_extensions. destruct Hr as [Hr|Hr].
      - rewrite Hr. eexists. split; [do 3 (apply in_or_app; right); apply in_or_app; left; left; reflexivity | eexists; reflexivity].
      - destruct (g_trusted_keys g) eqn:Et; [congruence|]. cbn [is_nil]. eexists. split; [do 4 (apply in_or_app; right); apply in_or_app; left; left; reflexivity | eexists; reflexivity]. }
    destruct (join_err _ _ _ _ _ Ix Ex) as (e' & J).
    exists e'. unfold ser_content, ser_hs, ser_hs_body. rewrite J. reflexivity. }
  unfold send_content. cbv [bind get raise ret draw modify lift]. cbn [content_type c_state can_send negb andb].
  change (CT_HANDSHAKE =? CT_APPDATA) with false. cbn [andb can_send c_state cset_rngi negb]. rewrite E. eexists. repeat split; reflexivity.
Qed.
