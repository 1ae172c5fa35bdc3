(* Who verifies a chain. *)
From Verif Require Import Base P_Base Iana Crypto Config Serial Ext Msg Hkdf Cipher Conn S_Hist S_Conn S_Utils S_Keys S_Auth P_Client P_Client2 Verify S_Verify.

Lemma ascii_all s : forallb (fun b => bN b <? 128) s = true <-> forall b, In b s -> bN b < 128.
Proof.
  rewrite forallb_forall. split; intros H b I; specialize (H b I); [apply N.ltb_lt in H | apply N.ltb_lt]; exact H.
Qed.
Lemma chain_exact is_ip V store depth host leaf rest :
  verify_chain is_ip V store depth host leaf rest = Ok tt <->
  exists k, store = Some k /\
    match host with
    | None | Some [] => V k depth None leaf rest = Ok tt
    | Some h => exists s, named is_ip h s /\ V k depth (Some s) leaf rest = Ok tt
    end.
Proof.
  unfold verify_chain, get_verifier, policy_builder, dns_name. destruct host as [[|x h]|].
  - destruct store as [k|]; cbn; [split; [eauto | intros (j & [= <-] & H); exact H] | split; [discriminate | intros (j & H & _); discriminate H]].
  - set (w := x :: h). destruct (is_ip w) eqn:Ei; [|destruct (forallb _ w) eqn:Ea].
    + destruct store as [k|]; cbn [rbind fst snd]; [|split; [discriminate | intros (j & H & _); discriminate H]]. split.
      * intro H. exists k. split; [reflexivity|]. exists (SIp w). split; [|exact H]. split; [discriminate | auto].
      * intros (j & [= <-] & s & (_ & [[_ ->]|[B _]]) & H); [exact H | congruence].
    + destruct store as [k|]; cbn [rbind fst snd]; [|split; [discriminate | intros (j & H & _); discriminate H]]. split.
      * intro H. exists k. split; [reflexivity|]. exists (SDns w). split; [|exact H]. split; [discriminate|]. right. split; [exact Ei|]. split; [reflexivity|]. apply ascii_all. exact Ea.
      * intros (j & [= <-] & s & (_ & [[B _]|(_ & -> & _)]) & H); [congruence | exact H].
    + cbn [rbind]. split; [discriminate|]. intros (j & _ & s & (_ & [[B _]|(_ & _ & A)]) & _); [congruence|]. apply ascii_all in A. congruence.
  - destruct store as [k|]; cbn; [split; [eauto | intros (j & [= <-] & H); exact H] | split; [discriminate | intros (j & H & _); discriminate H]].
Qed.
Lemma named_one is_ip h s s' : named is_ip h s -> named is_ip h s' -> s = s'.
Proof. intros (_ & [[A ->]|(A & -> & _)]) (_ & [[B ->]|(B & -> & _)]); congruence. Qed.
Lemma international_unnamed is_ip h s : international is_ip h -> ~ named is_ip h s.
Proof. intros (A & b & I & L) (_ & [[B _]|(_ & _ & H)]); [congruence|]. specialize (H b I). lia. Qed.

Lemma international_error is_ip V store depth h leaf rest : international is_ip h -> verify_chain is_ip V store depth (Some h) leaf rest = Err XValue.
Proof.
  intros (A & b & I & L). unfold verify_chain, get_verifier, dns_name. destruct h as [|x h]; [destruct I|]. rewrite A.
  destruct (forallb _ (x :: h)) eqn:Ea; [|reflexivity]. rewrite ascii_all in Ea. specialize (Ea b I). lia.
Qed.

Section client.
Variables (C : crypto) (V : verifiers) (g : config) (c : conn).
Hypothesis As : aead_sized C.
Hypothesis Hs : hmac_sized C.
Hypothesis Hh : hash_sized C.
Hypothesis Hg : g_side g = Client.
Hypothesis R : reachable (with_verifiers V C) g c.
Hypothesis Ra : require_peer_auth g = true.
Hypothesis S : c_state c = Connected.
Lemma connected_named : exists k leaf rest ctx cd, g_trust g = Some k /\ In (Server, CERTIFICATE, cd) (c_hs c) /\
  says (with_verifiers V C) (Some CT_X509) cd (HCert ctx (leaf :: rest)) /\
  match c_host c with
  | None | Some [] => V k (g_depth g) None (en_data leaf) (map en_data rest) = Ok tt
  | Some h => exists s, named (cr_is_ip C) h s /\ V k (g_depth g) (Some s) (en_data leaf) (map en_data rest) = Ok tt
  end.
Proof.
  destruct (client_authenticated (with_verifiers V C) g c As Hs Hh Hg R Ra S)
    as (hello & cd & vd & sd & suite & h & hc & group & shared & alg & sig & ctx & leaf & rest & sh & ee & fd & junk & cct & E & _ & _ & Sy & Vc & _).
  cbn [cr_verify_chain with_verifiers] in Vc. apply chain_exact in Vc as (k & Ek & K).
  exists k, leaf, rest, ctx, cd. split; [exact Ek|]. split.
  - rewrite E. apply in_or_app. right. cbn. auto.
  - split; [exact Sy|]. destruct (c_host c) as [[|x w]|]; exact K.
Qed.
Lemma connected_store : g_trust g <> None.
Proof. destruct connected_named as (k & leaf & rest & ctx & cd & -> & _). discriminate. Qed.
Lemma connected_ascii h : c_host c = Some h -> ~ international (cr_is_ip C) h.
Proof.
  intros E N. destruct connected_named as (k & leaf & rest & ctx & cd & _ & _ & _ & K). rewrite E in K. destruct h as [|x h].
  - destruct N as (_ & b & [] & _).
  - destruct K as (s & K & _). exact (international_unnamed _ _ _ N K).
Qed.
End client.
