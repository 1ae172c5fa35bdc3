(* C89 *)
From Verif Require Import Base P_Base Iana Crypto Config Serial Ext Msg Cipher Conn S_Hist S_Conn S_Utils S_Keys S_Auth Toy P_Toy Verify S_Verify P_Verify.

(* C89.  Full statement: a client that authenticates its peer with certificates
   connects only when the leaf was verified, with the trust store of the
   configuration, for the name or the address given by the application, and it
   connects whenever it was.
   Missing: without a name any leaf that the store trusts is accepted
   (c89_unnamed_refuted), and a name with a character outside of ASCII, that
   the client encodes in its hello, never connects (c89_international_refuted). *)
Theorem c89_exact : forall is_ip V store depth host leaf rest,
  verify_chain is_ip V store depth host leaf rest = Ok tt <->
  exists k, store = Some k /\
    match host with
    | None | Some [] => V k depth None leaf rest = Ok tt
    | Some h => exists s, named is_ip h s /\ V k depth (Some s) leaf rest = Ok tt
    end.
Proof. exact chain_exact. Qed.
Print Assumptions c89_exact.
Theorem c89_one : forall is_ip h s s', named is_ip h s -> named is_ip h s' -> s = s'.
Proof. exact named_one. Qed.
Print Assumptions c89_one.
Theorem c89_named_partial : forall C V g c, aead_sized C -> hmac_sized C -> hash_sized C -> g_side g = Client ->
  reachable (with_verifiers V C) g c -> require_peer_auth g = true -> c_state c = Connected ->
  exists k leaf rest ctx cd, g_trust g = Some k /\ In (Server, CERTIFICATE, cd) (c_hs c) /\
    says (with_verifiers V C) (Some CT_X509) cd (HCert ctx (leaf :: rest)) /\
    match c_host c with
    | None | Some [] => V k (g_depth g) None (en_data leaf) (map en_data rest) = Ok tt
    | Some h => exists s, named (cr_is_ip C) h s /\ V k (g_depth g) (Some s) (en_data leaf) (map en_data rest) = Ok tt
    end.
Proof. exact connected_named. Qed.
Print Assumptions c89_named_partial.
(* with trusted keys and no trust store *)
Theorem c89_store : forall C V g c, aead_sized C -> hmac_sized C -> hash_sized C -> g_side g = Client ->
  reachable (with_verifiers V C) g c -> require_peer_auth g = true -> c_state c = Connected -> g_trust g <> None.
Proof. exact connected_store. Qed.
Print Assumptions c89_store.
Theorem c89_ascii : forall C V g c, aead_sized C -> hmac_sized C -> hash_sized C -> g_side g = Client ->
  reachable (with_verifiers V C) g c -> require_peer_auth g = true -> c_state c = Connected ->
  forall h, c_host c = Some h -> ~ international (cr_is_ip C) h.
Proof. exact connected_ascii. Qed.
Print Assumptions c89_ascii.
Theorem c89_international : forall is_ip V store depth h leaf rest, international is_ip h ->
  verify_chain is_ip V store depth (Some h) leaf rest = Err XValue.
Proof. exact international_error. Qed.
Print Assumptions c89_international.

(* --- a store that trusts a certificate for one name --------------------------- *)
Definition vf_name : str := ascii_bytes "example.org"%string.
Definition vf_other : str := [xc3; xa9] ++ ascii_bytes ".org"%string.
(* [s] is the subject that the certificate is for; without a subject the name does not matter *)
Definition vf_store (s : subject) : verifiers := fun _ _ sub leaf _ =>
  match leaf, sub with
  | x54 :: _, None => Ok tt
  | x54 :: _, Some (SDns h) => match s with SDns h' => if beqb h h' then Ok tt else Err XVerif | _ => Err XVerif end
  | _, _ => Err XVerif
  end.
Definition vf_c0 (host : option str) : conn := get_ok (new_conn false toy_client host false (toy_rng 1 100) (toy_rng 1)).
Definition vf_s0 : conn := get_ok (new_conn false toy_server None false (toy_rng 2 100) (toy_rng 2)).
(* the client after the flight of an honest server *)
Definition vf_c (C : crypto) (host : option str) : res unit * conn :=
  let c1 := run C [OInit] (vf_c0 host) in
  let s1 := run C [OInit; ORecv (c_out c1)] vf_s0 in
  receive_data C (c_out s1) c1.
Definition vf_lib (s : subject) : crypto := with_verifiers (vf_store s) toy.
Lemma vf_reached s host : host = Some vf_name \/ host = None \/ host = Some vf_other ->
  reachable (vf_lib s) toy_client (snd (vf_c (vf_lib s) host)).
Proof.
  intro H. exists (vf_c0 host), [OInit; ORecv (c_out (run (vf_lib s) [OInit; ORecv (c_out (run (vf_lib s) [OInit] (vf_c0 host)))] vf_s0))].
  split.
  - split; [vm_compute; reflexivity|]. split; [cbn; tauto|].
    exists false, host, false, (toy_rng 1 100), (toy_rng 1). destruct H as [-> |[-> | ->]]; vm_compute; reflexivity.
  - cbn [run]. unfold after at 1. unfold step at 1. rewrite P_Wp.snd_bind_ret. reflexivity.
Qed.
Example c89_case : aead_sized toy /\ hmac_sized toy /\ hash_sized toy /\ g_side toy_client = Client /\
  reachable (vf_lib (SDns vf_name)) toy_client (snd (vf_c (vf_lib (SDns vf_name)) (Some vf_name))) /\
  require_peer_auth toy_client = true /\ c_state (snd (vf_c (vf_lib (SDns vf_name)) (Some vf_name))) = Connected /\
  c_host (snd (vf_c (vf_lib (SDns vf_name)) (Some vf_name))) = Some vf_name /\ named (cr_is_ip toy) vf_name (SDns vf_name) /\
  fst (vf_c (vf_lib (SDns vf_other)) (Some vf_name)) = Err (XAlert BAD_CERTIFICATE).
Proof.
  split; [exact toy_aead_sized|]. split; [exact toy_hmac_sized|]. split; [exact toy_hash_sized|]. split; [reflexivity|].
  split; [apply vf_reached; auto|]. split; [reflexivity|]. split; [vm_compute; reflexivity|]. split; [vm_compute; reflexivity|].
  split; [split; [discriminate|]; right; split; [reflexivity|]; split; [reflexivity|]; apply ascii_all; vm_compute; reflexivity|].
  vm_compute. reflexivity.
Qed.
(* the certificate is for another name than the one that the application means *)
Theorem c89_unnamed_refuted : exists C V g c, g_side g = Client /\ reachable (with_verifiers V C) g c /\ require_peer_auth g = true /\
  c_host c = None /\ c_state c = Connected /\ (forall k d leaf rest, V k d (Some (SDns vf_name)) leaf rest <> Ok tt).
Proof.
  exists toy, (vf_store (SDns vf_other)), toy_client, (snd (vf_c (vf_lib (SDns vf_other)) None)).
  split; [reflexivity|]. split; [apply vf_reached; auto|]. split; [reflexivity|]. split; [vm_compute; reflexivity|]. split; [vm_compute; reflexivity|].
  intros k d leaf rest. unfold vf_store. replace (beqb vf_name vf_other) with false by (vm_compute; reflexivity).
  destruct leaf as [|[] ?]; discriminate.
Qed.
Print Assumptions c89_unnamed_refuted.
(* The certificate is for the name given, that is sent in the hello.  An honest
   server refuses that hello already, because of the length of the name (C30);
   a server that does not gets no further (c89_ascii). *)
Theorem c89_international_refuted : exists C V g c h, g_side g = Client /\ reachable (with_verifiers V C) g c /\ require_peer_auth g = true /\
  c_host c = Some h /\ international (cr_is_ip C) h /\ (exists x, In (EServerNameReq (Some h)) (client_extensions C g (c_host c) None x)) /\
  (forall k d rest, V k d (Some (SDns h)) toy_cert rest = Ok tt) /\ c = snd (vf_c (with_verifiers V C) (Some h)) /\
  (exists e, fst (vf_c (with_verifiers V C) (Some h)) = Err e) /\ c_state c = Failed.
Proof.
  exists toy, (vf_store (SDns vf_other)), toy_client, (snd (vf_c (vf_lib (SDns vf_other)) (Some vf_other))), vf_other.
  split; [reflexivity|]. split; [apply vf_reached; auto|]. split; [reflexivity|].
  assert (E : c_host (snd (vf_c (vf_lib (SDns vf_other)) (Some vf_other))) = Some vf_other) by (vm_compute; reflexivity).
  split; [exact E|]. rewrite E. split; [split; [reflexivity|]; exists xc3; split; [left; reflexivity | vm_compute; discriminate]|].
  split; [exists (0, []); cbn; auto 10|]. split; [intros; vm_compute; reflexivity|]. split; [reflexivity|].
  split; [eexists; vm_compute; reflexivity | vm_compute; reflexivity].
Qed.
Print Assumptions c89_international_refuted.
