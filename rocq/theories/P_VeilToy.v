(* A server that writes before the client has finished, for T_Veil; and a crypto
   whose ciphertexts are blank. *)
From Verif Require Import Base P_Base Iana Crypto Config Cipher Conn S_Hist S_Conn S_Send S_Veil Toy P_Toy P_Send.

Definition blank : crypto := {|
  cr_hash := cr_hash toy; cr_hmac := cr_hmac toy;
  cr_seal := fun suite _ _ d _ => zeros (blen d + tag_length suite);
  cr_open := cr_open toy; cr_kx_pub := cr_kx_pub toy; cr_kx_shared := cr_kx_shared toy;
  cr_sign := cr_sign toy; cr_sig_verify := cr_sig_verify toy; cr_load_cert := cr_load_cert toy; cr_load_pubkey := cr_load_pubkey toy;
  cr_cert_pubkey := cr_cert_pubkey toy; cr_cert_pubkey_oid := cr_cert_pubkey_oid toy; cr_cert_sig_oid := cr_cert_sig_oid toy;
  cr_cert_hash_alg := cr_cert_hash_alg toy; cr_verify_chain := cr_verify_chain toy; cr_is_ip := cr_is_ip toy;
  cr_idna_decode := cr_idna_decode toy; cr_idna_encode := cr_idna_encode toy; cr_load_ocsp_req := cr_load_ocsp_req toy;
  cr_load_ocsp_res := cr_load_ocsp_res toy; cr_ocsp_url := cr_ocsp_url toy; cr_make_ocsp_req := cr_make_ocsp_req toy;
  cr_ocsp_fetch := cr_ocsp_fetch toy; cr_now := cr_now toy; cr_sig_args := cr_sig_args toy |}.
Lemma blank_sized : aead_sized blank.
Proof. intros s k n d a. cbn [blank cr_seal]. apply blen_zeros. Qed.
Lemma blank_hiding : hiding blank.
Proof. intros s k n d d' a H. cbn [blank cr_seal]. rewrite H. reflexivity. Qed.

Definition shape_b (m t n n' : N) : bool :=
  let l := m - (1 + t) in
  (records l n =? records l n') && (blocks m t (last_record l n) =? blocks m t (last_record l n')).
Definition may_differ (c : conn) (d d' : bytes) : bool :=
  match c_cipher c with
  | Some x => match d_key (cs_w x) with Some _ => shape_b (max_frag c) (tag_length (cs_suite x)) (blen d) (blen d') | None => false end
  | None => false
  end.
Lemma may_differ_ok c d d' : may_differ c d d' = true -> exists e e' x k, OSend d = OSend e /\ OSend d' = OSend e' /\
  c_cipher c = Some x /\ d_key (cs_w x) = Some k /\ same_shape (max_frag c) (tag_length (cs_suite x)) (blen e) (blen e').
Proof.
  unfold may_differ. destruct (c_cipher c) as [x|]; [|discriminate]. destruct (d_key (cs_w x)) as [k|] eqn:K; [|discriminate].
  unfold shape_b. intro H. apply andb_prop in H. destruct H as [A B]. apply N.eqb_eq in A. apply N.eqb_eq in B.
  exists d, d', x, k. repeat split; assumption.
Qed.
Definition secret : bytes := ascii_bytes "attack at dawn"%string.
Definition decoy : bytes := ascii_bytes "nothing to report"%string.
Definition with_text (hello d : bytes) : list op := [OInit; ORecv hello; OFlush; OSend d; OFlush].
Lemma texts C c hello d d' : may_differ (run C [OInit; ORecv hello; OFlush] c) d d' = true ->
  same_but_text C c (with_text hello d) (with_text hello d').
Proof.
  intro H. unfold with_text. cbn [same_but_text]. cbn [run] in H. split; [left; reflexivity|]. split; [left; reflexivity|]. split; [left; reflexivity|].
  split; [right; apply may_differ_ok; exact H|]. split; [left; reflexivity | exact Logic.I].
Qed.
