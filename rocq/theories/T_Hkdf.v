(* C33, C34: key derivation functions. *)
From Verif Require Import Base Crypto Hkdf S_Utils P_Hkdf Toy P_Toy.

(* C33: for any number m <= 255 of blocks covering the request, the result is
   the prefix of T(1) | ... | T(m), so it does not depend on m. *)
Theorem c33_expand : forall C h prk info len m,
  hmac_sized C -> len <= N.of_nat m * digest_size h -> (m <= 255)%nat ->
  hkdf_expand C h prk info len = Ok (btake len (rfc5869_stream C h prk info m)).
Proof. exact hkdf_expand_rfc. Qed.
Print Assumptions c33_expand.

Theorem c33_expand_length : forall C h prk info len out,
  hmac_sized C -> hkdf_expand C h prk info len = Ok out ->
  blen out = len /\ len <= 255 * digest_size h.
Proof. exact hkdf_expand_len. Qed.
Print Assumptions c33_expand_length.

Theorem c33_expand_too_long : forall C h prk info len,
  255 * digest_size h < len -> hkdf_expand C h prk info len = Err XOverflow.
Proof. exact hkdf_expand_over. Qed.
Print Assumptions c33_expand_too_long.

Theorem c33_extract : forall C h salt ikm,
  hkdf_extract C h salt ikm =
  cr_hmac C h (if is_nil salt then repeat x00 (N.to_nat (digest_size h)) else salt) ikm.
Proof. exact hkdf_extract_rfc. Qed.
Print Assumptions c33_extract.

Example c33_hyp : hmac_sized toy.
Proof. exact toy_hmac_sized. Qed.
Example c33_ex : exists out, hkdf_expand toy SHA256 [x01] [x02] 70 = Ok out /\ blen out = 70 /\
  out = rfc5869_T toy SHA256 [x01] [x02] 1 ++ rfc5869_T toy SHA256 [x01] [x02] 2
        ++ btake 6 (rfc5869_T toy SHA256 [x01] [x02] 3).
Proof. eexists. vm_compute. repeat split. Qed.
Example c33_long_ex : hkdf_expand toy SHA256 [x01] [x02] 8161 = Err XOverflow.
Proof. apply c33_expand_too_long. vm_compute. reflexivity. Qed.

(* C34: equal HKDF inputs come from equal (length, label, context). *)
Theorem c34_injective : forall l1 c1 n1 l2 c2 n2 info,
  hkdf_label l1 c1 n1 = Ok info -> hkdf_label l2 c2 n2 = Ok info -> n1 = n2 /\ l1 = l2 /\ c1 = c2.
Proof. exact hkdf_label_inj. Qed.
Print Assumptions c34_injective.

Theorem c34_used : forall C h secret label context len out,
  hkdf_expand_label C h secret label context len = Ok out ->
  exists info, hkdf_label label context len = Ok info /\ hkdf_expand C h secret info len = Ok out.
Proof. exact hkdf_expand_label_uses. Qed.
Print Assumptions c34_used.

(* RFC 8446 7.1: struct HkdfLabel *)
Theorem c34_layout : forall label context len info,
  hkdf_label label context len = Ok info ->
  info = [Nb (len / 256); Nb (len mod 256)]
         ++ Nb (blen label + 6) :: ascii_bytes "tls13 "%string ++ label
         ++ Nb (blen context) :: context.
Proof. exact hkdf_label_layout. Qed.
Print Assumptions c34_layout.

Theorem c34_over : forall C h secret label context len,
  65536 <= len \/ 249 < blen label \/ 255 < blen context ->
  hkdf_expand_label C h secret label context len = Err XOverflow.
Proof. exact hkdf_expand_label_over. Qed.
Print Assumptions c34_over.

Example c34_ex : hkdf_label [x6b; x65; x79] [xaa] 16 =
  Ok [x00; x10; x09; x74; x6c; x73; x31; x33; x20; x6b; x65; x79; x01; xaa].
Proof. reflexivity. Qed.
Example c34_over_ex : hkdf_expand_label toy SHA256 [] [] (zeros 256) 32 = Err XOverflow.
Proof. apply c34_over. right. right. vm_compute. reflexivity. Qed.
