From Verif Require Import Base Serial S_Serial Crypto Ext S_Layout Bodies S_Bodies P_Bodies Toy.

(* C92: certificate_authorities *)
Theorem c92_authorities l :
  (authorities_fit l -> authorities_serialize l = Ok (authorities_bytes l)) /\
  (~ authorities_fit l -> authorities_serialize l = Err XOverflow).
Proof. exact (authorities_written l). Qed.
Print Assumptions c92_authorities.
Theorem c92_authorities_back l pre post limits :
  authorities_fit l -> fits limits (blen pre + blen (authorities_bytes l)) ->
  authorities_parse (before pre (authorities_bytes l) post limits) = Ok (l, after pre (authorities_bytes l) post limits).
Proof. exact (authorities_back l pre post limits). Qed.
Print Assumptions c92_authorities_back.
(* use_srtp.  Full statement: for all profiles.  Proved, and true, only when
   there are as many profiles as bytes in the mki. *)
Theorem c92_srtp_partial profiles mki b : srtp_fits profiles mki -> srtp_serialize profiles mki = Ok b ->
  (b = srtp_bytes profiles mki <-> length profiles = length mki).
Proof. exact (srtp_exact profiles mki b). Qed.
Print Assumptions c92_srtp_partial.
Theorem c92_srtp_back_partial profiles mki b pre post limits : srtp_fits profiles mki -> srtp_serialize profiles mki = Ok b ->
  fits limits (blen pre + blen b) ->
  ((exists s, srtp_parse (before pre b post limits) = Ok ((profiles, mki), s)) <-> length profiles = length mki).
Proof. exact (srtp_back profiles mki b pre post limits). Qed.
Print Assumptions c92_srtp_back_partial.
(* what does not fit: only the mki is looked at *)
Theorem c92_srtp_long_partial profiles mki :
  (N.of_nat (length mki) < 2 ^ 8 -> exists b, srtp_serialize profiles mki = Ok b) /\
  (2 ^ 8 <= N.of_nat (length mki) -> srtp_serialize profiles mki = Err XOverflow).
Proof. exact (srtp_total profiles mki). Qed.
Print Assumptions c92_srtp_long_partial.
(* parse_body itself is right *)
Theorem c92_srtp_read profiles mki pre post limits : srtp_fits profiles mki ->
  fits limits (blen pre + blen (srtp_bytes profiles mki)) ->
  srtp_parse (before pre (srtp_bytes profiles mki) post limits) = Ok ((profiles, mki), after pre (srtp_bytes profiles mki) post limits).
Proof. intros F. exact (P_Serial2.reads_before _ _ _ pre post limits (srtp_reads profiles mki F)). Qed.
Print Assumptions c92_srtp_read.
(* what becomes of them in a message *)
Theorem c92_unbuilt C ty s :
  parse_ext_body C ty CUseSrtp s = match srtp_parse s with Ok _ => Err XType | Err e => Err e end /\
  parse_ext_body C ty CCertAuthorities s = match authorities_parse s with Ok _ => Err XType | Err e => Err e end.
Proof. exact (unbuilt C ty s). Qed.
Print Assumptions c92_unbuilt.

Example c92_case : authorities_fit [[x41; x42]; []; [x43]] /\ authorities_serialize [[x41; x42]; []; [x43]] = Ok [x00; x09; x00; x02; x41; x42; x00; x00; x00; x01; x43] /\
  srtp_fits [(x00, x01)] [x07] /\ srtp_serialize [(x00, x01)] [x07] = Ok [x00; x02; x00; x01; x01; x07] /\
  srtp_bytes [(x00, x01)] [x07] = [x00; x02; x00; x01; x01; x07].
Proof.
  split; [split; [repeat constructor | reflexivity]|]. split; [vm_compute; reflexivity|].
  split; [split; reflexivity|]. split; vm_compute; reflexivity.
Qed.
(* two profiles and the usual empty mki *)
Theorem c92_srtp_refuted : exists profiles mki b, srtp_fits profiles mki /\ srtp_serialize profiles mki = Ok b /\
  b <> srtp_bytes profiles mki /\ (exists s, srtp_parse (stream_of b) = Ok (([], []), s) /\ profiles <> [] /\ s_pos s < blen b).
Proof.
  exists [(x00, x01); (x00, x02)], [], [x00; x00; x00; x01; x00; x02; x00].
  split; [split; reflexivity|]. split; [vm_compute; reflexivity|]. split; [vm_compute; discriminate|].
  eexists. split; [vm_compute; reflexivity|]. split; [discriminate | reflexivity].
Qed.
Print Assumptions c92_srtp_refuted.
(* a list of authorities that is as it should be is a TypeError *)
Theorem c92_unbuilt_refuted : exists C ty l, authorities_fit l /\ parse_ext_body C ty CCertAuthorities (stream_of (authorities_bytes l)) = Err XType.
Proof. exists toy, 47, [[x41; x42]]. split; [split; [repeat constructor | reflexivity] | vm_compute; reflexivity]. Qed.
Print Assumptions c92_unbuilt_refuted.
(* 40000 profiles, which have no encoding *)
Theorem c92_srtp_long_refuted : exists profiles mki b, ~ srtp_fits profiles mki /\ srtp_serialize profiles mki = Ok b.
Proof.
  destruct (proj1 (srtp_total (repeat (x00, x01) (N.to_nat 40000)) []) eq_refl) as (b & E).
  exists (repeat (x00, x01) (N.to_nat 40000)), [], b. split; [|exact E].
  intros (F & _). rewrite repeat_length, N2Nat.id in F. discriminate F.
Qed.
Print Assumptions c92_srtp_long_refuted.
