(* C03, C04, C05 *)
From Verif Require Import Base Iana Crypto Config Msg Cipher Conn S_Hist S_Conn S_Send P_Send P_Hist P_Wire P_Inner Toy P_Toy.

(* C03.  The hypothesis on the fragment length in force holds in every reachable
   state, next theorem. *)
Theorem c03_lossless : forall C k c c', valid_mfl (max_frag c) ->
  send_content C k c = (Ok tt, c') ->
  exists data frags, ser_content C k = Ok data /\ pieces (limit_of c) data frags /\
    ((enc_on c = false /\ c_out c' = c_out c ++ concat (map (record (content_type k)) frags)) \/
     exists x ss, c_cipher c = Some x /\ enc_on c = true /\
       c_out c' = c_out c ++ concat (map (sealed_record C (cs_suite x)) ss) /\
       Forall2 (fun f s => wraps (content_type k) f (se_data s)) frags ss).
Proof. exact send_lossless. Qed.
Print Assumptions c03_lossless.
Theorem c03_limit_in_force : forall C g c, reachable C g c -> valid_mfl (max_frag c).
Proof. exact reachable_mfl. Qed.
Print Assumptions c03_limit_in_force.
Definition letters (n : N) : bytes := map (fun _ => x61) (zeros n).
(* application data in two encrypted records *)
Example c03_case : valid_mfl (max_frag toy_c2) /\
  fst (send_data toy (letters 20000) toy_c2) = Ok tt /\
  pieces (limit_of toy_c2) (letters 20000) [letters 16367; letters 3633].
Proof.
  split; [vm_compute; tauto|]. split; [vm_compute; reflexivity|].
  split; [vm_compute; reflexivity|]. split; [repeat constructor; vm_compute; discriminate|].
  left. split; [repeat constructor; discriminate | discriminate].
Qed.

(* C04.  Full statement: every record is [acceptable] to the peer.  The padding
   makes it false: a fragment that fills the record gets a whole extra chunk of
   padding. *)
Theorem c04_record_size_partial : forall C k c c', valid_mfl (max_frag c) ->
  send_content C k c = (Ok tt, c') ->
  exists data frags ps, ser_content C k = Ok data /\ pieces (limit_of c) data frags /\
    ((enc_on c = false /\ ps = frags /\
      c_out c' = c_out c ++ concat (map (record (content_type k)) ps) /\
      Forall (fun p => acceptable (max_frag c) false (blen p)) ps) \/
     (enc_on c = true /\
      c_out c' = c_out c ++ concat (map (record CT_APPDATA) ps) /\
      Forall2 (fun f p =>
        blen p mod N.min (max_frag c) 4096 = 0 /\
        (blen f < limit_of c -> acceptable (max_frag c) true (blen p)) /\
        (blen f = limit_of c -> ~ acceptable (max_frag c) true (blen p))) frags ps)).
Proof. exact send_acceptable. Qed.
Print Assumptions c04_record_size_partial.
(* whatever is called, in whatever state: records, of bounded size *)
Theorem c04_wire_partial : forall C g c o, reachable C g c -> o <> OFlush ->
  exists rs, c_out (after C o c) = c_out c ++ concat rs /\ Forall (wire_record C) rs.
Proof. exact wire_step. Qed.
Print Assumptions c04_wire_partial.
Definition c04_ops (d : bytes) : list op := [OInit; OFlush; ORecv (c_out toy_s2); OFlush; OSend d].
Theorem c04_record_size_refuted : exists C g c d c' p,
  reachable C g c /\ c_state c = Connected /\ send_data C d c = (Ok tt, c') /\
  c_out c' = c_out c ++ record CT_APPDATA p /\ ~ acceptable (max_frag c) true (blen p).
Proof.
  set (ops := [OInit; OFlush; ORecv (c_out toy_s2); OFlush]).
  set (d := letters 16367).
  exists toy, toy_client, (run toy ops toy_c0), d, (run toy (ops ++ [OSend d]) toy_c0),
    (bdrop 5 (c_out (run toy (ops ++ [OSend d]) toy_c0))).
  split; [exists toy_c0, ops; split; [apply toy_c0_created | reflexivity]|].
  split; [vm_compute; reflexivity|]. split; [vm_compute; reflexivity|].
  split; [vm_compute; reflexivity|]. vm_compute. congruence.
Qed.
Print Assumptions c04_record_size_refuted.
(* one byte less and the record is accepted *)
Example c04_case : let c' := snd (send_data toy (letters 16366) (cset_out [] toy_c2)) in
  blen (c_out c') = 5 + 16384 /\ c_state (snd (receive_data toy (c_out c') toy_s3)) = Connected.
Proof. split; vm_compute; reflexivity. Qed.
Example c04_case2 : let c' := snd (send_data toy (letters 16367) (cset_out [] toy_c2)) in
  blen (c_out c') = 5 + 16384 + 4096 /\ c_state (snd (receive_data toy (c_out c') toy_s3)) = Failed.
Proof. split; vm_compute; reflexivity. Qed.

(* C05 *)
Theorem c05_recovered : forall content ty n, ty <> x00 ->
  inner_plaintext (content ++ ty :: repeat x00 n) = Ok (bN ty, content).
Proof. intros content ty n H. exact (inner_wraps ty content n H). Qed.
Print Assumptions c05_recovered.
Theorem c05_all_zeros : forall n, inner_plaintext (repeat x00 n) = Err (XAlert UNEXPECTED_MESSAGE).
Proof. exact inner_zeros. Qed.
Print Assumptions c05_all_zeros.
(* and only what was wrapped is returned *)
Theorem c05_only_wrapped : forall b ty content, inner_plaintext b = Ok (ty, content) ->
  exists y n, y <> x00 /\ ty = bN y /\ b = content ++ y :: repeat x00 n.
Proof. exact inner_inv. Qed.
Print Assumptions c05_only_wrapped.
(* what the sender wraps, it wraps so, with a type that is not zero *)
Theorem c05_sender : forall k mfl tag fragment,
  exists n, inner_bytes (content_type k) mfl tag fragment = fragment ++ Nb (content_type k) :: repeat x00 n /\
  inner_plaintext (inner_bytes (content_type k) mfl tag fragment) = Ok (content_type k, fragment).
Proof. exact inner_sender. Qed.
Print Assumptions c05_sender.
(* so it is with every record that the cipher opens *)
Theorem c05_record : forall C c x x' f plain rest,
  c_cipher c = Some x -> must_decrypt x = true -> c_in c = record CT_APPDATA f ++ rest ->
  blen f <= max_frag c + 256 -> blen f < 65536 ->
  decrypt C f (Nb CT_APPDATA :: x03 :: x03 :: be_bytes 2 (blen f)) x = (Ok plain, x') ->
  (forall content ty n, ty <> x00 -> bN ty <> CT_CCS -> plain = content ++ ty :: repeat x00 n ->
     fst (read_next_record C c) = Ok (Some (bN ty, content))) /\
  (forall n, plain = repeat x00 n -> fst (read_next_record C c) = Err (XAlert UNEXPECTED_MESSAGE)).
Proof. exact record_padded. Qed.
Print Assumptions c05_record.
(* what the toy server seals next for the connected toy client *)
Definition c05_sealed (plain : bytes) : bytes :=
  match c_cipher toy_c2 with
  | Some x => match next_nonce (cs_r x), d_key (cs_r x) with
              | (Ok n, _), Some k => toy_seal (cs_suite x) k n plain (Nb CT_APPDATA :: x03 :: x03 :: be_bytes 2 (blen plain + 16))
              | _, _ => []
              end
  | None => []
  end.
Example c05_record_case :
  (forallb (fun plain =>
     match c_cipher toy_c2 with
     | Some x => must_decrypt x && (blen (c05_sealed plain) <=? max_frag toy_c2 + 256) &&
                 match decrypt toy (c05_sealed plain) (Nb CT_APPDATA :: x03 :: x03 :: be_bytes 2 (blen (c05_sealed plain))) x with
                 | (Ok p, _) => beqb p plain
                 | _ => false
                 end
     | None => false
     end) [[x61; x00; x17; x00; x00]; [x00; x00; x00]] = true) /\
  fst (read_next_record toy (cset_in (record CT_APPDATA (c05_sealed [x61; x00; x17; x00; x00])) toy_c2)) = Ok (Some (23, [x61; x00])) /\
  fst (read_next_record toy (cset_in (record CT_APPDATA (c05_sealed [x00; x00; x00])) toy_c2)) = Err (XAlert UNEXPECTED_MESSAGE).
Proof. split; [|split]; vm_compute; reflexivity. Qed.
Example c05_case : inner_plaintext [x61; x00; x00; x17; x00; x00] = Ok (23, [x61; x00; x00]).
Proof. vm_compute. reflexivity. Qed.
