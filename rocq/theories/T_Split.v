From Verif Require Import Base P_Base Iana Crypto Config Cipher Conn Toy P_Toy S_Utils S_Hist S_Conn S_Split P_Hist P_Split P_Honest12.

(* C02.  Full statement: [feed C ds c] and [receive_data C (concat ds) c] end
   alike, whatever the split.  Missing: it is false when the loop stops although
   there is something to read, after a handshake record that does not bring the
   reassembly buffer to four bytes; and a call that ends with an exception of
   the rekeying check, which is not implemented, ends the feeding earlier.
   When the pieces are fed up to an exception, what differs is only the input
   left in the buffer: the pieces not fed. *)
Theorem c02_split_partial : forall C ds c r c' rest,
  (forall d, In d ds -> d <> []) -> ds <> [] -> legal_limits c -> can_receive (c_state c) = true ->
  (forall c1, loops C (with_more (concat ds) c) (Ok tt, c1) -> hungry c1) ->
  feed C ds c = (r, c', rest) -> rest = [] \/ rekey_due c' = false ->
  receive_data C (concat ds) c = (r, with_more (concat rest) c').
Proof. exact split_feed. Qed.
Print Assumptions c02_split_partial.

(* seen from the other side: what is accepted at once is accepted in pieces,
   as long as the connection has not protected too many records to be close to
   the limit of its key *)
Theorem c02_accepted : forall C g c ds c1, reachable C g c -> (forall d, In d ds -> d <> []) -> ds <> [] ->
  receive_data C (concat ds) c = (Ok tt, c1) -> hungry c1 -> (length (c_log c1) < 1000)%nat ->
  feed C ds c = (Ok tt, c1, []).
Proof. exact accepted. Qed.
Print Assumptions c02_accepted.

(* every connection that the library makes has legal limits *)
Theorem c02_limits : forall C g c, reachable C g c -> legal_limits c.
Proof. intros C g c (c0 & ops & Z & ->). apply mfl_good_run. eapply created_mfl. exact Z. Qed.
Print Assumptions c02_limits.

(* the ServerHello of the toy server in two records, the first of two bytes *)
Definition c02_hello : bytes := btake (record_length (c_out toy_s2)) (bdrop 5 (c_out toy_s2)).
Definition c02_1 : bytes := [x16; x03; x03; x00; x02] ++ btake 2 c02_hello.
Definition c02_2 : bytes := [x16; x03; x03; x00; Nb (blen c02_hello - 2)] ++ bdrop 2 c02_hello.
Definition waits_ee (c : conn) : bool := match c_state c with ClientWaitEncryptedExtensions => true | _ => false end.
Definition fed (x : res unit * conn * list bytes) : conn := snd (fst x).
Lemma c02_differ a b : waits_ee a = false -> waits_ee b = true -> c_state a <> c_state b.
Proof. unfold waits_ee. intros A B E. rewrite E in A. congruence. Qed.
Theorem c02_split_refuted : exists C g c ds,
  reachable C g c /\ can_receive (c_state c) = true /\ (forall d, In d ds -> d <> []) /\
  fst (receive_data C (concat ds) c) = Ok tt /\ fst (fst (feed C ds c)) = Ok tt /\
  c_state (snd (receive_data C (concat ds) c)) <> c_state (snd (fst (feed C ds c))).
Proof.
  exists toy, toy_client, (run toy [OInit] toy_c0), [c02_1; c02_2].
  split. { exists toy_c0, [OInit]. split; [exact toy_c0_created | reflexivity]. }
  split; [vm_compute; reflexivity|].
  split. { intros d [<- | [<- | []]]; discriminate. }
  split; [vm_compute; reflexivity|]. split; [vm_compute; reflexivity|].
  apply c02_differ; vm_compute; reflexivity.
Qed.
Print Assumptions c02_split_refuted.

(* a close_notify and the beginning of a record, in three pieces *)
Definition c02_pieces : list bytes := [[x15; x03]; [x03; x00; x02; x01; x00; x16]; [x03]].
Example c02_case : (forall d, In d c02_pieces -> d <> []) /\ reachable toy toy_client (run toy [OInit] toy_c0) /\
  (forall c1, loops toy (with_more (concat c02_pieces) (run toy [OInit] toy_c0)) (Ok tt, c1) -> hungry c1) /\
  fst (fst (feed toy c02_pieces (run toy [OInit] toy_c0))) = Ok tt /\
  snd (feed toy c02_pieces (run toy [OInit] toy_c0)) = [] /\
  c_in (fed (feed toy c02_pieces (run toy [OInit] toy_c0))) = [x16; x03] /\
  c_state (fed (feed toy c02_pieces (run toy [OInit] toy_c0))) = Closed true true.
Proof.
  split. { intros d [<- | [<- | [<- | []]]]; discriminate. }
  split. { exists toy_c0, [OInit]. split; [exact toy_c0_created | reflexivity]. }
  split; [apply hungry_check; vm_compute; reflexivity|].
  repeat split; vm_compute; reflexivity.
Qed.
(* an exception in the second of three pieces *)
Definition c02_bad : list bytes := [[x15; x03]; [x03; x00; x02; x02; x28; x16]; [x03]].
Example c02_case2 : is_nil (snd (feed toy c02_bad (run toy [OInit] toy_c0))) = false /\
  rekey_due (fed (feed toy c02_bad (run toy [OInit] toy_c0))) = false /\
  fst (receive_data toy (concat c02_bad) (run toy [OInit] toy_c0)) = Err (XAlert 40).
Proof. repeat split; vm_compute; reflexivity. Qed.
(* [c02_accepted] applies to the pieces above *)
Example c02_case3 : c02_pieces <> [] /\
  fst (receive_data toy (concat c02_pieces) (run toy [OInit] toy_c0)) = Ok tt /\
  hungry (snd (receive_data toy (concat c02_pieces) (run toy [OInit] toy_c0))) /\
  length (c_log (snd (receive_data toy (concat c02_pieces) (run toy [OInit] toy_c0)))) = 0%nat.
Proof.
  split; [discriminate|]. split; [vm_compute; reflexivity|]. split; [apply hungry_ok; vm_compute; reflexivity|].
  vm_compute; reflexivity.
Qed.
