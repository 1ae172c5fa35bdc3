(* C86 *)
From Verif Require Import Base P_Base Iana Crypto Cipher Transcript TrApi S_TrApi P_TrApi Toy.

(* C86.  Full statement: a Transcript in the hands of any caller accepts the
   messages of a handshake in the order of RFC 8446 and no others, its digest is
   the hash of the messages accepted, in both notations, it does not matter when
   the algorithm gets known, a refused message changes nothing, nothing is
   hashed after the last message, and no call fails otherwise.
   Missing: a client's CertificateVerify is accepted without a Certificate
   (c86_loose_refuted), a refused message may move the place
   (c86_moved_refuted), digest() answers before the algorithm is known
   (c86_early_refuted), and clone() always raises AttributeError (c86_total). *)
Theorem c86_order_partial : forall C flip suites t ms, tr_new flip suites = Ok t ->
  (Forall fine (fst (trun C (map upd ms) t)) <-> exists w, flow w /\ (begins (order ms) w \/ begins w (order ms))).
Proof. exact order_exact. Qed.
Print Assumptions c86_order_partial.
Theorem c86_digest : forall C flip suites t s h a b w, tr_new flip suites = Ok t -> In s suites -> suite_hash s = Some h -> flow w -> begins (order (a ++ b)) w ->
  fst (trun C (map upd a ++ [TPost h] ++ map upd b ++ [TDigest; THex]) t) =
    repeat (Ok RNone) (length a) ++ [Ok RNone] ++ repeat (Ok RNone) (length b) ++
    [Ok (RBytes (cr_hash C h (said (a ++ b)))); Ok (RBytes (in_hex (cr_hash C h (said (a ++ b)))))].
Proof. exact digest_exact. Qed.
Print Assumptions c86_digest.
Theorem c86_end : forall C flip suites t s h a b, tr_new flip suites = Ok t -> In s suites -> suite_hash s = Some h -> flow (order a) ->
  fst (trun C (map upd a ++ [TPost h] ++ map upd b ++ [TDigest]) t) =
    repeat (Ok RNone) (length a) ++ [Ok RNone] ++ repeat (Ok RNone) (length b) ++ [Ok (RBytes (cr_hash C h (said a)))].
Proof. exact end_exact. Qed.
Print Assumptions c86_end.
(* after any history in which the algorithm got known, a HelloRetryRequest
   starts over: RFC 8446 section 4.4.1 *)
Theorem c86_retry : forall C flip suites t l h sd chash ms w, tr_new flip suites = Ok t -> last (fst (trun C (l ++ [TPost h]) t)) (Err XFuel) = Ok RNone ->
  flow w -> begins (order ms) (match sd with Client => w | Server => (Server, 2) :: w end) ->
  last (fst (trun C (l ++ [TPost h] ++ [TDance sd chash] ++ map upd ms ++ [TDigest]) t)) (Err XFuel) =
    Ok (RBytes (cr_hash C h ([xfe; x00; x00; Nb (digest_size h)] ++ chash ++ said ms))).
Proof. exact retry_exact. Qed.
Print Assumptions c86_retry.
Theorem c86_total : forall C flip suites t l, tr_new flip suites = Ok t -> Forall2 may l (fst (trun C l t)).
Proof. exact total. Qed.
Print Assumptions c86_total.
Theorem c86_refused_partial : forall C d sd ty t e t' h, tcall_step C (TUpdate d sd ty) t = (Err e, t') ->
  fst (trun C [TDigest; TPost h; TDigest] t') = fst (trun C [TDigest; TPost h; TDigest] t).
Proof. exact refused_digest. Qed.
Print Assumptions c86_refused_partial.

(* both algorithms are offered; the server asks for no certificate *)
Definition tra_suites : list N := [4865; 4866].
Definition tra_t : transcript := match tr_new false tra_suites with Ok t => t | Err _ => mkTr [] 0 end.
Definition tra_all : list tmsg :=
  [([x01], (Client, 1)); ([x02], (Server, 2)); ([x08], (Server, 8)); ([x0b], (Server, 11)); ([x0f], (Server, 15)); ([x14], (Server, 20)); ([x15], (Client, 20))].
Example c86_case : tr_new false tra_suites = Ok tra_t /\ length (t_hashes tra_t) = 2%nat /\ flow (order tra_all) /\ begins (order (firstn 1 tra_all ++ firstn 2 (tl tra_all))) (order tra_all) /\
  suite_hash 4866 = Some SHA384 /\ Forall fine (fst (trun toy (map upd tra_all) tra_t)) /\
  fst (tcall_step toy (TUpdate [x07] Server 11) tra_t) = Err (XAlert UNEXPECTED_MESSAGE).
Proof.
  split; [reflexivity|]. split; [reflexivity|]. split; [exists false, false, false, false; reflexivity|]. split; [exists (order (skipn 3 tra_all)); reflexivity|].
  split; [reflexivity|]. split; [vm_compute; repeat constructor | vm_compute; reflexivity].
Qed.
Example c86_retry_case : last (fst (trun toy ([upd ([x01], (Client, 1)); upd ([x02], (Server, 2))] ++ [TPost SHA384]) tra_t)) (Err XFuel) = Ok RNone /\
  begins (order [([x02], (Server, 2)); ([x01], (Client, 1))]) ((Server, 2) :: order tra_all).
Proof. split; [vm_compute; reflexivity|]. exists (order (tl tra_all)). reflexivity. Qed.

(* RFC 8446 section 4.4.3: a CertificateVerify follows a Certificate at once *)
Theorem c86_loose_refuted : exists C flip suites t a b, tr_new flip suites = Ok t /\ ~ In (Client, 11) (order a) /\
  Forall fine (fst (trun C (map upd (a ++ [([x0f], (Client, 15))] ++ b)) t)).
Proof.
  exists toy, false, tra_suites, tra_t, (firstn 6 tra_all), (skipn 6 tra_all). split; [reflexivity|].
  split; [vm_compute; intuition discriminate | vm_compute; repeat constructor].
Qed.
Print Assumptions c86_loose_refuted.
(* a refused Finished: then a CertificateRequest is refused that was not *)
Theorem c86_moved_refuted : exists C flip suites t a x m, tr_new flip suites = Ok t /\ Forall fine (fst (trun C (map upd (a ++ [m])) t)) /\
  fst (trun C [upd x; upd m] (snd (trun C (map upd a) t))) = [Err (XAlert UNEXPECTED_MESSAGE); Err (XAlert UNEXPECTED_MESSAGE)].
Proof.
  exists toy, false, tra_suites, tra_t, (firstn 3 tra_all), ([x14], (Server, 20)), ([x0d], (Server, 13)).
  split; [reflexivity|]. split; [vm_compute; repeat constructor | vm_compute; reflexivity].
Qed.
Print Assumptions c86_moved_refuted.
(* before post_init the digest is of either algorithm, as the set is listed *)
Theorem c86_early_refuted : exists C suites t t' ms, tr_new false suites = Ok t /\ tr_new true suites = Ok t' /\
  last (fst (trun C (map upd ms ++ [TDigest]) t)) (Err XFuel) <> last (fst (trun C (map upd ms ++ [TDigest]) t')) (Err XFuel) /\
  last (fst (trun C (map upd ms ++ [TDigest]) t)) (Err XFuel) = Ok (RBytes (cr_hash C SHA256 (said ms))).
Proof.
  eexists toy, tra_suites, tra_t, _, (firstn 1 tra_all). split; [reflexivity|]. split; [reflexivity|]. split; [vm_compute; discriminate | vm_compute; reflexivity].
Qed.
Print Assumptions c86_early_refuted.
