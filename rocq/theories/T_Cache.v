From Coq Require Import ZArith.
From Verif Require Import Base OcspCache P_Base S_Cache P_Cache.

(* C37 *)
Theorem c37_bounded ops : exists k, krun ops k_empty = Ok k /\ (entries k <= 64)%nat /\ (length (k_heap k) <= 64)%nat.
Proof. exact (cache_bounded ops). Qed.
Print Assumptions c37_bounded.
Theorem c37_fresh ops H now url q k r k' : krun ops k_empty = Ok k -> request H now url q k = (Ok r, k') ->
  downloaded H url q r \/ exists until, given ops q r until /\ now < until.
Proof. exact (request_fresh ops H now url q k r k'). Qed.
Print Assumptions c37_fresh.
Theorem c37_forgets ops H now url q k r k' : krun (ops ++ [KUncache q]) k_empty = Ok k ->
  request H now url q k = (Ok r, k') -> downloaded H url q r.
Proof. exact (request_after_uncache ops H now url q k r k'). Qed.
Print Assumptions c37_forgets.
Theorem c37_served until q r k k' H now url : assocB q (k_map k) = None -> cache until q r k = Ok k' -> r <> [] -> now < until ->
  request H now url q k' = (Ok r, k').
Proof. exact (request_served until q r k k' H now url). Qed.
Print Assumptions c37_served.

(* a network that is down, and one hundred requests *)
Definition c37_down : http := mkHttp (fun _ => Err XValue) (fun _ _ => Err XRuntime).
Definition c37_req (i : nat) : bytes := [Nb (N.of_nat i)].
Definition c37_ops := map (fun i => KCache (N.of_nat (1000 - i)) (c37_req i) [x01; Nb (N.of_nat i)]) (seq 0 100).
Definition c37_ask (q : bytes) (now : N) (ops : list kop) : option (res bytes) :=
  match krun ops k_empty with Ok k => Some (fst (request c37_down now None q k)) | Err _ => None end.
Example c37_case : match krun c37_ops k_empty with Ok k => Nat.eqb (entries k) 64 | Err _ => false end = true.
Proof. vm_compute. reflexivity. Qed.
(* the answers that were evicted are those that would expire first *)
Example c37_case2 : c37_ask (c37_req 7) 5 c37_ops = Some (Ok [x01; x07]) /\ c37_ask (c37_req 90) 5 c37_ops = Some (Err XValue).
Proof. split; vm_compute; reflexivity. Qed.
Example c37_case3 : c37_ask (c37_req 7) 993 c37_ops = Some (Err XValue) /\
  c37_ask (c37_req 7) 5 (c37_ops ++ [KUncache (c37_req 7)]) = Some (Err XValue).
Proof. split; vm_compute; reflexivity. Qed.

(* An expired or withdrawn entry stays in the heap; when it is popped, the newer
   answer cached since for the same request is dropped before its time while
   other answers, that expire sooner, stay. *)
Definition c37_stale := KCache 10 (c37_req 0) [x01] :: KUncache (c37_req 0) :: KCache 5000 (c37_req 0) [x02] ::
  map (fun i => KCache (N.of_nat (100 + i)) (c37_req i) [x03]) (seq 1 63).
Example c37_case_dropped : c37_ask (c37_req 0) 20 c37_stale = Some (Err XValue) /\
  c37_ask (c37_req 1) 20 c37_stale = Some (Ok [x03]).
Proof. split; vm_compute; reflexivity. Qed.

(* C45.  Full statement: a request that the cache does not answer reads at most
   20480 bytes.  The size passed to read is at most 20480, but is negative when
   Content-Length is, which reads everything. *)
Theorem c45_size_partial H now url q k r k' :
  (forall r' u, assocB q (k_map k) = Some (r', u) -> r' = [] \/ u <= now) -> request H now url q k = (Ok r, k') ->
  exists reply n, ht_open H url q = Ok reply /\ r = hr_read reply n /\ (n <= 20480)%Z /\
    ((n < 0)%Z -> hr_length reply = Some (Ok n)).
Proof. exact (request_size H now url q k r k'). Qed.
Print Assumptions c45_size_partial.
(* so it is bounded when Content-Length is absent or not negative *)
Theorem c45_bounded_partial H now url q k r k' :
  (forall r' u, assocB q (k_map k) = Some (r', u) -> r' = [] \/ u <= now) ->
  (forall reply n, ht_open H url q = Ok reply -> (0 <= n)%Z -> blen (hr_read reply n) <= Z.to_N n) ->
  (forall reply n, ht_open H url q = Ok reply -> hr_length reply = Some (Ok n) -> (0 <= n)%Z) ->
  request H now url q k = (Ok r, k') -> blen r <= 20480.
Proof. exact (request_bounded H now url q k r k'). Qed.
Print Assumptions c45_bounded_partial.
(* no header, an answer of 30000 bytes *)
Definition c45_body (n : Z) (b : bytes) : bytes := if Z.ltb n 0 then b else firstn (Z.to_nat n) b.
Definition c45_long (b : bytes) : http := mkHttp (fun _ => Ok (ascii_bytes "http"%string, [x61]))
  (fun _ _ => Ok (mkReply None None (fun n => c45_body n b))).
Lemma c45_long_fine b :
  (forall reply n, ht_open (c45_long b) None [x00] = Ok reply -> (0 <= n)%Z -> blen (hr_read reply n) <= Z.to_N n) /\
  (forall reply n, ht_open (c45_long b) None [x00] = Ok reply -> hr_length reply = Some (Ok n) -> (0 <= n)%Z).
Proof.
  split; intros reply n E; injection E; intros <-; [|discriminate].
  intro Hn. apply Z.ltb_ge in Hn as L. cbn [hr_read]. unfold c45_body. rewrite L. unfold blen. rewrite firstn_length. lia.
Qed.
Definition c45_bytes : bytes := repeat x00 (N.to_nat 30000).
Example c45_case_long :
  match request (c45_long c45_bytes) 7 None [x00] (mkK [([x00], ([x02], 5))] []) with (Ok r, _) => blen r =? 20480 | _ => false end = true /\
  (forall reply n, ht_open (c45_long c45_bytes) None [x00] = Ok reply -> (0 <= n)%Z -> blen (hr_read reply n) <= Z.to_N n) /\
  (forall reply n, ht_open (c45_long c45_bytes) None [x00] = Ok reply -> hr_length reply = Some (Ok n) -> (0 <= n)%Z).
Proof. split; [vm_compute; reflexivity | exact (c45_long_fine c45_bytes)]. Qed.
Definition c45_http : http := mkHttp (fun _ => Ok (ascii_bytes "http"%string, [x61]))
  (fun _ _ => Ok (mkReply None (Some (Ok (-1)%Z)) (fun n => if Z.ltb n 0 then repeat x00 (N.to_nat 30000) else repeat x00 (Z.to_nat n)))).
Theorem c45_size_refuted : exists H reply url q, ht_open H url q = Ok reply /\
  (forall n, (0 <= n)%Z -> blen (hr_read reply n) <= Z.to_N n) /\
  match request H 0 url q k_empty with (Ok r, _) => (20480 <? blen r) | _ => false end = true.
Proof.
  exists c45_http. eexists. exists None, [x00]. split; [reflexivity|]. split.
  - intros n Hn. cbn [hr_read]. apply Z.ltb_ge in Hn. rewrite Hn. unfold blen. rewrite repeat_length. lia.
  - vm_compute. reflexivity.
Qed.
Print Assumptions c45_size_refuted.
Example c45_case : match request c45_http 0 None [x00] (mkK [([x01], ([x02], 5))] []) with (Ok r, _) => blen r =? 30000 | _ => false end = true.
Proof. vm_compute. reflexivity. Qed.
