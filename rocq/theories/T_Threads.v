(* C59 *)
From Verif Require Import Base OcspCache OcspThreads S_Threads P_Threads P_ThreadsToy.

(* C59.  However the threads are interleaved, an answer served by request is
   what the responder just gave, or one that was given to cache, for this very
   request, with a limit that has not passed when it is served. *)
Theorem c59_served : forall n t0 l i url req H now a l1 l2,
  t_past (trun l (t_start n t0)) = l1 ++ HEnded i (TRequest url req) H now (Ok (Some a)) :: l2 ->
  fetch H url req = Ok a \/
  exists j until, In (HBegan j (TCache until req a)) l2 /\ now < until.
Proof. exact threads_served. Qed.
Print Assumptions c59_served.

(* up to 64 threads never make cache or uncache fail *)
Theorem c59_cache_fine : forall n t0 l i c H now r, (n <= 64)%nat ->
  In (HEnded i c H now r) (t_past (trun l (t_start n t0))) ->
  match c with TRequest _ _ => True | _ => r = Ok None end.
Proof. exact threads_fine. Qed.
Print Assumptions c59_cache_fine.

(* the list of limits stays bounded *)
Theorem c59_limits : forall n t0 l, (length (k_heap (t_k (trun l (t_start n t0)))) <= 63 + n)%nat.
Proof. exact threads_small. Qed.
Print Assumptions c59_limits.

(* a call that is not interrupted does what the function does (C37, C38) *)
Theorem c59_alone : forall H now c k, exists n, forall m, (n <= m)%nat ->
  match c with
  | TRequest url req =>
    talone m H now k (begin_call c) =
    Some (match fst (request H now url req k) with Ok a => Ok (Some a) | Err e => Err e end, snd (request H now url req k))
  | TCache until req r => exists k1, cache until req r k = Ok k1 /\ talone m H now k (begin_call c) = Some (Ok None, k1)
  | TUncache req => talone m H now k (begin_call c) = Some (Ok None, uncache req k)
  end.
Proof. exact threads_alone. Qed.
Print Assumptions c59_alone.

(* three threads: the first caches an answer, the second is served it though the
   third has removed it meanwhile, the first asks the responder *)
Example c59_case : map th_served (t_past (trun th_ops (t_start 3 0))) =
  [Some (1%nat, [x01]); Some (0%nat, [x02]); None; None; None; None; None; None].
Proof. vm_compute. reflexivity. Qed.
Example c59_cached : existsb (fun h => match h with HEnded _ (TCache _ _ _) _ _ (Ok None) => true | _ => false end)
  (t_past (trun th_ops (t_start 3 0))) = true.
Proof. vm_compute. reflexivity. Qed.

(* FULL STATEMENT, refuted: request raises only what asking the responder
   raises.  Two threads that find the same expired entry both delete it, the
   second one gets KeyError. *)
Theorem c59_keyerror_refuted : exists l i url req H now,
  In (HEnded i (TRequest url req) H now (Err XKey)) (t_past (trun l (t_start 2 0))) /\ exists a, fetch H url req = Ok a.
Proof. exact keyerror_case. Qed.
Print Assumptions c59_keyerror_refuted.

(* FULL STATEMENT, refuted: the cache keeps at most 64 entries (C37), and one
   more per thread. *)
Theorem c59_bound_refuted : exists l, (64 + 2 < length (k_map (t_k (trun l (t_start 2 0)))))%nat.
Proof. exact bound_case. Qed.
Print Assumptions c59_bound_refuted.
