(* Threads on the OCSP cache: executions. *)
From Coq Require Import ZArith.
From Verif Require Import Base OcspCache OcspThreads S_Threads.

(* a network on which every responder answers [2] *)
Definition th_net : http := mkHttp (fun _ => Ok (ascii_bytes "http"%string, [x01]))
  (fun _ _ => Ok (mkReply None None (fun _ => [x02]))).
Definition th_steps (i n : nat) : list event := repeat (EStep i th_net) n.
Definition th_req (n : nat) : bytes := [Nb (N.of_nat n)].
Definition th_call (i : nat) (c : tcall) (n : nat) : list event := EBegin i c :: th_steps i n.
Definition th_cache (until : N) (n : nat) : tcall := TCache until (th_req n) [x01].

(* thread 0 caches an answer; thread 1 is served from the cache while thread 2
   removes the entry, thread 0 is served by the network *)
Definition th_ops : list event :=
  th_call 0 (th_cache 5 7) 4 ++
  th_call 1 (TRequest None (th_req 7)) 1 ++ th_call 2 (TUncache (th_req 7)) 1 ++
  th_call 0 (TRequest None (th_req 7)) 2 ++ th_steps 1 1.
Definition th_served (h : happened) : option (nat * bytes) :=
  match h with HEnded i (TRequest _ _) _ _ (Ok (Some a)) => Some (i, a) | _ => None end.

(* an expired answer is asked for by two threads *)
Definition th_twice : list event :=
  th_call 0 (th_cache 5 7) 4 ++ [ETick 9] ++
  th_call 0 (TRequest None (th_req 7)) 2 ++ th_call 1 (TRequest None (th_req 7)) 2 ++
  th_steps 0 2 ++ th_steps 1 1.
Lemma hd_in A (x : A) l : hd_error l = Some x -> In x l.
Proof. destruct l; intro H; [discriminate H|]. injection H; intros ->. left. reflexivity. Qed.
Lemma keyerror_case : exists l i url req H now,
  In (HEnded i (TRequest url req) H now (Err XKey)) (t_past (trun l (t_start 2 0))) /\ exists a, fetch H url req = Ok a.
Proof.
  exists th_twice, 1%nat, None, (th_req 7), th_net, 9. split; [|exists [x02]; vm_compute; reflexivity].
  apply hd_in. vm_compute. reflexivity.
Qed.

(* the cache is full; thread 0 is interrupted between :73 and :74 *)
Fixpoint th_fill (n : nat) : list event :=
  match n with O => [] | S n' => th_fill n' ++ th_call 0 (th_cache 5 n') 4 end.
Definition th_leak (n : nat) : list event :=
  th_call 0 (th_cache 1 n) 6 ++ th_call 1 (th_cache 5 (n + 1)) 7 ++ th_steps 0 1.
Fixpoint th_leaks (rounds n : nat) : list event :=
  match rounds with O => [] | S r => th_leak n ++ th_leaks r (n + 2) end.
Definition th_much : list event := th_fill 64 ++ th_leaks 10 64.
Definition th_size (w : threads) : nat := length (k_map (t_k w)).
Lemma bound_case : exists l, (64 + 2 < length (k_map (t_k (trun l (t_start 2 0)))))%nat.
Proof.
  exists th_much. apply PeanoNat.Nat.ltb_lt. vm_compute. reflexivity.
Qed.
