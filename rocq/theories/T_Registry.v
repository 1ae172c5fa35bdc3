(* C60 *)
From Verif Require Import Base Serial Iana Crypto Ext Registry S_Registry Toy P_Registry P_RegistryToy.

(* C60.  In a process with one thread the registry is not observable: whatever
   was parsed before, by whatever connection, an extension is parsed as in a
   process that has just started. *)
Theorem c60_sequential : forall C calls,
  fst (parse_seq C calls g_empty) = map (fun x => parse_ext C (fst x) (snd x)) calls.
Proof. exact parse_seq_fresh. Qed.
Print Assumptions c60_sequential.

(* FULL STATEMENT, refuted below: with threads too.  What may happen instead is
   an AttributeError, for a type without a class only. *)
Theorem c60_threads_partial : forall C n l i h s r, In (REnded i h s r) (r_past (rrun C l (r_start n))) ->
  r = parse_ext C h s \/ (r = Err XAttr /\ exists ty, of_type s ty /\ registry ty = None).
Proof. exact threads_parse. Qed.
Print Assumptions c60_threads_partial.

(* and only while the type is new: not if a call for the same type had ended
   when this one began *)
Theorem c60_settled : forall C n l l1 l3 l4 i h s r j h' s' r' ty,
  r_past (rrun C l (r_start n)) = l1 ++ REnded i h s r :: l3 ++ RBegan i h s :: l4 ->
  (forall a b, ~ In (RBegan i a b) l3) ->
  In (REnded j h' s' r') l4 -> of_type s ty -> of_type s' ty -> r = parse_ext C h s.
Proof. exact threads_settled. Qed.
Print Assumptions c60_settled.

(* what the peers can make it hold *)
Theorem c60_bounded : forall C n l, N.of_nat (length (g_made (r_reg (rrun C l (r_start n))))) <= 65536.
Proof. exact threads_registry. Qed.
Print Assumptions c60_bounded.

Theorem c60_race_refuted : exists C l i h s a,
  In (REnded i h s (Err XAttr)) (r_past (rrun C l (r_start 2))) /\ parse_ext C h s = Ok a.
Proof. exists toy. exact (race_case toy). Qed.
Print Assumptions c60_race_refuted.

(* after the race both threads parse the extension *)
Example c60_case : map rg_ext (r_past (rrun toy (rg_race ++ rg_more) (r_start 2))) =
  [Some (0, EPskModes [1]); None; Some (1, EUnknown 10794 []); Some (0, EUnknown 10794 []); None; None;
   None; Some (0, EUnknown 10794 []); None; None].
Proof. vm_compute. reflexivity. Qed.
Example c60_settled_case : exists l1 l3 l4 r, r_past (rrun toy (rg_race ++ rg_more) (r_start 2)) =
  l1 ++ REnded 1 NEncryptedExt rg_s r :: l3 ++ RBegan 1 NEncryptedExt rg_s :: l4 /\
  (forall a b, ~ In (RBegan 1 a b) l3) /\ In (REnded 1 NClientHello rg_s (Err XAttr)) l4 /\ of_type rg_s 10794.
Proof.
  exact settled_case.
Qed.
Example c60_sequential_case : fst (parse_seq toy [(NClientHello, rg_s); (NClientHello, rg_m); (NEncryptedExt, rg_s); (NEncryptedExt, rg_m)] g_empty) =
  [Ok (EUnknown 10794 [], snd (read_all rg_s)); Ok (EPskModes [1], snd (read_all rg_m)); Ok (EUnknown 10794 [], snd (read_all rg_s)); Err (XAlert ILLEGAL_PARAMETER)].
Proof. vm_compute. reflexivity. Qed.
