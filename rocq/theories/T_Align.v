From Verif Require Import Base Utils S_Utils P_Align.

(* C41: the offsets of the lines are all as wide, the least multiple of four
   digits that the number of bytes fits in *)
Theorem c41_aligned b : b <> [] -> exists w, w mod 4 = 0 /\ blen b < 16 ^ w /\ 16 ^ (w - 4) <= blen b /\
  Forall (fun line => N.of_nat (length (fst (cut_colon line))) = w) (split_lines (hexdump b)).
Proof. exact (aligned b). Qed.
Print Assumptions c41_aligned.
Example c41_aligned_case : map (fun line => fst (cut_colon line)) (split_lines (hexdump (repeat x07 17))) =
  [ascii_bytes "0000"%string; ascii_bytes "0010"%string].
Proof. vm_compute. reflexivity. Qed.
