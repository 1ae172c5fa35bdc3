(* RFC 5764 section 4.1.1 (use_srtp) and RFC 8446 section 4.2.4
   (certificate_authorities): the bytes of the extensions. *)
From Verif Require Import Base S_Layout.

Definition srtp_bytes (profiles : list (byte * byte)) (mki : bytes) : bytes :=
  vec 2 (concat (map (fun p => [fst p; snd p]) profiles)) ++ vec 1 mki.
Definition srtp_fits (profiles : list (byte * byte)) (mki : bytes) : Prop :=
  2 * N.of_nat (length profiles) < 2 ^ 16 /\ N.of_nat (length mki) < 2 ^ 8.
Definition authorities_bytes (l : list bytes) : bytes := vec 2 (concat (map (vec 2) l)).
Definition authorities_fit (l : list bytes) : Prop :=
  Forall (fun x => N.of_nat (length x) < 2 ^ 16) l /\ N.of_nat (length (concat (map (vec 2) l))) < 2 ^ 16.
