(* C83: a record that can be sealed *)
From Coq Require Import String.
From Verif Require Import Base Froz.

(* code that minds its own business *)
Definition leaves_flag (o : fop) : Prop :=
  match o with FSet n _ | FDel n => n <> frozen_name | FFreeze => True end.

(* the record as finitely many named values, and a seal *)
Record vault := mkVault { v_vals : string -> option pval; v_sealed : bool }.
Definition vnext (o : fop) (v : vault) : vault * option exn :=
  if v_sealed v then (v, Some XType)
  else match o with
  | FSet n x => (mkVault (fun k => if String.eqb k n then Some x else v_vals v k) false, None)
  | FDel n => match v_vals v n with
              | None => (v, Some XAttr)
              | Some _ => (mkVault (fun k => if String.eqb k n then None else v_vals v k) false, None)
              end
  | FFreeze => (mkVault (v_vals v) true, None)
  end.
Fixpoint vrun (l : list fop) (v : vault) : vault :=
  match l with [] => v | o :: l' => vrun l' (fst (vnext o v)) end.
Fixpoint vouts (l : list fop) (v : vault) : list (option exn) :=
  match l with [] => [] | o :: l' => snd (vnext o v) :: vouts l' (fst (vnext o v)) end.

(* the object shows what the vault holds *)
Definition shows (d : dict) (v : vault) : Prop :=
  NoDup (map fst d) /\ lookup frozen_name d = Some (PBool (v_sealed v)) /\
  forall n, n <> frozen_name -> lookup n d = v_vals v n.
(* a new one: the protocol of the application is not known yet, the other
   parameters are not set *)
Definition parameters : list string :=
  ["cipher_suite"; "key_exchange"; "signature_algorithm"; "max_fragment_length"; "can_send_heartbeat"; "can_echo_heartbeat";
   "client_certificate_type"; "server_certificate_type"; "peer_want_ocsp_stapling"; "peer_certificate"; "peer_public_key"]%string.
Definition vault_new : vault :=
  mkVault (fun n => if String.eqb n "alpn" then Some PEllipsis else if existsb (String.eqb n) parameters then Some PNone else None) false.
