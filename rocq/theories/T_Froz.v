(* C83 *)
From Coq Require Import String.
From Verif Require Import Base Froz S_Froz P_Froz.
Local Open Scope list_scope.

(* once freeze has returned, whatever is tried raises TypeError and changes
   nothing; freezing itself changed none of the parameters *)
Theorem c83_frozen d d1 : nc_freeze d = Ok d1 -> forall ops,
  frun ops d1 = d1 /\ Forall (fun r => r = Some XType) (fouts ops d1) /\
  forall n, n <> frozen_name -> lookup n d1 = lookup n d.
Proof. exact (frozen_all d d1). Qed.
Print Assumptions c83_frozen.

(* until then, and as long as nobody touches _frozen, the object is a record *)
Theorem c83_record ops d : nc_new = Ok d -> Forall leaves_flag ops ->
  shows (frun ops d) (vrun ops vault_new) /\ fouts ops d = vouts ops vault_new.
Proof. exact (follows ops d). Qed.
Print Assumptions c83_record.

Local Open Scope string_scope.
Definition c83_ops : list fop :=
  [FSet "cipher_suite" (PObj true 0x1301); FSet "alpn" PNone; FDel "peer_public_key"; FDel "peer_public_key"; FFreeze;
   FSet "alpn" (PObj true 1); FDel "cipher_suite"; FFreeze].
Example c83_case : exists d, nc_new = Ok d /\ Forall leaves_flag c83_ops /\
  fouts c83_ops d = [None; None; None; Some XAttr; None; Some XType; Some XType; Some XType] /\
  lookup "alpn" (frun c83_ops d) = Some PNone /\ lookup "cipher_suite" (frun c83_ops d) = Some (PObj true 0x1301) /\
  lookup "peer_public_key" (frun c83_ops d) = None.
Proof.
  eexists. split; [vm_compute; reflexivity|]. split; [repeat constructor; discriminate|]. repeat split; vm_compute; reflexivity.
Qed.
Example c83_case_frozen : exists d d1, nc_new = Ok d /\ nc_freeze d = Ok d1.
Proof. eexists. eexists. split; vm_compute; reflexivity. Qed.

(* Full statement: a new object can always be frozen.  Not after its own flag
   was deleted, then every assignment raises AttributeError. *)
Theorem c83_flag_refuted : exists d ops, nc_new = Ok d /\ fouts ops d = [None; Some XAttr; Some XAttr].
Proof.
  eexists. exists [FDel "_frozen"; FFreeze; FSet "alpn" PNone]. split; vm_compute; reflexivity.
Qed.
Print Assumptions c83_flag_refuted.
