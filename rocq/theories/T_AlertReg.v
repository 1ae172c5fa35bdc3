(* C78 *)
From Verif Require Import Base Serial Iana Ext Msg Conn AlertReg S_AlertReg P_AlertReg.

(* whatever alerts the connections of a process received before or receive
   meanwhile, in any number of threads, an alert has the effect that it has in a
   process that received nothing else *)
Theorem c78_alone : forall l i s v, In (AHap i s v) (a_past (arun l a_start)) ->
  a_past (arun [AParse i s; AProcess i] a_start) = [AHap i s v].
Proof. exact as_alone. Qed.
Print Assumptions c78_alone.

(* which is the one of the model of the connection, without a registry *)
Theorem c78_model : forall l i s v c, In (AHap i s v) (a_past (arun l a_start)) -> verdict_of s c v.
Proof. exact same_as_model. Qed.
Print Assumptions c78_model.

(* the classes of the package are never replaced *)
Theorem c78_kept : forall l d c, a_get d a_import = Some c -> a_get d (a_reg (arun l a_start)) = Some c.
Proof. exact kept. Qed.
Print Assumptions c78_kept.

(* and no peer makes the registry grow without bound *)
Theorem c78_small : forall l, NoDup (map fst (a_reg (arun l a_start))) /\ (length (a_reg (arun l a_start)) <= 256)%nat.
Proof. exact small. Qed.
Print Assumptions c78_small.

(* two threads receive alert 200, one with a warning, one fatal, a third a
   bad_record_mac that it processes last *)
Definition c78_events :=
  [AParse 0 (stream_of [x01; xc8]); AParse 1 (stream_of [x02; xc8]); AParse 2 (stream_of [x02; x14]);
   AProcess 1; AProcess 0; AProcess 2].
Example c78_case : a_past (arun c78_events a_start) =
  [AHap 2 (stream_of [x02; x14]) (VRaised (XAlert BAD_RECORD_MAC));
   AHap 0 (stream_of [x01; xc8]) (VRaised XAttr); AHap 1 (stream_of [x02; xc8]) (VRaised XType)] /\
  a_get 200 (a_reg (arun c78_events a_start)) = Some (mkAClass FATAL 200 false false) /\ a_get 200 a_import = None.
Proof. vm_compute. repeat split. Qed.
