(* The registry of the extension classes: executions. *)
From Verif Require Import Base Serial Iana Crypto Ext Registry S_Registry Toy.

(* an extension of type 2a2a without data, and a psk_key_exchange_modes *)
Definition rg_s : stream := stream_of [x2a; x2a; x00; x00].
Definition rg_m : stream := stream_of [x00; x2d; x00; x02; x01; x01].
Definition rg_race : list revent :=
  [RBegin 0 NClientHello rg_s; RBegin 1 NClientHello rg_s; RStep 0; RStep 1; RStep 0; RStep 1; RStep 0; RStep 1].
(* afterwards both parse it, and something else *)
Definition rg_more : list revent :=
  [RBegin 0 NClientHello rg_s; RBegin 1 NEncryptedExt rg_s; RStep 1; RStep 0; RStep 0; RStep 1; RStep 0; RStep 1;
   RBegin 0 NClientHello rg_m; RStep 0].
Definition rg_fine (h : rhap) : bool := match h with REnded _ _ _ (Err _) => false | _ => true end.
Definition rg_ext (h : rhap) : option (N * ext) := match h with REnded i _ _ (Ok (e, _)) => Some (N.of_nat i, e) | _ => None end.
Lemma race_case C : exists l i h s a,
  In (REnded i h s (Err XAttr)) (r_past (rrun C l (r_start 2))) /\ parse_ext C h s = Ok a.
Proof.
  exists rg_race, 1%nat, NClientHello, rg_s. eexists. split; [left; reflexivity | vm_compute; reflexivity].
Qed.

Definition rg_ok (e : ext) (s : stream) : res (ext * stream) := Ok (e, mkStream (s_data s) (N.of_nat (length (s_data s))) []).
Definition rg_u : ext := EUnknown 10794 [].
Lemma settled_case : exists l1 l3 l4 r, r_past (rrun toy (rg_race ++ rg_more) (r_start 2)) =
  l1 ++ REnded 1 NEncryptedExt rg_s r :: l3 ++ RBegan 1 NEncryptedExt rg_s :: l4 /\
  (forall a b, ~ In (RBegan 1 a b) l3) /\ In (REnded 1 NClientHello rg_s (Err XAttr)) l4 /\ of_type rg_s 10794.
Proof.
  exists [REnded 0 NClientHello rg_m (rg_ok (EPskModes [1]) rg_m); RBegan 0 NClientHello rg_m],
    [REnded 0 NClientHello rg_s (rg_ok rg_u rg_s)],
    [RBegan 0 NClientHello rg_s; REnded 1 NClientHello rg_s (Err XAttr); REnded 0 NClientHello rg_s (rg_ok rg_u rg_s);
     RBegan 1 NClientHello rg_s; RBegan 0 NClientHello rg_s], (rg_ok rg_u rg_s).
  split; [vm_compute; reflexivity|]. split; [intros a b [E|[]]; discriminate E|].
  split; [right; left; reflexivity | eexists; vm_compute; reflexivity].
Qed.
