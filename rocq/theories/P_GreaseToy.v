(* A server that gets what it does not know. *)
From Verif Require Import Base P_Base Iana Crypto Config Serial Ext Msg Cipher Kex Conn S_Hist S_Conn S_Grease P_Grease S_Nonce S_Send P_Answer2 Toy P_Toy.

Definition gr_random : bytes := be_bytes 32 7.
Definition gr_key : bytes := be_bytes 32 9.
Definition gr_exts : list ext :=
  [ESupVersionsReq [772]; ESigAlgs [ed25519]; ESupportedGroups [x25519]; EKeyShareReq [(x25519, gr_key)]].
(* the values of RFC 8701, the others in another order *)
Definition gr_greased : list ext :=
  [EUnknown 2570 []; EKeyShareReq [(14906, [x00]); (x25519, gr_key)]; ESupportedGroups [14906; x25519; 4588]; EUnknown 6682 [x00];
   ESigAlgs [10794; 2052; ed25519]; ESupVersionsReq [19018; 772; 771]; EPskModes [11]; EUnknown 65037 [x00; x01]].
Definition gr_suites : list N := [35466; 49195] ++ toy_suites ++ [255].
Ltac gr_tac := intros x I; vm_compute in I; repeat (destruct I as [<-|I]); [..|destruct I]; vm_compute; intuition discriminate.
Lemma gr_alike : agree (g_suites toy_server) toy_suites gr_suites /\ alike toy_server gr_exts gr_greased.
Proof.
  split; [intros x I; unfold gr_suites; rewrite !in_app_iff; cbn [In]; split; [tauto|]; intros [[<-|[<-|[]]]|[?|[<-|[]]]]; [| | assumption |];
    exfalso; vm_compute in I; intuition discriminate|].
  split; [vm_compute; repeat (constructor; [cbn [In]; intuition discriminate|]); constructor|].
  split; [vm_compute; repeat (constructor; [cbn [In]; intuition discriminate|]); constructor|].
  assert (V : agree [TLS_1_3] [772] [19018; 772; 771]) by gr_tac.
  assert (A : agree (g_sigalgs toy_server) [ed25519] [10794; 2052; ed25519]) by gr_tac.
  assert (G : agree (g_groups toy_server) [x25519] [14906; x25519; 4588]) by gr_tac.
  assert (K : same toy_server (EKeyShareReq [(x25519, gr_key)]) (EKeyShareReq [(14906, [x00]); (x25519, gr_key)])).
  { constructor.
    - constructor; [intros [] | constructor].
    - constructor; [intros [E|[]]; discriminate E | constructor; [intros [] | constructor]].
    - intros gr k I. cbn [In]. split; [intros [E|[]]; right; left; exact E|]. intros [E|[E|[]]]; [|left; exact E].
      injection E; intros; subst gr k. exfalso. vm_compute in I. intuition discriminate. }
  split; intros e I Hh; unfold gr_exts, gr_greased in *; cbn [In] in I.
  - destruct I as [<-|[<-|[<-|[<-|[]]]]].
    + eexists. split; [|apply same_versions; exact V]. cbn [In]. tauto.
    + eexists. split; [|apply same_algs; exact A]. cbn [In]. tauto.
    + eexists. split; [|apply same_groups; exact G]. cbn [In]. tauto.
    + eexists. split; [|exact K]. cbn [In]. tauto.
  - destruct I as [<-|[<-|[<-|[<-|[<-|[<-|[<-|[<-|[]]]]]]]]]; try (exfalso; vm_compute in Hh; intuition discriminate).
    + eexists. split; [|exact K]. cbn [In]. tauto.
    + eexists. split; [|apply same_groups; exact G]. cbn [In]. tauto.
    + eexists. split; [|apply same_algs; exact A]. cbn [In]. tauto.
    + eexists. split; [|apply same_versions; exact V]. cbn [In]. tauto.
Qed.
(* the bytes of a hello; an extension given as EUnknown stands for its bytes *)
Definition gr_wire (suites : list N) (exts : list ext) : bytes := record CT_HANDSHAKE (ser_or (HClientHello gr_random [] suites exts)).
Definition gr_s := run toy [OInit] toy_s0.
Lemma gr_reachable : reachable toy toy_server gr_s.
Proof. exists toy_s0; eexists; split; [exact toy_s0_created | reflexivity]. Qed.
