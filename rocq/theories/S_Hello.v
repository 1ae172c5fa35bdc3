(* What a ClientHello must look like, RFC 8446 4.1.2, 4.2.8 and 9.2. *)
From Verif Require Import Base Iana Crypto Config Ext Msg S_Auth.

Definition own_hello (e : hmsg) : Prop := m_side e = Client /\ m_type e = 1.
(* made from the configuration [g] *)
Definition wellformed (g : config) (random : bytes) (h : hs) : Prop :=
  exists suites exts groups group share,
    h = HClientHello random [] suites exts /\
    suites <> [] /\ incl suites (g_suites g) /\ NoDup (map ext_type exts) /\
    ext_get 43 exts = Some (ESupVersionsReq [0x0304]) /\            (* supported_versions *)
    ext_get 13 exts = Some (ESigAlgs (g_sigalgs g)) /\              (* signature_algorithms *)
    ext_get 10 exts = Some (ESupportedGroups groups) /\ incl groups (g_groups g) /\
    ext_get 51 exts = Some (EKeyShareReq [(group, share)]) /\ In group groups /\
    ext_get 41 exts = None /\ ext_get 42 exts = None.               (* neither PSK nor early data *)
(* the last ClientHello of a handshake *)
Definition last_hello (l : list hmsg) (d : bytes) : Prop :=
  exists l1 l2, l = l1 ++ (Client, 1, d) :: l2 /\ Forall (fun e => ~ own_hello e) l2.
(* RFC 8446 4.1.2: what a second ClientHello may change *)
Definition mutable (t : N) : Prop := In t [51; 42; 44; 41; 21].     (* key_share, early_data, cookie, pre_shared_key, padding *)
Definition same_hello (h h' : hs) : Prop :=
  exists random sid suites exts exts', h = HClientHello random sid suites exts /\ h' = HClientHello random sid suites exts' /\
    forall t, ~ mutable t -> ext_get t exts' = ext_get t exts.
