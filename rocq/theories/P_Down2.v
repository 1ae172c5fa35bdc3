(* The Finished of the server stands for the terms. *)
From Verif Require Import Base Iana Crypto Config Ext Msg Cipher Kex Conn S_Hist S_Conn S_Send S_Utils S_Keys S_Auth S_Server S_Codec S_Agree S_Terms S_Down
  P_Agree P_Down.
Section down.
Variable C : crypto.
Hypothesis As : aead_sized C.
Hypothesis Hs : hmac_sized C.
Hypothesis Hh : hash_sized C.
Lemma no_downgrade gc gs c s sd : g_side gc = Client -> reachable C gc c -> c_state c = Connected -> few c ->
  g_side gs = Server -> started C gs s -> c_state s = Connected -> few s ->
  Forall (Forall (fun b => 32 <= bN b <= 126)) (g_alpn gc) -> host_fine C (c_host c) ->
  In (SFin sd) (c_hs c) -> In (SFin sd) (c_hs s) ->
  best_terms C gc gs c s \/ finished_clash C c s \/ digest_mixup C gc c s.
Proof.
  intros Gc Rc Sc Fc Gs Rs Ss Fs Ha Hf I1 I2.
  destruct (bound C As Hs Hh gc gs c s sd Gc Rc Sc Fc Gs Rs Ss Fs I1 I2) as [(ms & r & r' & E & E' & N)|X]; [left | right; exact X].
  apply best; try assumption. exists ms, sd, r, r'. auto.
Qed.
End down.
