(* Two executions that differ only in private keys (C79). *)
From Verif Require Import Base P_Base Iana Crypto Config Serial Ext Msg Hkdf Cipher Kex Sig Ocsp Transcript Conn S_Hist S_Conn S_Send S_Auth S_Veil S_Secret P_Monad P_Frame P_Rec P_Hist.

Section walk.
Variable C : crypto.
Variables (r0 r : N -> bytes) (k0 k : option bytes).
Hypothesis Tr : forall i, twin_keys C (r0 i) (r i).
Hypothesis Tk : twin_signers C k0 k.

Definition share_like (a b : N * bytes) : Prop := fst b = fst a /\ twin_keys C (snd a) (snd b).
Definition stl (s0 s : state) : Prop :=
  s = s0 \/ exists f l l' h, s0 = ClientWaitServerHello f l h /\ s = ClientWaitServerHello f l' h /\ Forall2 share_like l l'.
Definition swap (s : state) (c : conn) : conn := cset_state s (disguise k r c).
Definition ok (s : state) (c : conn) : Prop := c_rng c = r0 /\ g_private (c_config c) = k0 /\ stl (c_state c) s.
Definition agree {A} (RA : A -> A -> Prop) (x y : res A) : Prop :=
  match x, y with Ok a, Ok b => RA a b | Err e, Err e' => e' = e | _, _ => False end.
Definition parr {A} (RA : A -> A -> Prop) (m m' : M A) : Prop := forall c s, ok s c -> exists s',
  ok s' (snd (m c)) /\ snd (m' (swap s c)) = swap s' (snd (m c)) /\ agree RA (fst (m c)) (fst (m' (swap s c))).
Notation par := (parr eq).

Lemma stl_send s0 s : stl s0 s -> can_send s = can_send s0.
Proof. intros [->|(f & l & l' & h & -> & -> & _)]; reflexivity. Qed.
Lemma stl_app s0 s : stl s0 s -> can_send_app s = can_send_app s0.
Proof. intros [->|(f & l & l' & h & -> & -> & _)]; reflexivity. Qed.
Lemma stl_recv s0 s : stl s0 s -> can_receive s = can_receive s0.
Proof. intros [->|(f & l & l' & h & -> & -> & _)]; reflexivity. Qed.
Lemma agree_eq A (x y : res A) : x = y -> agree eq x y.
Proof. intros ->. destruct y; reflexivity. Qed.

Lemma pa_same A (m m' : M A) : (forall c, c_rng (snd (m c)) = c_rng c) -> (forall c, g_private (c_config (snd (m c))) = g_private (c_config c)) ->
  (forall c, c_state (snd (m c)) = c_state c) -> (forall c s, m' (swap s c) = (fst (m c), swap s (snd (m c)))) -> par m m'.
Proof.
  intros H1 H2 H3 H4 c s (O1 & O2 & O3). exists s. rewrite H4. cbn [fst snd]. split; [|split; [reflexivity | apply agree_eq; reflexivity]].
  split; [rewrite H1; exact O1|]. split; [rewrite H2; exact O2 | rewrite H3; exact O3].
Qed.
Lemma pa_ret A (a : A) : par (ret a) (ret a). Proof. apply pa_same; reflexivity. Qed.
Lemma pa_raise A (R : A -> A -> Prop) e : parr R (raise e) (raise e).
Proof. intros c s O. exists s. split; [exact O|]. split; reflexivity. Qed.
Lemma pa_lift A (x y : res A) : y = x -> par (lift x) (lift y). Proof. intros ->. apply pa_same; reflexivity. Qed.
Lemma pa_modify f : (forall c, c_rng (f c) = c_rng c) -> (forall c, g_private (c_config (f c)) = g_private (c_config c)) ->
  (forall c, c_state (f c) = c_state c) -> (forall c s, f (swap s c) = swap s (f c)) -> par (modify f) (modify f).
Proof. intros H1 H2 H3 H4. apply pa_same; try assumption. intros c s. unfold modify. rewrite H4. reflexivity. Qed.
Lemma pa_bind' A B (RA : A -> A -> Prop) (RB : B -> B -> Prop) (m m' : M A) (f f' : A -> M B) :
  parr RA m m' -> (forall a a', RA a a' -> parr RB (f a) (f' a')) -> parr RB (bind m f) (bind m' f').
Proof.
  intros H K c s O. unfold bind. destruct (H c s O) as (s1 & O1 & E1 & G1).
  destruct (m c) as [[a|e] c1], (m' (swap s c)) as [[a'|e'] c1']; cbn [fst snd agree] in *; try contradiction; subst c1'.
  - apply (K a a' G1 c1 s1 O1).
  - exists s1. split; [exact O1|]. split; [reflexivity | exact G1].
Qed.
Lemma pa_bind A B (RB : B -> B -> Prop) (m m' : M A) (f f' : A -> M B) : par m m' -> (forall a, parr RB (f a) (f' a)) -> parr RB (bind m f) (bind m' f').
Proof. intros H K. eapply pa_bind'; [exact H|]. intros a a' <-. apply K. Qed.
Lemma pa_get' A (R : A -> A -> Prop) (f f' : conn -> M A) : (forall c s, ok s c -> parr R (f c) (f' (swap s c))) -> parr R (bind get f) (bind get f').
Proof. intros K c s O. rewrite !bind_get. apply K; exact O. Qed.
Lemma pa_get A (R : A -> A -> Prop) (f : conn -> M A) : (forall c s, f (swap s c) = f c) -> (forall c, parr R (f c) (f c)) -> parr R (bind get f) (bind get f).
Proof. intros H K. apply pa_get'. intros c s _. rewrite H. apply K. Qed.
Lemma pa_tr A (f : transcript -> res A * transcript) : par (on_tr f) (on_tr f).
Proof.
  apply pa_same; intros c; unfold on_tr; [| | |intros s; change (c_tr (swap s c)) with (c_tr c)]; destruct (f (c_tr c)); reflexivity.
Qed.
Lemma pa_method f : par (tr_method f) (tr_method f). Proof. apply pa_tr. Qed.
Lemma pa_state t t' : stl t t' -> par (set_state t) (set_state t').
Proof. intros L c s (O1 & O2 & _). exists t'. split; [split; [exact O1|]; split; [exact O2 | exact L]|]. split; reflexivity. Qed.
Lemma pa_set t : par (set_state t) (set_state t). Proof. apply pa_state. left. reflexivity. Qed.
Ltac pa0 := repeat (cbv zeta; lazymatch goal with
  | |- parr _ (bind get _) _ => apply pa_get; [reflexivity | intro]
  | |- parr _ (bind _ _) _ => apply pa_bind; [|intro]
  | |- parr _ (ret _) _ => apply pa_ret
  | |- parr _ (raise _) _ => apply pa_raise
  | |- parr _ (lift _) _ => apply pa_lift; reflexivity
  | |- parr _ (modify _) _ => apply pa_modify; reflexivity
  | |- parr _ (set_state _) _ => apply pa_set
  | |- parr _ (tr_method _) _ => apply pa_method
  | |- parr _ (on_tr _) _ => apply pa_tr
  | |- parr _ (match ?x with _ => _ end) _ => destruct x eqn:?
  end).
Lemma pa_upd f : par (upd_nc f) (upd_nc f). Proof. unfold upd_nc. pa0. Qed.
Lemma pa_ask A (f : cs -> res A) : par (ask_cipher f) (ask_cipher f). Proof. unfold ask_cipher. pa0. Qed.
Lemma pa_on A (f : cs -> res A * cs) : par (on_cipher f) (on_cipher f). Proof. unfold on_cipher. pa0. Qed.
Lemma pa_cipher s sd : par (set_cipher s sd) (set_cipher s sd). Proof. unfold set_cipher. pa0. Qed.
Lemma pa_transcribe d sd ty : par (transcribe d sd ty) (transcribe d sd ty). Proof. unfold transcribe. pa0. Qed.
Lemma pa_digest : par (digest C) (digest C). Proof. unfold digest. pa0. Qed.
Lemma pa_draw : parr (twin_keys C) draw draw.
Proof.
  intros c s (O1 & O2 & O3). unfold draw. rewrite !bind_get. unfold bind, modify, ret. cbn [fst snd]. exists s.
  split; [split; [exact O1|]; split; [exact O2 | exact O3]|]. split; [reflexivity|].
  change (c_rng (swap s c)) with r. change (c_rngi (swap s c)) with (c_rngi c). cbn [agree]. rewrite O1. apply Tr.
Qed.
Ltac pa := repeat (cbv zeta; lazymatch goal with
  | |- parr _ (bind get _) _ => apply pa_get; [reflexivity | intro]
  | |- parr _ (bind draw _) _ => eapply pa_bind'; [apply pa_draw|]; intros ? ? ?
  | |- parr _ (bind _ _) _ => apply pa_bind; [|intro]
  | |- parr _ (ret _) _ => apply pa_ret
  | |- parr _ (raise _) _ => apply pa_raise
  | |- parr _ (lift _) _ => apply pa_lift; reflexivity
  | |- parr _ (modify _) _ => apply pa_modify; reflexivity
  | |- parr _ (set_state _) _ => apply pa_set
  | |- parr _ (tr_method _) _ => apply pa_method
  | |- parr _ (on_tr _) _ => apply pa_tr
  | |- parr _ (upd_nc _) _ => apply pa_upd
  | |- parr _ (ask_cipher _) _ => apply pa_ask
  | |- parr _ (on_cipher _) _ => apply pa_on
  | |- parr _ (set_cipher _ _) _ => apply pa_cipher
  | |- parr _ (transcribe _ _ _) _ => apply pa_transcribe
  | |- parr _ (digest _) _ => apply pa_digest
  | |- parr _ (match ?x with _ => _ end) _ => destruct x eqn:?
  end).
Lemma pa_encrypt ct mfl f : par (encrypt_fragment C ct mfl f) (encrypt_fragment C ct mfl f).
Proof.
  unfold encrypt_fragment. pa.
  intros c1 s O. match goal with |- context [on_cipher ?g _] => destruct (pa_on _ g c1 s O) as (s1 & O1 & E1 & G1); destruct (on_cipher g c1) as [[?|?] ?], (on_cipher g (swap s c1)) as [[?|?] ?] end;
    cbn [fst snd agree] in *; try contradiction; subst; exists s1; (split; [exact O1|]; split; reflexivity).
Qed.
Lemma pa_fragments ct mfl l : par (send_fragments C ct mfl l) (send_fragments C ct mfl l).
Proof. induction l as [|f l IH]; cbn [send_fragments]; pa; try exact IH; try apply pa_encrypt. Qed.
Lemma pa_send x : par (send_content C x) (send_content C x).
Proof.
  unfold send_content. apply pa_get'. intros c s (_ & _ & L). change (c_state (swap s c)) with s. rewrite (stl_app _ _ L), (stl_send _ _ L).
  match goal with |- parr _ ?a ?b => change b with a end. pa; try apply pa_fragments.
Qed.
Lemma pa_base x : par (base_process x) (base_process x). Proof. unfold base_process. pa. Qed.
Lemma pa_initiate ck : par (client_initiate C ck) (client_initiate C ck).
Proof.
  unfold client_initiate. apply pa_get; [reflexivity|]. intro c. cbv zeta. destruct (g_groups (c_config c)) as [|group rest]; [apply pa_raise|].
  eapply pa_bind'; [apply pa_draw|]. intros p p' T. apply pa_bind; [apply pa_lift; apply (T group)|]. intro share. pa; try apply pa_send.
  apply pa_get'. intros c1 s1 _. change (c_nc (swap s1 c1)) with (c_nc c1).
  apply pa_state. right. eexists _, _, _, _. split; [reflexivity|]. split; [reflexivity|]. constructor; [split; [reflexivity | exact T] | constructor].
Qed.
Lemma pa_init : par (initiate_connection C) (initiate_connection C).
Proof.
  unfold initiate_connection. apply pa_get'. intros c s (_ & _ & L). change (c_state (swap s c)) with s.
  destruct L as [->|(f & l & l' & h & -> & -> & _)]; pa; apply pa_initiate.
Qed.
Lemma pa_restrict g su gr l : g_private g = k0 ->
  par (modify (cset_config (restrict g su gr l))) (modify (cset_config (restrict (with_private k g) su gr l))).
Proof.
  intros E c s (O1 & O2 & O3). exists s. split; [split; [exact O1|]; split; [exact E | exact O3]|]. split; reflexivity.
Qed.
Lemma pa_process_hrr h e : par (client_process_hrr C h e) (client_process_hrr C h e).
Proof.
  unfold client_process_hrr. destruct (ext_get KEY_SHARE e) as [x|]; [|apply pa_raise]. destruct x; try apply pa_raise.
  apply pa_get'. intros c s (_ & K & _). change (c_config (swap s c)) with (with_private k (c_config c)). change (c_nc (swap s c)) with (c_nc c).
  change (g_groups (with_private k (c_config c))) with (g_groups (c_config c)). change (g_sigalgs (with_private k (c_config c))) with (g_sigalgs (c_config c)).
  change (g_side (with_private k (c_config c))) with (g_side (c_config c)). pa; first [apply pa_restrict; exact K | apply pa_init].
Qed.
Lemma assoc_like group l l' : Forall2 share_like l l' ->
  match assocN group l, assocN group l' with Some p, Some p' => twin_keys C p p' | None, None => True | _, _ => False end.
Proof.
  induction 1 as [|[a p] [a' p'] l l' [E T] _ IH]; cbn [assocN]; [exact I|]. cbn [fst snd] in E, T. subst a'. destruct (_ =? _); [exact T | exact IH].
Qed.
Lemma pa_neg_hello l l' e : Forall2 share_like l l' -> par (client_negociate_hello C l e) (client_negociate_hello C l' e).
Proof.
  intro F. unfold client_negociate_hello. apply pa_bind; [pa|]. intros _. destruct (ext_get KEY_SHARE e) as [x|]; [|apply pa_raise].
  destruct x; try apply pa_raise. match goal with |- context [assocN ?gr l] => pose proof (assoc_like gr _ _ F) as A; destruct (assocN gr l), (assocN gr l') end; try contradiction; [|apply pa_raise].
  apply pa_lift. f_equal. apply A.
Qed.
Lemma pa_ee x : par (process_wait_ee x) (process_wait_ee x).
Proof. unfold process_wait_ee, client_neg_mfl, client_neg_alpn, client_neg_heartbeat, client_neg_cct, client_neg_sct. pa; apply pa_base. Qed.
Lemma pa_cert b x : par (process_wait_certificate C b x) (process_wait_certificate C b x). Proof. unfold process_wait_certificate. pa; apply pa_base. Qed.
Lemma pa_cert_cr x : par (process_wait_cert_cr C x) (process_wait_cert_cr C x).
Proof. unfold process_wait_cert_cr. pa; first [apply pa_base | apply pa_cert]. Qed.
Lemma pa_cv b h x : par (process_wait_cv C b h x) (process_wait_cv C b h x). Proof. unfold process_wait_cv. pa; apply pa_base. Qed.
Lemma pa_send_hrr b s l : par (server_send_hrr C b s l) (server_send_hrr C b s l). Proof.
  unfold server_send_hrr. destruct (negb b); [apply pa_raise|]. apply pa_bind; [pa|]. intros _.
  apply pa_get'. intros c s1 (_ & K & _). change (c_config (swap s1 c)) with (with_private k (c_config c)). change (c_nc (swap s1 c)) with (c_nc c).
  change (suite_of (swap s1 c)) with (suite_of c). change (sig_of (swap s1 c)) with (sig_of c).
  change (g_groups (with_private k (c_config c))) with (g_groups (c_config c)). change (g_sigalgs (with_private k (c_config c))) with (g_sigalgs (c_config c)).
  change (g_side (with_private k (c_config c))) with (g_side (c_config c)). change (c_sunique (swap s1 c)) with (c_sunique c).
  pa; first [apply pa_restrict; exact K | apply pa_send].
Qed.
Lemma pa_send_cert : par (server_send_certificate C) (server_send_certificate C).
Proof.
  unfold server_send_certificate. apply pa_get; [reflexivity|]. intro c. apply pa_bind; [pa|]. intro l. apply pa_bind; [apply pa_send|]. intros _.
  apply pa_bind; [pa|]. intro h. apply pa_get'. clear c. intros c s (_ & K & _). change (sig_of (swap s c)) with (sig_of c).
  apply pa_bind; [pa|]. intro sg. change (g_private (c_config (swap s c))) with k. rewrite K.
  pose proof Tk as T. unfold twin_signers in T. destruct k0 as [a|], k as [b|]; try contradiction.
  - apply pa_bind'  with (RA := fun x y => x = a /\ y = b); [intros c1 s1 O1; exists s1; split; [exact O1|]; split; [reflexivity | split; reflexivity]|].
    intros x y [-> ->]. apply pa_bind; [apply pa_lift; exact (T sg h)|]. intro sig. apply pa_send.
  - apply pa_bind; [apply pa_raise|]. intro x. apply pa_bind; [pa|]. intro sig. apply pa_send.
Qed.
Lemma pa_fail a : par (fail C a) (fail C a). Proof. unfold fail. pa; apply pa_send. Qed.
Lemma pa_neg_share group e : par (server_neg_key_share C group e) (server_neg_key_share C group e).
Proof.
  unfold server_neg_key_share. pa.
  all: match goal with T : twin_keys C _ _ |- _ => apply pa_lift; f_equal; apply (T group) end.
Qed.
Lemma pa_neg e : par (server_negociate C e) (server_negociate C e).
Proof.
  unfold server_negociate, server_neg_versions, server_neg_groups, server_neg_sigalgs, server_neg_cct,
    server_neg_sct, server_neg_mfl, server_neg_alpn, server_neg_heartbeat, server_neg_status. pa; apply pa_neg_share.
Qed.
Lemma pa_process_sh l l' s e : Forall2 share_like l l' -> par (client_process_sh C l s e) (client_process_sh C l' s e).
Proof. intro F. unfold client_process_sh. pa; apply pa_neg_hello; exact F. Qed.
Lemma pa_sh f l l' h x : Forall2 share_like l l' -> par (process_wait_sh C f l h x) (process_wait_sh C f l' h x).
Proof.
  intro F. unfold process_wait_sh. destruct x as [|? ?|hs|?|? ? ?]; try apply pa_base. destruct hs; try (pa; apply pa_base).
  apply pa_get'. intros c s _. change (g_suites (c_config (swap s c))) with (g_suites (c_config c)).
  pa; first [apply pa_process_hrr | apply pa_process_sh; exact F | apply pa_send].
Qed.
Lemma pa_ch f x : par (process_wait_ch C f x) (process_wait_ch C f x).
Proof. unfold process_wait_ch, server_setup, server_send_hello. pa; first [apply pa_base | apply pa_neg | apply pa_send_hrr | apply pa_send_cert | apply pa_send]. Qed.
Lemma pa_cfin b h x : par (process_client_finished C b h x) (process_client_finished C b h x).
Proof. unfold process_client_finished. pa; first [apply pa_base | apply pa_send]. Qed.
Lemma pa_sfin h x : par (process_server_finished C h x) (process_server_finished C h x).
Proof. unfold process_server_finished. pa; first [apply pa_base | apply pa_send]. Qed.
Lemma like_refl l : Forall2 share_like l l.
Proof. induction l; constructor; [|assumption]. split; [reflexivity|]. intro group. split; reflexivity. Qed.
Lemma pa_process x : par (process C x) (process C x).
Proof.
  unfold process. apply pa_get'. intros c s (_ & _ & L). change (c_state (swap s c)) with s.
  destruct L as [->|(f & l & l' & h & -> & -> & F)]; [|apply pa_sh; exact F].
  pa; first [apply pa_base | apply pa_sh; apply like_refl | apply pa_ee | apply pa_cert_cr | apply pa_cert | apply pa_cv | apply pa_cfin | apply pa_ch | apply pa_sfin].
Qed.
Lemma pa_handle ct d : par (handle_content C ct d) (handle_content C ct d).
Proof. unfold handle_content. pa; apply pa_process. Qed.
Lemma pa_record : par (read_next_record C) (read_next_record C). Proof. unfold read_next_record. pa. Qed.
Lemma pa_fill n : par (fill_handshake n C) (fill_handshake n C).
Proof. induction n as [|n IH]; cbn [fill_handshake]; pa; try exact IH; apply pa_record. Qed.
Lemma pa_content : par (read_next_content C) (read_next_content C).
Proof. unfold read_next_content. pa; first [apply pa_record | apply pa_fill]. Qed.
Lemma pa_one : par (receive_one C) (receive_one C).
Proof. unfold receive_one. pa; first [apply pa_content | apply pa_handle]. Qed.
Lemma pa_guarded m : par m m -> par (guarded C m) (guarded C m).
Proof.
  intros H c s O. unfold guarded. destruct (H c s O) as (s1 & O1 & E1 & G1).
  destruct (m c) as [[a|e] c1], (m (swap s c)) as [[a'|e'] c1']; cbn [fst snd agree] in *; try contradiction; subst.
  - exists s1. split; [exact O1|]. split; reflexivity.
  - destruct (pa_fail (Some (match alert_of e with Some code => code | None => INTERNAL_ERROR end)) c1 s1 O1) as (s2 & O2 & E2 & G2).
    destruct (fail C _ c1) as [[u|e2] c2], (fail C _ (swap s1 c1)) as [[u'|e2'] c2']; cbn [fst snd agree] in *; try contradiction; subst;
      exists s2; (split; [exact O2|]; split; reflexivity).
Qed.
Lemma pa_loop n : par (receive_loop n C) (receive_loop n C).
Proof. induction n as [|n IH]; cbn [receive_loop]; pa; try exact IH; apply pa_guarded, pa_one. Qed.
Lemma pa_rekey : par rekey rekey.
Proof. unfold rekey. apply pa_get'. intros c s (_ & _ & L). change (c_state (swap s c)) with s. rewrite (stl_send _ _ L). pa. Qed.
Lemma pa_receive d : par (receive_data C d) (receive_data C d).
Proof.
  unfold receive_data. destruct (is_nil d); [apply pa_raise|]. apply pa_get'. intros c s (_ & _ & L). change (c_state (swap s c)) with s. rewrite (stl_recv _ _ L).
  match goal with |- parr _ ?a ?b => change b with a end. pa; first [apply pa_loop | apply pa_rekey].
Qed.
Lemma pa_close_r : par (close_receiving_end C) (close_receiving_end C).
Proof.
  unfold close_receiving_end. apply pa_get'. intros c s (_ & _ & L). unfold is_post_handshake. change (c_state (swap s c)) with s.
  destruct L as [->|(f & l & l' & h & -> & -> & F)]; pa; apply pa_fail.
Qed.
Lemma pa_close_s : par (close_sending_end C) (close_sending_end C).
Proof.
  unfold close_sending_end. apply pa_bind' with (RA := fun a b => stl (c_state a) (c_state b)).
  { intros c s O. exists s. split; [exact O|]. split; [reflexivity | exact (proj2 (proj2 O))]. }
  intros c c' L. apply pa_bind.
  { destruct L as [->|(f & l & l' & h & -> & -> & F)]; pa. }
  intros _. apply pa_get'. clear c c' L. intros c s (_ & _ & L). change (c_state (swap s c)) with s. rewrite (stl_send _ _ L). pa; try apply pa_send.
  intros c1 s1 (O1 & O2 & L1). unfold modify. cbn [fst snd]. change (c_state (swap s1 c1)) with s1.
  destruct L1 as [->|(f & l & l' & h & E & -> & F)].
  - exists (match c_state c1 with Closed r1 _ => Closed r1 false | x => x end). destruct (c_state c1) eqn:E;
      (split; [split; [exact O1|]; split; [exact O2|]; cbn [c_state cset_state]; rewrite ?E; left; reflexivity | split; reflexivity]).
  - rewrite E. exists (ClientWaitServerHello f l' h). split; [split; [exact O1|]; split; [exact O2|]; rewrite E; right; eauto 8 | split; reflexivity].
Qed.
Lemma pa_step o : par (step C o) (step C o).
Proof.
  destruct o; unfold step; pa; try apply pa_init; try apply pa_receive; try apply pa_send; try apply pa_rekey; try apply pa_close_r; try apply pa_close_s.
  - unfold data_to_read. pa.
  - unfold data_to_send. pa.
Qed.
Lemma pa_outcomes ops : forall c s, ok s c -> outcomes C ops (swap s c) = outcomes C ops c /\
  exists s', ok s' (run C ops c) /\ run C ops (swap s c) = swap s' (run C ops c).
Proof.
  induction ops as [|o ops IH]; intros c s O; cbn [outcomes run]; [split; [reflexivity|]; exists s; split; [exact O | reflexivity]|].
  destruct (pa_step o c s O) as (s1 & O1 & E1 & G1). unfold after. rewrite E1. destruct (IH _ _ O1) as [I1 I2].
  split; [|exact I2]. f_equal; [|exact I1].
  destruct (fst (step C o c)), (fst (step C o (swap s c))); cbn [agree] in G1; try contradiction; congruence.
Qed.
End walk.

Lemma secret_hidden C g c k r ops : created g c -> (forall i, twin_keys C (c_rng c i) (r i)) -> twin_signers C (g_private g) k ->
  outcomes C ops (disguise k r c) = outcomes C ops c /\ told (run C ops (disguise k r c)) = told (run C ops c) /\
  logged (run C ops (disguise k r c)) = logged (run C ops c).
Proof.
  intros Cr Tr Tk.
  assert (E : g_private (c_config c) = g_private g /\ disguise k r c = swap r k (c_state c) c).
  { destruct (created_cases _ _ Cr) as [(_ & host & ocsp & u & rng & t & -> & _)|(_ & ocsp & u & rng & t & -> & _)]; split; reflexivity. }
  destruct E as [Ek Es]. rewrite Es.
  destruct (pa_outcomes C (c_rng c) r (g_private g) k Tr Tk ops c (c_state c)) as (A & s' & (_ & _ & L) & B).
  { split; [reflexivity|]. split; [exact Ek | left; reflexivity]. }
  split; [exact A|]. rewrite B. split; [|reflexivity].
  unfold told, is_post_handshake, is_connected. change (c_state (swap r k s' (run C ops c))) with s'.
  change (c_nc (swap r k s' (run C ops c))) with (c_nc (run C ops c)). change (c_out (swap r k s' (run C ops c))) with (c_out (run C ops c)).
  change (c_app (swap r k s' (run C ops c))) with (c_app (run C ops c)).
  destruct L as [->|(f & l & l' & h & -> & -> & _)]; reflexivity.
Qed.
(* the disguised connection is one that the library makes *)
Lemma disguise_created C g c k r : created g c -> twin_signers C (g_private g) k -> created (with_private k g) (disguise k r c).
Proof.
  intros (Ck & V & flip & host & ocsp & u & rng & E) T.
  split.
  { unfold check_config in *. change (check_mandatory (with_private k g)) with (check_mandatory g). destruct (check_mandatory g); [|discriminate]. cbn [rbind] in *.
    change (g_side (with_private k g)) with (g_side g). destruct (g_side g); [exact Ck|]. unfold check_server in *.
    change (g_private (with_private k g)) with k. unfold twin_signers in T. destruct (g_private g), k; try contradiction; exact Ck. }
  split; [exact V|]. exists flip, host, ocsp, u, r. unfold new_conn in *. change (g_suites (with_private k g)) with (g_suites g).
  destruct (tr_new flip (g_suites g)); [|discriminate]. cbn [rbind] in *. change (g_side (with_private k g)) with (g_side g).
  destruct (g_side g); [injection E; intros <-; reflexivity|].
  destruct (match host with Some (_ :: _) => true | _ => false end); [discriminate|]. injection E; intros <-; reflexivity.
Qed.
