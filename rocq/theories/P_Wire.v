(* What a call puts on the wire. *)
From Verif Require Import Base P_Base Iana Crypto Config Serial Ext Msg Hkdf Cipher Kex Sig Ocsp Transcript Conn S_Hist S_Conn S_Send P_Monad P_Frame P_Rec P_Send P_Hist.

Lemma tag_small s : tag_length s <= 16.
Proof. unfold tag_length. destruct (_ =? _); lia. Qed.

Lemma send_lossless C k c c' : valid_mfl (max_frag c) ->
  send_content C k c = (Ok tt, c') ->
  exists data frags, ser_content C k = Ok data /\ pieces (limit_of c) data frags /\
    ((enc_on c = false /\ c_out c' = c_out c ++ concat (map (record (content_type k)) frags)) \/
     exists x ss, c_cipher c = Some x /\ enc_on c = true /\
       c_out c' = c_out c ++ concat (map (sealed_record C (cs_suite x)) ss) /\
       Forall2 (fun f s => wraps (content_type k) f (se_data s)) frags ss).
Proof.
  intros V H. pose proof (valid_mfl_range _ V) as Vr. destruct (enc_on c) eqn:E.
  - apply enc_on_inv in E. destruct E as (x & Ex & Em).
    pose proof (tag_small (cs_suite x)) as T.
    destruct (send_enc C k c c' x Ex Em) as (data & frags & A & B & D & _); [lia | exact H |].
    exists data, frags. split; [exact A|]. split.
    { unfold limit_of. rewrite Ex, Em. exact B. }
    right. exists x, (seals (content_type k) (max_frag c) x frags).
    repeat split; auto. apply seals_wrap.
  - destruct (send_plain C k c c' E) as (data & frags & A & B & D & _); [lia | exact H |].
    exists data, frags. split; [exact A|]. split.
    { unfold limit_of. unfold enc_on in E. destruct (c_cipher c); [rewrite E|]; exact B. }
    left. auto.
Qed.

(* sizes *)
Lemma seals_size ct mfl : forall l x, Forall2 (fun f s =>
    blen (se_data s) = blen f + 1 + pad_len mfl (tag_length (cs_suite x)) (blen f)) l (seals ct mfl x l).
Proof.
  induction l as [|f l IH]; intro x; cbn [seals]; constructor; [apply blen_inner | exact (IH (bump_w x))].
Qed.
Lemma Forall2_map_r (A B D : Type) (P : A -> D -> Prop) (g : B -> D) l m :
  Forall2 (fun a b => P a (g b)) l m -> Forall2 P l (map g m).
Proof. induction 1; cbn; constructor; auto. Qed.
Definition payload_of (C : crypto) (suite : N) (s : sealing) : bytes :=
  cr_seal C suite (se_key s) (se_nonce s) (se_data s) (se_aad s).

Lemma send_sizes C k c c' x : valid_mfl (max_frag c) -> c_cipher c = Some x -> must_encrypt x = true ->
  send_content C k c = (Ok tt, c') ->
  exists data frags ps, ser_content C k = Ok data /\ pieces (limit_of c) data frags /\
    c_out c' = c_out c ++ concat (map (record CT_APPDATA) ps) /\
    Forall2 (fun f p =>
      blen p mod N.min (max_frag c) 4096 = 0 /\
      (blen f < limit_of c -> blen p <= max_frag c) /\
      (blen f = limit_of c -> blen p = max_frag c + N.min (max_frag c) 4096) /\
      exists suite s, p = payload_of C suite s) frags ps.
Proof.
  intros V Ex Em H. pose proof (valid_mfl_range _ V) as Vr.
  pose proof (tag_small (cs_suite x)) as T. set (tag := tag_length (cs_suite x)) in *.
  destruct (send_enc C k c c' x Ex Em) as (data & frags & A & B & D & _ & _ & F); [fold tag; lia | exact H |].
  fold tag in B, F.
  exists data, frags, (map (payload_of C (cs_suite x)) (seals (content_type k) (max_frag c) x frags)).
  assert (L : limit_of c = max_frag c - (1 + tag)) by (unfold limit_of; rewrite Ex, Em; reflexivity).
  split; [exact A|]. split; [rewrite L; exact B|]. split.
  { rewrite D, map_map. reflexivity. }
  apply Forall2_map_r.
  pose proof (seals_size (content_type k) (max_frag c) frags x) as Z. fold tag in Z.
  destruct B as (_ & B & _). clear D A; revert Z B F.
  generalize (seals (content_type k) (max_frag c) x frags). intros ss Z. induction Z as [|f s fl sl Z1 Z IH]; [constructor|].
  intros B F. pose proof (Forall_inv B) as B1. pose proof (Forall_inv_tail B) as B2.
  pose proof (Forall_inv F) as F1. pose proof (Forall_inv_tail F) as F2. cbv beta in F1, B1.
  constructor; [|apply IH; assumption]. destruct F1 as [F1 _].
  assert (P : blen (payload_of C (cs_suite x) s) = blen f + 1 + pad_len (max_frag c) tag (blen f) + tag).
  { unfold payload_of. rewrite F1, Z1. lia. }
  rewrite P. rewrite L. split; [|split; [|split]].
  - rewrite pad_total by lia. apply N.mod_mul. lia.
  - intro K. apply pad_short; [exact V | lia].
  - intro K. apply pad_full; [exact V | lia].
  - exists (cs_suite x), s. reflexivity.
Qed.

(* every call *)
Definition wires (C : crypto) (c c' : conn) : Prop :=
  exists rs, c_out c' = c_out c ++ concat rs /\ Forall (wire_record C) rs.
Definition wireR (C : crypto) (c c' : conn) : Prop :=
  mflR c c' /\ (mfl_good c -> wires C c c').
Lemma wires_refl C c : wires C c c.
Proof. exists []. split; [symmetry; apply app_nil_r | constructor]. Qed.
Lemma wireR_pre C : preorder (wireR C).
Proof.
  split.
  - intro c. split; [exact (fun H => H) | intros _; apply wires_refl].
  - intros a b c [A1 A2] [B1 B2]. split; [exact (fun H => B1 (A1 H))|].
    intro G. destruct (A2 G) as (ra & Ea & Fa). destruct (B2 (A1 G)) as (rb & Eb & Fb).
    exists (ra ++ rb). rewrite Eb, Ea, concat_app, app_assoc. split; [reflexivity | apply Forall_app; auto].
Qed.
Lemma wireR_same C c c' : mflR c c' -> c_out c' = c_out c -> wireR C c c'.
Proof. intros A B. split; [exact A|]. intros _. exists []. rewrite B. split; [symmetry; apply app_nil_r | constructor]. Qed.
Lemma Forall2_r (A B : Type) (P : A -> B -> Prop) (Q : B -> Prop) l m :
  Forall2 P l m -> (forall a b, In a l -> P a b -> Q b) -> Forall Q m.
Proof.
  induction 1; intro H1; constructor; [eapply H1; [left; reflexivity | eassumption]|].
  apply IHForall2. intros a b Ha. apply H1. right; exact Ha.
Qed.

Lemma send_failed_out C k c e c' : send_content C k c = (Err e, c') -> c_out c' = c_out c.
Proof.
  intro H. unfold send_content in H. rewrite bind_get in H.
  destruct ((content_type k =? CT_APPDATA) && negb (can_send_app (c_state c))); [injection H; intros; subst; reflexivity|].
  destruct (negb (can_send (c_state c))); [injection H; intros; subst; reflexivity|].
  assert (FO : forall ct mfl l x, c_out (snd (send_fragments C ct mfl l x)) = c_out x).
  { clear. intros ct mfl. assert (P : preorder (fun a b => c_out b = c_out a)) by (split; congruence).
    induction l as [|f l IH]; cbn [send_fragments]; [reflexivity|].
    change (rel (fun a b => c_out b = c_out a) (do c <- get;
      do r <- (if enc_on c then do e <- encrypt_fragment C ct mfl f; lift (record_bytes CT_APPDATA e)
               else lift (record_bytes ct f));
      do rs <- send_fragments C ct mfl l; ret (r ++ rs))).
    reli P; [|exact IH].
    unfold encrypt_fragment. apply rel_get'. intro c0. cbv zeta. reli P.
    - intro c1. unfold on_cipher. rewrite bind_get. destruct (c_cipher c1) as [y|]; [|reflexivity].
      destruct (encrypt C _ _ y) as [[?|?] ?]; reflexivity.
    - apply rel_modify. reflexivity. }
  assert (K : forall (c1 : conn) data, c_out c1 = c_out c ->
     (do c <- get;
      do fragments <- lift (fragments_of (fragment_limit c) (can_fragment k) data);
      do out <- send_fragments C (content_type k) (max_frag c) fragments;
      modify (fun c => cset_out (c_out c ++ out) c)) c1 = (Err e, c') -> c_out c' = c_out c).
  { clear H. intros c1 data E H. rewrite bind_get in H. apply bind_err in H.
    destruct H as [H|(frags & c2 & H1 & H)]; [apply lift_inv in H; destruct H as [_ ->]; exact E|].
    apply lift_inv in H1. destruct H1 as [_ ->]. apply bind_err in H.
    destruct H as [H|(o & c3 & _ & H)]; [|discriminate].
    pose proof (FO (content_type k) (max_frag c1) frags c1) as F. rewrite H in F. cbn in F. congruence. }
  assert (TO : forall d sd ty, c_out (snd (transcribe d sd ty c)) = c_out c).
  { intros. unfold transcribe, bind, on_tr. destruct (tr_update d sd ty (c_tr c)) as [[|] t]; reflexivity. }
  destruct k as [| |h| |]; try (injection H; intros; subst; reflexivity);
  (apply bind_err in H; destruct H as [H|(dat & c1 & H1 & H)];
     [apply lift_inv in H; destruct H as [_ ->]; reflexivity|];
   apply lift_inv in H1; destruct H1 as [_ ->]).
  - rewrite bind_ret in H. eapply K; [reflexivity | exact H].
  - rewrite bind_ret in H. eapply K; [reflexivity | exact H].
  - apply bind_err in H. destruct (msg_type h) as [ty|].
    + specialize (TO dat (g_side (c_config c)) ty).
      destruct H as [H|([] & c2 & H1 & H)].
      * rewrite H in TO. exact TO.
      * rewrite H1 in TO. eapply K; [exact TO | exact H].
    + destruct H as [H|([] & c2 & H1 & H)]; [injection H; intros; subst; reflexivity | discriminate].
  - rewrite bind_ret in H. eapply K; [reflexivity | exact H].
Qed.

Lemma wireR_send C k : rel (wireR C) (send_content C k).
Proof.
  intro c. pose proof (st_send C mflR (mflR_stable C) k c) as M.
  split; [exact M|]. intro G. clear M. pose proof (mfl_good_max c G) as V. pose proof (valid_mfl_range _ V) as Vr.
  destruct (send_content C k c) as [[[]|e] c'] eqn:E; cbn [snd].
  2:{ exists []. cbn. rewrite app_nil_r. split; [eapply send_failed_out; exact E | constructor]. }
  destruct (enc_on c) eqn:En.
  - apply enc_on_inv in En. destruct En as (x & Ex & Em).
    destruct (send_sizes C k c c' x V Ex Em E) as (data & frags & ps & _ & (_ & B & _) & D & F).
    exists (map (record CT_APPDATA) ps). split; [exact D|]. apply Forall_map.
    eapply Forall2_r; [exact F|]. cbn. intros f p Hf (P1 & P2 & P3 & suite & s & P4).
    exists CT_APPDATA, p. split; [reflexivity|]. right. split; [reflexivity|].
    rewrite Forall_forall in B. specialize (B f Hf).
    split; [|split; [|eauto]].
    + destruct (N.eq_dec (blen f) (limit_of c)) as [Q|Q]; [rewrite (P3 Q); lia|].
      assert (blen f < limit_of c) as Q1 by lia. specialize (P2 Q1). lia.
    + assert (Dv : exists j, N.min (max_frag c) 4096 = j * 512).
      { unfold valid_mfl in V. cbn in V. destruct V as [<-|[<-|[<-|[<-|[<-|[]]]]]];
        [exists 1|exists 2|exists 4|exists 8|exists 8]; reflexivity. }
      destruct Dv as (j & Dv). apply N.mod_divide in P1; [|lia]. destruct P1 as (i & P1).
      rewrite P1, Dv, N.mul_assoc. apply N.mod_mul. lia.
  - destruct (send_plain C k c c' En) as (data & frags & _ & (_ & B & _) & D & _); [lia | exact E |].
    exists (map (record (content_type k)) frags). split; [exact D|]. apply Forall_map.
    eapply Forall_impl; [|exact B]. cbn. intros f Hf. exists (content_type k), f. split; [reflexivity|]. left. lia.
Qed.
Lemma wireR_stable C : stable C (wireR C).
Proof.
  pose proof (mflR_stable C) as M. pose proof (wireR_pre C) as P.
  apply make_stable; try exact P; try (intros; apply wireR_same; [apply M; assumption | reflexivity]);
    try (intros; apply wireR_same; [first [apply M | exact (fun H => H)] | reflexivity]).
  - intros exts c. apply wireR_same; [apply M|]. unfold client_neg_mfl. rewrite bind_get.
    destruct (ext_get MAX_FRAGMENT_LENGTH exts) as [[]|]; try reflexivity.
    + destruct (mfl_octets code); [|reflexivity]. destruct (negb _); [reflexivity|].
      unfold upd_nc. rewrite bind_get. destruct (c_nc c); reflexivity.
    + unfold upd_nc. rewrite bind_get. destruct (c_nc c); reflexivity.
  - intros exts c. apply wireR_same; [apply M|]. unfold server_neg_mfl. rewrite bind_get.
    destruct (ext_get MAX_FRAGMENT_LENGTH exts) as [[]|]; try reflexivity.
    + destruct (mfl_octets code); [|reflexivity].
      unfold upd_nc, bind, get. destruct (c_nc c); reflexivity.
    + unfold upd_nc, bind, get. destruct (c_nc c); reflexivity.
  - apply wireR_send.
Qed.
Lemma wire_step C g c o : reachable C g c -> o <> OFlush -> wires C c (after C o c).
Proof.
  intros H Ho. assert (G : mfl_good c).
  { destruct H as (c0 & ops & H & ->). apply mfl_good_run. eapply created_mfl; exact H. }
  refine (proj2 (stable_step C (wireR C) o (wireR_stable C) _ _ _ _ _ c) G);
    try (intros; apply wireR_same; [exact (fun H => H) | reflexivity]).
  intros ->. congruence.
Qed.

Lemma Forall2_impl (A B : Type) (P Q : A -> B -> Prop) : (forall a b, P a b -> Q a b) ->
  forall l m, Forall2 P l m -> Forall2 Q l m.
Proof. intros H. induction 1; constructor; auto. Qed.
Lemma send_acceptable C k c c' : valid_mfl (max_frag c) ->
  send_content C k c = (Ok tt, c') ->
  exists data frags ps, ser_content C k = Ok data /\ pieces (limit_of c) data frags /\
    ((enc_on c = false /\ ps = frags /\
      c_out c' = c_out c ++ concat (map (record (content_type k)) ps) /\
      Forall (fun p => acceptable (max_frag c) false (blen p)) ps) \/
     (enc_on c = true /\
      c_out c' = c_out c ++ concat (map (record CT_APPDATA) ps) /\
      Forall2 (fun f p =>
        blen p mod N.min (max_frag c) 4096 = 0 /\
        (blen f < limit_of c -> acceptable (max_frag c) true (blen p)) /\
        (blen f = limit_of c -> ~ acceptable (max_frag c) true (blen p))) frags ps)).
Proof.
  intros V H. pose proof (valid_mfl_range _ V) as Vr. destruct (enc_on c) eqn:E.
  - pose proof E as E'. apply enc_on_inv in E'. destruct E' as (x & Ex & Em).
    destruct (send_sizes C k c c' x V Ex Em H) as (data & frags & ps & A & B & D & F).
    exists data, frags, ps. split; [exact A|]. split; [exact B|]. right. split; [reflexivity|]. split; [exact D|].
    eapply Forall2_impl; [|exact F]. cbn. intros f p (P1 & P2 & P3 & _). unfold acceptable.
    split; [exact P1|]. split; [intro Q; specialize (P2 Q); lia | intro Q; rewrite (P3 Q); lia].
  - destruct (send_plain C k c c' E) as (data & frags & A & B & D & _); [lia | exact H |].
    assert (L : limit_of c = max_frag c). { unfold limit_of. unfold enc_on in E. destruct (c_cipher c); [rewrite E|]; reflexivity. }
    exists data, frags, frags. split; [exact A|]. split; [rewrite L; exact B|]. left.
    repeat split; auto. destruct B as (_ & B & _). eapply Forall_impl; [|exact B]. cbn. unfold acceptable. lia.
Qed.
Lemma inner_sender k mfl tag fragment :
  exists n, inner_bytes (content_type k) mfl tag fragment = fragment ++ Nb (content_type k) :: repeat x00 n /\
  inner_plaintext (inner_bytes (content_type k) mfl tag fragment) = Ok (content_type k, fragment).
Proof.
  unfold inner_bytes, zeros. exists (N.to_nat (pad_len mfl tag (blen fragment))). split; [reflexivity|].
  rewrite inner_wraps; destruct k; try reflexivity; discriminate.
Qed.
