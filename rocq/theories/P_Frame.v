(* Which fields reading records and sending contents may change. *)
From Verif Require Import Base P_Base Iana Crypto Config Serial Ext Msg Hkdf Cipher Kex Sig Ocsp Transcript Conn P_Monad S_Hist.
Require Import Lia.

Definition seq_le (a b : option seq) : Prop :=
  match a, b with
  | None, None => True
  | Some p, Some q => q_limit q = q_limit p /\ q_next p <= q_next q /\
                      (q_next q <= q_limit q \/ q_next q = q_next p)
  | _, _ => False
  end.
Definition dir_le (d d' : dir) : Prop :=
  d_key d' = d_key d /\ d_iv d' = d_iv d /\ d_epoch d' = d_epoch d /\ seq_le (d_seq d) (d_seq d').
Lemma seq_le_refl a : seq_le a a. Proof. destruct a; cbn; auto. intuition lia. Qed.
Lemma seq_le_trans a b c : seq_le a b -> seq_le b c -> seq_le a c.
Proof. destruct a, b, c; cbn; try tauto. intuition lia. Qed.
Lemma dir_le_refl d : dir_le d d. Proof. repeat split. apply seq_le_refl. Qed.
Lemma dir_le_trans a b c : dir_le a b -> dir_le b c -> dir_le a c.
Proof.
  intros (A1 & A2 & A3 & A4) (B1 & B2 & B3 & B4). repeat split; try congruence.
  eapply seq_le_trans; eassumption.
Qed.
Lemma next_nonce_le d r d' : next_nonce d = (r, d') -> dir_le d d'.
Proof.
  unfold next_nonce. destruct (d_iv d) as [iv|] eqn:E1.
  2:{ intro H; injection H; intros; subst. apply dir_le_refl. }
  destruct (d_seq d) as [q|] eqn:E2.
  2:{ intro H; injection H; intros; subst. apply dir_le_refl. }
  unfold seq_next. destruct (q_next q <? q_limit q) eqn:E3; intro H; injection H; intros; subst;
    repeat split; cbn; auto; rewrite E2; cbn; try lia.
  split; [reflexivity|]. apply N.ltb_lt in E3. lia.
Qed.

Definition cs_read (x x' : cs) : Prop := x' = cs_set_r x (cs_r x') /\ dir_le (cs_r x) (cs_r x').
Definition cs_write (x x' : cs) : Prop := x' = cs_set_w x (cs_w x') /\ dir_le (cs_w x) (cs_w x').
Definition olift (R : cs -> cs -> Prop) (a b : option cs) : Prop :=
  match a, b with None, None => True | Some x, Some y => R x y | _, _ => False end.
Lemma cs_read_refl x : cs_read x x. Proof. split; [destruct x; reflexivity | apply dir_le_refl]. Qed.
Lemma cs_read_trans a b c : cs_read a b -> cs_read b c -> cs_read a c.
Proof.
  intros [A1 A2] [B1 B2]. split; [|eapply dir_le_trans; eassumption].
  rewrite B1 at 1. rewrite A1 at 1. reflexivity.
Qed.
Lemma cs_write_refl x : cs_write x x. Proof. split; [destruct x; reflexivity | apply dir_le_refl]. Qed.
Lemma cs_write_trans a b c : cs_write a b -> cs_write b c -> cs_write a c.
Proof.
  intros [A1 A2] [B1 B2]. split; [|eapply dir_le_trans; eassumption].
  rewrite B1 at 1. rewrite A1 at 1. reflexivity.
Qed.
Lemma olift_refl (R : cs -> cs -> Prop) a : (forall x, R x x) -> olift R a a. Proof. destruct a; cbn; auto. Qed.
Lemma olift_trans (R : cs -> cs -> Prop) a b c :
  (forall x y z, R x y -> R y z -> R x z) -> olift R a b -> olift R b c -> olift R a c.
Proof. destruct a, b, c; cbn; try tauto. intros; eauto. Qed.

Lemma decrypt_read C d a x r x' : decrypt C d a x = (r, x') -> cs_read x x'.
Proof.
  unfold decrypt. destruct (d_key (cs_r x)).
  2:{ intro H; injection H; intros; subst. apply cs_read_refl. }
  destruct (next_nonce (cs_r x)) as [r0 d0] eqn:E. apply next_nonce_le in E.
  assert (cs_read x (cs_set_r x d0)) by (split; [reflexivity | exact E]).
  destruct r0 as [n|e].
  - destruct (cr_open _ _ _ _ _ _); intro H1; injection H1; intros; subst; assumption.
  - intro H1; injection H1; intros; subst; assumption.
Qed.
Lemma encrypt_write C d a x r x' : encrypt C d a x = (r, x') -> cs_write x x'.
Proof.
  unfold encrypt. destruct (d_key (cs_w x)).
  2:{ intro H; injection H; intros; subst. apply cs_write_refl. }
  destruct (next_nonce (cs_w x)) as [r0 d0] eqn:E. apply next_nonce_le in E.
  assert (cs_write x (cs_set_w x d0)) by (split; [reflexivity | exact E]).
  destruct r0 as [n|e]; intro H1; injection H1; intros; subst; assumption.
Qed.

(* reading *)
Definition reading (c c' : conn) : Prop :=
  c' = cset_cipher (c_cipher c') (cset_inhs (c_inhs c') (cset_in (c_in c') c)) /\
  olift cs_read (c_cipher c) (c_cipher c').
Lemma reading_pre : preorder reading.
Proof.
  split.
  - intro c. split; [destruct c; reflexivity | apply olift_refl, cs_read_refl].
  - intros a b c [A1 A2] [B1 B2]. split.
    + rewrite B1 at 1. rewrite A1 at 1. reflexivity.
    + eapply olift_trans; [apply cs_read_trans | eassumption | eassumption].
Qed.
Lemma reading_in c v : reading c (cset_in v c).
Proof. split; [destruct c; reflexivity | apply olift_refl, cs_read_refl]. Qed.
Lemma reading_inhs c v : reading c (cset_inhs v c).
Proof. split; [destruct c; reflexivity | apply olift_refl, cs_read_refl]. Qed.
Lemma reading_decrypt C d a : rel reading (on_cipher (decrypt C d a)).
Proof.
  apply (rel_on_cipher _ reading_pre). intros x c E.
  destruct (decrypt C d a x) as [r x'] eqn:D. apply decrypt_read in D.
  split; [destruct c; reflexivity|]. rewrite E. exact D.
Qed.
Lemma reading_record C : rel reading (read_next_record C).
Proof.
  unfold read_next_record. cbv zeta. reli reading_pre; try apply reading_decrypt;
  apply rel_modify; intro; apply reading_in.
Qed.
Lemma reading_fill n C : rel reading (fill_handshake n C).
Proof.
  induction n as [|n IH]; cbn [fill_handshake]; reli reading_pre;
  try apply reading_record; try apply IH; apply rel_modify; intro; apply reading_inhs.
Qed.
Lemma reading_content C : rel reading (read_next_content C).
Proof.
  unfold read_next_content. reli reading_pre; try apply reading_record; try apply reading_fill;
  apply rel_modify; intro; apply reading_inhs.
Qed.

(* sending *)
Definition sending (c c' : conn) : Prop :=
  (c' = cset_cipher (c_cipher c') (cset_tr (c_tr c') (cset_hs (c_hs c')
         (cset_log (c_log c') (cset_out (c_out c') c))))) /\
  olift cs_write (c_cipher c) (c_cipher c') /\
  (exists o, c_out c' = c_out c ++ o) /\
  (exists l, c_log c' = l ++ c_log c) /\
  (exists l, c_hs c' = c_hs c ++ l).
Lemma sending_pre : preorder sending.
Proof.
  split.
  - intro c. split; [destruct c; reflexivity|]. split; [apply olift_refl, cs_write_refl|].
    repeat split; exists []; rewrite ?app_nil_r; reflexivity.
  - intros a b c (A1 & A2 & [oa A3] & [la A4] & [ha A5]) (B1 & B2 & [ob B3] & [lb B4] & [hb B5]).
    split; [|split; [|split; [|split]]].
    + rewrite B1 at 1. rewrite A1 at 1. reflexivity.
    + eapply olift_trans; [apply cs_write_trans | eassumption | eassumption].
    + exists (oa ++ ob). rewrite B3, A3, app_assoc. reflexivity.
    + exists (lb ++ la). rewrite B4, A4, app_assoc. reflexivity.
    + exists (ha ++ hb). rewrite B5, A5, app_assoc. reflexivity.
Qed.
Lemma sending_tr c v : sending c (cset_tr v c).
Proof.
  split; [destruct c; reflexivity|]. split; [apply olift_refl, cs_write_refl|].
  repeat split; exists []; cbn; rewrite ?app_nil_r; reflexivity.
Qed.
Lemma sending_hs c v : sending c (cset_hs (c_hs c ++ v) c).
Proof.
  split; [destruct c; reflexivity|]. split; [apply olift_refl, cs_write_refl|].
  repeat split; cbn; [exists [] | exists [] | exists v]; rewrite ?app_nil_r; reflexivity.
Qed.
Lemma sending_log c v : sending c (cset_log (v :: c_log c) c).
Proof.
  split; [destruct c; reflexivity|]. split; [apply olift_refl, cs_write_refl|].
  repeat split; cbn; [exists [] | exists [v] | exists []]; rewrite ?app_nil_r; reflexivity.
Qed.
Lemma sending_out c v : sending c (cset_out (c_out c ++ v) c).
Proof.
  split; [destruct c; reflexivity|]. split; [apply olift_refl, cs_write_refl|].
  repeat split; cbn; [exists v | exists [] | exists []]; rewrite ?app_nil_r; reflexivity.
Qed.
Lemma sending_encrypt C d a : rel sending (on_cipher (encrypt C d a)).
Proof.
  apply (rel_on_cipher _ sending_pre). intros x c E.
  destruct (encrypt C d a x) as [r x'] eqn:D. apply encrypt_write in D.
  split; [destruct c; reflexivity|]. split; [cbn; rewrite E; exact D|].
  repeat split; exists []; cbn; rewrite ?app_nil_r; reflexivity.
Qed.
Lemma sending_transcribe d sd ty : rel sending (transcribe d sd ty).
Proof.
  unfold transcribe. reli sending_pre.
  - apply rel_on_tr. intro; apply sending_tr.
  - apply rel_modify; intro; apply sending_hs.
Qed.
Lemma sending_encrypt_fragment C ct mfl f : rel sending (encrypt_fragment C ct mfl f).
Proof.
  unfold encrypt_fragment. apply rel_get'. intro c0. cbv zeta. reli sending_pre.
  - intro c. pose proof (sending_encrypt C (inner_bytes ct mfl (tag_len c0) f) (Nb CT_APPDATA :: x03 :: x03 :: a) c) as H.
    destruct (on_cipher _ c) as [[x|e] c1]; exact H.
  - apply rel_modify; intro; apply sending_log.
Qed.
Lemma sending_fragments C ct mfl l : rel sending (send_fragments C ct mfl l).
Proof.
  induction l as [|f l IH]; cbn [send_fragments]; reli sending_pre.
  - apply sending_encrypt_fragment.
  - apply IH.
Qed.
Lemma sending_content C k : rel sending (send_content C k).
Proof.
  unfold send_content. reli sending_pre;
    try apply sending_transcribe; try apply sending_fragments;
    apply rel_modify; intro; apply sending_out.
Qed.
