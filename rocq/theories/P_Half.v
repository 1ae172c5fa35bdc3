(* C74 *)
From Verif Require Import Base P_Base Iana Crypto Config Serial Ext Msg Cipher Conn Wrapper S_Hist S_Conn S_Send S_Nonce S_Alert S_Auth S_Deliver S_Half
  P_Monad P_Frame P_Rec P_Send P_Hist P_Alert P_Auth P_Split P_Deliver P_Talk3 P_Notify P_Wire.
Local Open Scope N_scope.

Section half.
Variable C : crypto.
Hypothesis AC : aead_correct C.

(* --- closing --- *)
Lemma close_one a xa a' : c_state a = Connected \/ c_state a = Closed true true -> c_cipher a = Some xa -> must_encrypt xa = true -> valid_mfl (max_frag a) ->
  close_sending_end C a = (Ok tt, a') ->
  note_fits C (max_frag a) xa /\
  a' = cset_state (Closed true false) (cset_out (c_out a ++ note C (max_frag a) xa)
         (cset_log (seal_at CT_ALERT (max_frag a) xa [x01; x00] :: c_log a) (cset_cipher (Some (bump_w xa)) a))).
Proof.
  intros St Ex Em V H. pose proof (valid_mfl_range _ V) as Vr. pose proof (tag_small (cs_suite xa)) as Tg.
  set (c1 := cset_state (Closed true true) a). unfold close_sending_end in H. rewrite bind_get in H.
  assert (E1 : (match c_state a with Closed _ _ | Failed => ret tt | _ => set_state (Closed true true) end) a = (Ok tt, c1)).
  { destruct St as [St|St]; rewrite St; [reflexivity|]. unfold ret, c1. f_equal. rewrite <- St. destruct a; reflexivity. }
  unfold bind at 1 in H. rewrite E1 in H. rewrite bind_get in H. change (can_send (c_state c1)) with true in H. cbv iota in H.
  unfold bind at 1 in H. destruct (send_content C (KAlert WARNING CLOSE_NOTIFY) c1) as [[[]|e] c2] eqn:S; [|discriminate].
  apply send_content_inv in S; [|reflexivity].
  destruct S as (_ & _ & data & c3 & frags & out & c4 & A & _ & B & D & E & F).
  change (ser_content C (KAlert WARNING CLOSE_NOTIFY)) with (@Ok bytes [x01; x00]) in A. injection A as <-. subst c3.
  assert (Ex1 : c_cipher c1 = Some xa) by exact Ex.
  unfold fragments_of, fragment_limit, enc_on, tag_len in D. rewrite Ex1, Em in D. change (max_frag c1) with (max_frag a) in *.
  assert (L2 : blen [x01; x00] = 2) by reflexivity. rewrite L2 in D.
  replace (2 <=? _) with true in D by (symmetry; apply N.leb_le; lia).
  injection D as <-. change (content_type (KAlert WARNING CLOSE_NOTIFY)) with CT_ALERT in E.
  assert (Rd : P_Send.ready (cs_w xa)).
  { pose proof E as E0. cbn [send_fragments] in E0. rewrite bind_get in E0. unfold enc_on in E0. rewrite Ex1, Em in E0.
    unfold bind at 1 2 in E0. destruct (encrypt_fragment C CT_ALERT (max_frag a) [x01; x00] c1) as [[b|e] c5] eqn:G; [|discriminate].
    apply (encrypt_fragment_ok _ _ _ _ _ _ _ _ Ex1) in G. apply G. }
  apply (send_fragments_enc C CT_ALERT (max_frag a) [[x01; x00]] c1 out c4 xa Ex1 Em) in E.
  cbn [seals map concat length bumps rev app] in E. rewrite app_nil_r in E.
  destruct E as (E2 & E3 & E4). inversion E3 as [|? ? [E5 E6] _]; subst.
  split.
  { split; [exact Rd|]. split; [exact E5|]. split; [|lia].
    unfold seal_at. cbn [se_data]. rewrite blen_inner, L2.
    pose proof (pad_short (max_frag a) (tag_length (cs_suite xa)) 2 V) as P. specialize (P ltac:(lia)). lia. }
  unfold modify in H. cbn [c_state cset_out cset_log cset_cipher c1 cset_state] in H. injection H as <-. reflexivity.
Qed.

(* --- records of data, then the close_notify --- *)
Lemma app_prefix (A : Type) (a b c d : list A) : a ++ b = c ++ d -> (length a <= length c)%nat -> exists m, c = a ++ m /\ b = m ++ d.
Proof. intros H L. symmetry in H. exact (app_split A c d a b H L). Qed.

Lemma loop_last m : forall ds x y c t,
  hears c y (c_in c) -> mirrored x y -> m <= max_frag c + 256 ->
  fits C m m x ds -> note_fits C m (bumps (length ds) x) -> c_in c ++ t = streamed C m x ds ++ note C m (bumps (length ds) x) ->
  (exists ds1 ds2 i, ds = ds1 ++ ds2 /\ t <> [] /\
    loops C c (Ok tt, cset_app (c_app c ++ concat ds1) (cset_cipher (Some (rbumps (length ds1) y)) (cset_in i c))) /\
    mirrored (bumps (length ds1) x) (rbumps (length ds1) y) /\
    must_decrypt (rbumps (length ds1) y) = true /\
    fits C m m (bumps (length ds1) x) ds2 /\
    i ++ t = streamed C m (bumps (length ds1) x) ds2 ++ note C m (bumps (length ds) x)) \/
  t = [] /\ loops C c (Ok tt, cset_state (Closed true true) (cset_app (c_app c ++ concat ds) (cset_cipher (Some (rbumps (S (length ds)) y)) (cset_in [] c)))) /\
    must_decrypt (rbumps (S (length ds)) y) = true.
Proof.
  induction ds as [|d ds IH]; intros x y c t Hh Hm Hx Hf Hn Heq.
  - cbn [length bumps streamed seals map concat app] in *. unfold streamed in Heq. cbn [seals map concat app] in Heq.
    pose proof (note_loops C AC c y x m t Hh Hx Hn Hm Heq) as L. destruct Hh as (A & B & _ & D & E).
    destruct t as [|t0 t].
    + right. split; [reflexivity|]. unfold noted in L. cbn [is_nil] in L. cbn [concat rbumps length]. rewrite app_nil_r. split; [|rewrite must_decrypt_bump; exact E].
      replace (cset_app (c_app c) (cset_cipher (Some (bump_r y)) (cset_in [] c))) with (cset_cipher (Some (bump_r y)) (cset_in [] c)) by (destruct c; reflexivity). exact L.
    + left. exists [], [], (c_in c). split; [reflexivity|]. split; [discriminate|]. unfold noted in L. cbn [is_nil] in L.
      cbn [concat rbumps length bumps]. rewrite app_nil_r. split; [|split; [exact Hm|]; split; [exact E|]; split; [exact I | exact Heq]].
      replace (cset_app (c_app c) (cset_cipher (Some y) (cset_in (c_in c) c))) with (cset_in (c_in c) c) by (destruct c; cbn in *; subst; reflexivity). exact L.
  - destruct Hf as (F1 & F2 & F3 & F4 & F5).
    set (s := seal_at CT_APPDATA m x d) in *.
    set (p := cr_seal C (cs_suite x) (se_key s) (se_nonce s) (se_data s) (se_aad s)) in *.
    cbn [length bumps] in Hn, Heq. set (Nn := note C m (bumps (length ds) (bump_w x))) in *.
    destruct (N.lt_ge_cases (blen (c_in c)) (blen (record CT_APPDATA p))) as [L|L].
    + left. exists [], (d :: ds), (c_in c). split; [reflexivity|].
      destruct (app_prefix _ _ _ _ _ Heq) as (t1 & E1 & E2).
      { rewrite streamed_cons, app_length. unfold sealed_record. fold s p. unfold blen in L. lia. }
      split. { intros ->. symmetry in E2. apply app_eq_nil in E2. destruct E2 as [_ E2]. discriminate E2. }
      split.
      * apply loops_stop. rewrite (read_stop C c x y m d ds t1 Hh (eq_sym E1)) by (fold s p; lia).
        cbn [length rbumps concat]. rewrite app_nil_r. destruct Hh as (_ & _ & _ & Hy & _).
        destruct c; cbn in *; subst; reflexivity.
      * cbn [length rbumps bumps]. split; [exact Hm|]. split; [apply Hh|].
        split; [repeat split; assumption|]. exact Heq.
    + rewrite streamed_cons, <- app_assoc in Heq. fold s in Heq.
      destruct (app_split _ _ _ _ _ Heq) as (i & Hi & Ht).
      { unfold blen in L. unfold sealed_record. fold p. lia. }
      destruct Hm as (M1 & M2 & M3 & M4).
      assert (St : guarded C (receive_one C) c =
        (Ok true, cset_app (c_app c ++ d) (cset_cipher (Some (bump_r y)) (cset_in i c)))).
      { apply (read_one C c y x m d i AC); try assumption.
        - fold s. destruct Hh as (A & B & _ & D & E). repeat split; auto.
        - fold s. lia. }
      set (c1 := cset_app (c_app c ++ d) (cset_cipher (Some (bump_r y)) (cset_in i c))) in *.
      destruct (IH (bump_w x) (bump_r y) c1 t) as [(ds1 & ds2 & j & E1 & E2 & E3 & E4 & E5 & E6 & E7)|(E1 & E2 & E3)].
      { destruct Hh as (A & B & _ & D & E). repeat split; auto. rewrite must_decrypt_bump. exact E. }
      { apply mirrored_bump. repeat split; assumption. }
      { exact Hx. } { exact F5. } { exact Hn. } { exact (eq_sym Ht). }
      * left. exists (d :: ds1), ds2, j. split; [cbn; congruence|]. split; [exact E2|]. split.
        { apply (loops_more C c c1); [exact St|].
          replace (cset_app (c_app c ++ concat (d :: ds1)) (cset_cipher (Some (rbumps (length (d :: ds1)) y)) (cset_in j c)))
            with (cset_app (c_app c1 ++ concat ds1) (cset_cipher (Some (rbumps (length ds1) (bump_r y))) (cset_in j c1))).
          - exact E3.
          - unfold c1. cbn [concat length rbumps]. destruct c; cbn. rewrite <- app_assoc. reflexivity. }
        cbn [length rbumps bumps]. auto.
      * right. split; [exact E1|]. split; [|exact E3].
        apply (loops_more C c c1); [exact St|].
        replace (cset_app (c_app c ++ concat (d :: ds)) (cset_cipher (Some (rbumps (S (length (d :: ds))) y)) (cset_in [] c)))
          with (cset_app (c_app c1 ++ concat ds) (cset_cipher (Some (rbumps (S (length ds)) (bump_r y))) (cset_in [] c1))).
        { exact E2. }
        unfold c1. cbn [concat length rbumps]. destruct c; cbn. rewrite <- app_assoc. reflexivity.
Qed.

(* --- one direction, the writer has closed --- *)
Definition closing (m : N) (out : bytes) (b : conn) (net sent got : bytes) (cb : bool) : Prop :=
  m <= max_frag b + 256 /\ exists y, hears b y (c_in b) /\
  ((exists x ds, mirrored x y /\ fits C m m x ds /\ note_fits C m (bumps (length ds) x) /\
      c_in b ++ net ++ out = streamed C m x ds ++ note C m (bumps (length ds) x) /\ net ++ out <> [] /\
      got ++ c_app b ++ concat ds = sent /\ (cb = false -> c_state b = Connected)) \/
   c_in b = [] /\ net ++ out = [] /\ got ++ c_app b = sent /\ (cb = false -> c_state b = Closed true true)).
Definition dirI (ca : bool) (a b : conn) (net sent got : bytes) (cb : bool) : Prop :=
  if ca then closing (max_frag a) (c_out a) b net sent got cb
  else flow C a b net sent got /\ (cb = false -> c_state b = Connected).

Lemma after_loops c p z : p <> [] -> can_receive (c_state c) = true -> loops C (ext p c) (Ok tt, z) -> after C (ORecv p) c = z.
Proof.
  intros Np Cr L. pose proof (receive_loops C p c _ Np Cr L) as E. cbn [finish] in E.
  unfold after, step, bind. rewrite E. destruct (rekeying z) as [[]|e]; reflexivity.
Qed.
Lemma hears_can b y i : hears b y i -> can_receive (c_state b) = true.
Proof. intros (A & _). destruct (c_state b) as [ | | | | | | | | | | |[] w| ]; try discriminate A; reflexivity. Qed.

Definition changed (b b' : conn) : Prop :=
  exists y n i z s, c_cipher b = Some y /\ (s = c_state b \/ s = Closed true true) /\
    b' = cset_state s (cset_app (c_app b ++ z) (cset_cipher (Some (rbumps n y)) (cset_in i b))).
Lemma closing_deliver m out b p rest sent got cb : p <> [] -> closing m out b (p ++ rest) sent got cb ->
  closing m out (after C (ORecv p) b) rest sent got cb /\ changed b (after C (ORecv p) b).
Proof.
  intros Np (Lm & y & H & [(x & ds & M & F & N1 & E & N2 & G & S)|(_ & E & _)]).
  2:{ apply app_eq_nil in E. destruct E as [E _]. apply app_eq_nil in E. destruct E as [-> _]. contradiction Np. reflexivity. }
  pose proof (hears_can _ _ _ H) as Cr. pose proof H as (A & B & _ & D & K).
  destruct (loop_last m ds x y (ext p b) (rest ++ out)) as [(ds1 & ds2 & i & E1 & E2 & E3 & E4 & E5 & E6 & E7)|(E1 & E2 & E3)]; try assumption.
  { split; [exact A|]. split; [exact B|]. split; [reflexivity|]. split; assumption. }
  { unfold ext. cbn [c_in cset_in]. rewrite <- !app_assoc, <- E, <- app_assoc. reflexivity. }
  - apply (after_loops b p _ Np Cr) in E3. unfold ext in E3. cbn [c_app cset_in] in E3. change (cset_in i (cset_in (c_in b ++ p) b)) with (cset_in i b) in E3.
    rewrite E3. split.
    + split; [exact Lm|]. exists (rbumps (length ds1) y). split. { split; [exact A|]. split; [exact B|]. split; [reflexivity|]. split; [reflexivity | exact E5]. }
      left. exists (bumps (length ds1) x), ds2. split; [exact E4|]. split; [exact E6|].
      assert (Q : bumps (length ds2) (bumps (length ds1) x) = bumps (length ds) x) by (rewrite <- bumps_app, E1, app_length; reflexivity).
      rewrite Q. split; [exact N1|]. split; [exact E7|]. split; [exact E2|]. split; [|exact S].
      cbn [c_app cset_app]. rewrite <- G, E1, concat_app, !app_assoc. reflexivity.
    + exists y, (length ds1), i, (concat ds1), (c_state b). split; [exact D|]. split; [left; reflexivity | destruct b; reflexivity].
  - apply (after_loops b p _ Np Cr) in E2. unfold ext in E2. cbn [c_app cset_in] in E2. change (cset_in [] (cset_in (c_in b ++ p) b)) with (cset_in [] b) in E2.
    rewrite E2. split.
    + split; [exact Lm|]. exists (rbumps (Datatypes.S (length ds)) y). split. { split; [reflexivity|]. split; [exact B|]. split; [reflexivity|]. split; [reflexivity | exact E3]. }
      right. split; [reflexivity|]. split; [exact E1|]. split; [|reflexivity].
      cbn [c_app cset_app cset_state]. rewrite <- G, !app_assoc. reflexivity.
    + exists y, (Datatypes.S (length ds)), [], (concat ds), (Closed true true). split; [exact D|]. split; [right; reflexivity | reflexivity].
Qed.
Lemma dirI_deliver ca a b p rest sent got cb : p <> [] -> dirI ca a b (p ++ rest) sent got cb ->
  dirI ca a (after C (ORecv p) b) rest sent got cb /\ changed b (after C (ORecv p) b).
Proof.
  intros Np. destruct ca; unfold dirI; [apply closing_deliver; exact Np|].
  intros [F S]. destruct (flow_deliver C AC _ _ _ _ _ _ Np F) as (F' & y & G1 & n & i & z & G2).
  split; [split; [exact F'|]|].
  - rewrite G2. exact S.
  - exists y, n, i, z, (c_state b). split; [exact G1|]. split; [left; reflexivity|]. rewrite G2. destruct b; reflexivity.
Qed.
Lemma dirI_read ca a b net sent got cb : dirI ca a b net sent got cb -> dirI ca a (cset_app [] b) net sent (got ++ c_app b) cb.
Proof.
  destruct ca; unfold dirI.
  - intros (Lm & y & H & [(x & ds & M & F & N1 & E & N2 & G & S)|(I & E & G & S)]); (split; [exact Lm|]; exists y; split; [exact H|]).
    + left. exists x, ds. repeat (split; [assumption|]). split; [|exact S]. cbn [c_app cset_app app]. rewrite <- app_assoc. exact G.
    + right. split; [exact I|]. split; [exact E|]. split; [|exact S]. cbn [c_app cset_app]. rewrite app_nil_r. exact G.
  - intros [F S]. split; [apply flow_read; exact F | exact S].
Qed.
Lemma dirI_flush ca a b net sent got cb : dirI ca a b net sent got cb -> dirI ca (cset_out [] a) b (net ++ c_out a) sent got cb.
Proof.
  destruct ca; unfold dirI.
  - change (max_frag (cset_out [] a)) with (max_frag a). cbn [c_out cset_out].
    intros (Lm & y & H & [(x & ds & M & F & N1 & E & N2 & G & S)|(I & E & G & S)]); (split; [exact Lm|]; exists y; split; [exact H|]); rewrite app_nil_r.
    + left. exists x, ds. repeat (split; [assumption|]). exact S.
    + right. repeat (split; [assumption|]). exact S.
  - intros [F S]. split; [apply flow_flush; exact F | exact S].
Qed.
(* steps of the other direction *)
Lemma dirI_other_deliver ca a a' b net sent got cb : dirI ca a b net sent got cb -> changed a a' -> dirI ca a' b net sent got cb.
Proof.
  intros D (y & n & i & z & s & E & _ & ->). destruct ca; unfold dirI in *; [exact D|]. destruct D as [F S]. split; [|exact S].
  exact (flow_other_deliver C a b net sent got n i (c_app a ++ z) y F E).
Qed.
Lemma dirI_other_read ca a b net sent got cb v : dirI ca a b net sent got cb -> dirI ca (cset_app v a) b net sent got cb.
Proof. destruct ca; unfold dirI; [exact (fun H => H)|]. intros [F S]. split; [apply flow_other_read; exact F | exact S]. Qed.
Lemma dirI_other_flush cb a b net sent got ca v : dirI cb b a net sent got ca -> dirI cb b (cset_out v a) net sent got ca.
Proof. destruct cb; unfold dirI; [exact (fun H => H)|]. intros [F S]. split; [apply flow_other_flush; exact F | exact S]. Qed.
(* a has written a record, and perhaps changed its state *)
Lemma dirI_other_write cb b a a' net sent got ca ca' y : dirI cb b a net sent got ca ->
  established (c_state a') = true -> c_in a' = c_in a -> c_inhs a' = c_inhs a -> c_app a' = c_app a ->
  max_frag a' = max_frag a -> c_cipher a = Some y -> c_cipher a' = Some (bump_w y) -> (ca' = false -> ca = false /\ c_state a' = c_state a) ->
  dirI cb b a' net sent got ca'.
Proof.
  intros D G1 G2 G3 G4 G5 G6 G7 Hs.
  destruct cb; unfold dirI in *.
  - destruct D as (Lm & y0 & (A & B & _ & Ec & K) & D). rewrite G6 in Ec. assert (y = y0) by congruence. subst y0. clear Ec.
    split; [rewrite G5; exact Lm|]. exists (bump_w y). split. { split; [exact G1|]. split; [congruence|]. split; [reflexivity|]. split; [exact G7 | exact K]. }
    rewrite G2, G4. destruct D as [(x & ds & (M1 & M2 & M3 & M4) & F & N1 & E & N2 & G & S)|(I & E & G & S)].
    + left. exists x, ds. split; [repeat split; assumption|]. repeat (split; [assumption|]). intro H. destruct (Hs H) as [H1 H2]. rewrite H2. exact (S H1).
    + right. repeat (split; [assumption|]). intro H. destruct (Hs H) as [H1 H2]. rewrite H2. exact (S H1).
  - destruct D as [(xa & yb & x & ds & n & F1 & F2 & F3 & F4 & F5 & F6 & F7 & F8 & F9 & F10 & F11 & F12 & F13) S].
    split; [|intro H; destruct (Hs H) as [H1 H2]; rewrite H2; exact (S H1)].
    destruct F5 as (A & B & _ & D & E). rewrite G6 in D. assert (y = yb) by congruence. subst yb. clear D.
    exists xa, (bump_w y), x, ds, n.
    split; [exact F1|]. split; [exact F2|]. split; [exact F3|]. split; [rewrite G5; exact F4|].
    split. { split; [exact G1|]. split; [congruence|]. split; [reflexivity|]. split; [exact G7 | exact E]. }
    split. { destruct F6 as (M1 & M2 & M3 & M4). repeat split; assumption. }
    split; [exact F7|]. split; [exact F8|]. split; [exact F9|]. split; [exact F10|].
    rewrite G2, G4. split; [exact F11|]. split; [exact F12 | exact F13].
Qed.
Lemma dirI_est ca a b net sent got cb : dirI ca a b net sent got cb -> established (c_state b) = true.
Proof. destruct ca; unfold dirI; [intros (_ & y & (H & _) & _); exact H | intros [(? & ? & ? & ? & ? & _ & _ & _ & _ & (H & _) & _) _]; exact H]. Qed.
Lemma dirI_open cb b a net sent got : dirI cb b a net sent got false -> c_state a = Connected \/ c_state a = Closed true true.
Proof.
  destruct cb; unfold dirI; [|intros [_ S]; left; auto].
  intros (_ & y & _ & [(x & ds & _ & _ & _ & _ & _ & _ & S)|(_ & _ & _ & S)]); [left | right]; auto.
Qed.
(* the close_notify joins what is on its way *)
Lemma flow_close a b net sent got cb : flow C a b net sent got -> (cb = false -> c_state b = Connected) ->
  c_state a = Connected \/ c_state a = Closed true true -> fst (step C OCloseS a) = Ok [] ->
  closing (max_frag (after C OCloseS a)) (c_out (after C OCloseS a)) b net sent got cb /\
  exists y, c_cipher a = Some y /\ c_cipher (after C OCloseS a) = Some (bump_w y) /\ c_state (after C OCloseS a) = Closed true false /\
    c_in (after C OCloseS a) = c_in a /\ c_inhs (after C OCloseS a) = c_inhs a /\ c_app (after C OCloseS a) = c_app a /\ max_frag (after C OCloseS a) = max_frag a.
Proof.
  intros (xa & yb & x & ds & n & F1 & F2 & F3 & F4 & F5 & F6 & F7 & F8 & F9 & F10 & F11 & F12 & F13) Sb St W.
  destruct (close_sending_end C a) as [[[]|e] a1] eqn:E.
  2:{ unfold step, bind in W. rewrite E in W. discriminate. }
  assert (Af : after C OCloseS a = a1) by (unfold after, step, bind; rewrite E; reflexivity).
  rewrite Af. clear W Af.
  destruct (close_one a xa a1 St F1 F2 F3 E) as [Nf ->].
  split; [|exists xa; repeat split; assumption].
  assert (Bw : cs_w xa = cs_w (bumps n x)) by congruence.
  assert (Bs : cs_suite xa = cs_suite (bumps n x)) by (rewrite bumps_out; congruence).
  change (max_frag (cset_state _ _)) with (max_frag a). cbn [c_out cset_state cset_out].
  split; [exact F4|]. exists yb. split; [exact F5|]. left. exists x, ds. rewrite <- F8.
  split; [exact F6|]. split; [exact F10|]. split; [exact (note_fits_w C _ _ _ Bw Bs Nf)|].
  split. { rewrite <- F11, (note_w C _ _ _ Bw Bs), <- !app_assoc. reflexivity. }
  split. { intro Z. apply app_eq_nil in Z. destruct Z as [_ Z]. apply app_eq_nil in Z. destruct Z as [_ Z]. discriminate Z. }
  split; [exact F12 | exact Sb].
Qed.

Definition endI (e : ending) : Prop :=
  dirI (e_a e) (w_a (e_w e)) (w_b (e_w e)) (w_ab (e_w e)) (w_sent_a (e_w e)) (w_got_b (e_w e)) (e_b e) /\
  dirI (e_b e) (w_b (e_w e)) (w_a (e_w e)) (w_ba (e_w e)) (w_sent_b (e_w e)) (w_got_a (e_w e)) (e_a e).
Lemma endI_move e e' : ends_moves C e e' -> endI e -> endI e'.
Proof.
  induction 1 as [w x d S R | w x R | w y x | w y x p rest E Hp | w y x | e e' M IH]; unfold endI in *; cbn [e_w e_a e_b w_a w_b w_ab w_ba w_sent_a w_sent_b w_got_a w_got_b] in *; intros [A B].
  - destruct A as [A S0]. destruct (flow_send C _ _ _ _ _ _ A S R) as (F & G1 & G2 & G3 & G4 & G5 & y & G6 & G7).
    split; [split; assumption|]. apply (dirI_other_write x (w_b w) (w_a w) _ _ _ _ false false y B); try assumption.
    + rewrite G1. exact (dirI_est _ _ _ _ _ _ _ B).
    + intros _. split; [reflexivity | exact G1].
  - destruct A as [A S0]. destruct (flow_close _ _ _ _ _ x A S0 (dirI_open _ _ _ _ _ _ B) R) as (F & y & G1 & G2 & G3 & G4 & G5 & G6 & G7).
    split; [exact F|]. apply (dirI_other_write x (w_b w) (w_a w) _ _ _ _ false true y B); try assumption.
    + rewrite G3. reflexivity.
    + discriminate.
  - destruct (after_flush C (w_a w)) as [-> ->]. split; [apply dirI_flush; exact A | apply dirI_other_flush; exact B].
  - rewrite E in A. destruct (dirI_deliver _ _ _ _ _ _ _ _ Hp A) as [A' Ch]. split; [exact A' | exact (dirI_other_deliver _ _ _ _ _ _ _ _ B Ch)].
  - destruct (after_read C (w_b w)) as [-> ->]. split; [apply dirI_read; exact A | apply dirI_other_read; exact B].
  - destruct IH as [I1 I2]; [split; assumption|]. split; assumption.
Qed.
Lemma endI_traffic w e : fresh_pair w -> ending_traffic C (opened w) e -> endI e.
Proof.
  intros ((A & B & E1 & E2 & E3 & E4 & E5 & E6) & Sa & Sb) T. remember (opened w) as e0 eqn:E0.
  assert (I0 : endI e0).
  { subst e0. unfold endI, opened. cbn [e_w e_a e_b]. rewrite E1, E2, E3, E4, E5, E6. split; (split; [apply flow_start; assumption | auto]). }
  clear E0. induction T as [e | e e1 e2 T IH M]; [exact I0|]. apply (endI_move _ _ M). apply IH. exact I0.
Qed.

Lemma dirI_prefix ca a b net sent got cb : dirI ca a b net sent got cb -> prefix (got ++ c_app b) sent.
Proof.
  destruct ca; unfold dirI; [|intros [F _]; eapply flow_prefix; exact F].
  intros (_ & y & _ & [(x & ds & _ & _ & _ & _ & _ & G & _)|(_ & _ & G & _)]).
  - exists (concat ds). rewrite <- app_assoc. symmetry. exact G.
  - exists []. rewrite app_nil_r. symmetry. exact G.
Qed.

Lemma halves w e : fresh_pair w -> ending_traffic C (opened w) e ->
  prefix (w_got_b (e_w e) ++ c_app (w_b (e_w e))) (w_sent_a (e_w e)) /\
  prefix (w_got_a (e_w e) ++ c_app (w_a (e_w e))) (w_sent_b (e_w e)) /\
  established (c_state (w_a (e_w e))) = true /\ established (c_state (w_b (e_w e))) = true.
Proof.
  intros L T. destruct (endI_traffic w e L T) as [A B].
  split; [eapply dirI_prefix; exact A|]. split; [eapply dirI_prefix; exact B|]. split; eapply dirI_est; eassumption.
Qed.
Lemma all_arrived w e : fresh_pair w -> ending_traffic C (opened w) e -> arrived (e_w e) ->
  w_got_b (e_w e) ++ c_app (w_b (e_w e)) = w_sent_a (e_w e) /\
  (e_b e = false -> c_state (w_b (e_w e)) = if e_a e then Closed true true else Connected).
Proof.
  intros L T [R1 R2]. destruct (endI_traffic w e L T) as [A _]. rewrite R1 in A. unfold dirI in A. destruct (e_a e).
  - destruct A as (_ & y & _ & [(x & ds & _ & _ & _ & _ & N & _)|(_ & _ & G & S)]); [rewrite R2 in N; contradiction N; reflexivity|]. auto.
  - destruct A as [F S]. destruct (flow_all C _ _ _ _ F R2) as (X & _). auto.
Qed.
Lemma told w e : fresh_pair w -> ending_traffic C (opened w) e -> e_b e = false -> c_state (w_b (e_w e)) <> Connected ->
  e_a e = true /\ arrived (e_w e) /\ w_got_b (e_w e) ++ c_app (w_b (e_w e)) = w_sent_a (e_w e).
Proof.
  intros L T Hb N. destruct (endI_traffic w e L T) as [A _]. rewrite Hb in A. unfold dirI in A. destruct (e_a e).
  - destruct A as (_ & y & _ & [(x & ds & _ & _ & _ & _ & _ & _ & S)|(_ & E & G & _)]); [destruct (N (S eq_refl))|].
    apply app_eq_nil in E. split; [reflexivity|]. split; [exact E | exact G].
  - destruct A as [_ S]. destruct (N (S eq_refl)).
Qed.
(* an endpoint that has not closed may write, one that has may not, whoever heard what *)
Lemma open_writes w e g d : aead_sized C -> fresh_pair w -> ending_traffic C (opened w) e -> e_b e = false ->
  reachable C g (w_b (e_w e)) -> room (w_b (e_w e)) -> short (w_b (e_w e)) d -> fst (step C (OSend d) (w_b (e_w e))) = Ok [].
Proof.
  intros AS L T Hb R Rm Sh. destruct (endI_traffic w e L T) as [A B]. rewrite Hb in *.
  apply (send_works C g); try assumption.
  - unfold dirI in B. destruct B as [(xa & yb & x & ds & n & F1 & F2 & _) _]. unfold enc_on. rewrite F1. exact F2.
  - apply dirI_open in A. destruct A as [-> | ->]; reflexivity.
Qed.
Lemma close_returns w e g : aead_sized C -> fresh_pair w -> ending_traffic C (opened w) e -> e_b e = false ->
  reachable C g (w_b (e_w e)) -> room (w_b (e_w e)) -> fst (step C OCloseS (w_b (e_w e))) = Ok [].
Proof.
  intros AS L T Hb R Rm. destruct (endI_traffic w e L T) as [A B]. rewrite Hb in *.
  apply dirI_open in A. pose proof (close_goes C AS g _ R A Rm) as E. unfold step, bind. destruct (close_sending_end C (w_b (e_w e))) as [[[]|x] c']; [reflexivity | discriminate].
Qed.
End half.

(* a writes, closes, all of it comes in two pieces; b answers, closes; a reads *)
Lemma farewell C a b d d' : aead_correct C -> fresh_pair (mkWorld a b [] [] [] [] [] []) -> short a d ->
  let a1 := after C (OSend d) a in let a2 := after C OCloseS a1 in let i := c_out a2 in
  fst (step C (OSend d) a) = Ok [] -> fst (step C OCloseS a1) = Ok [] -> 7 <? blen i = true ->
  let b1 := after C ORead (after C (ORecv (bdrop 7 i)) (after C (ORecv (btake 7 i)) b)) in
  let b2 := after C (OSend d') b1 in let b3 := after C OCloseS b2 in
  short b1 d' -> fst (step C (OSend d') b1) = Ok [] -> fst (step C OCloseS b2) = Ok [] -> negb (is_nil (c_out b3)) = true ->
  exists e e1, ending_traffic C (opened (mkWorld a b [] [] [] [] [] [])) e1 /\ ends_moves C e1 e /\
    e_a e1 = true /\ e_b e1 = true /\ w_got_b (e_w e) = d /\ w_got_a (e_w e) = d' /\ arrived (e_w e) /\ arrived (swap (e_w e)).
Proof.
  intros AC Fp Sh a1 a2 i S1 S2 L b1 b2 b3 Sh' S3 S4 Nb. apply N.ltb_lt in L.
  set (p := btake 7 i) in *. set (q := bdrop 7 i) in *.
  assert (I : [] ++ i = p ++ q) by (symmetry; apply btake_bdrop).
  assert (P : p <> []). { intro E. apply (f_equal blen) in E. unfold p in E. rewrite blen_btake in E. cbn in E. lia. }
  assert (Q : q <> []). { intro E. apply (f_equal blen) in E. unfold q in E. rewrite blen_bdrop in E. cbn in E. lia. }
  assert (Q' : c_out b3 <> []) by (destruct (c_out b3); [discriminate Nb | discriminate]). clear Nb L.
  set (w0 := mkWorld a b [] [] [] [] [] []) in *.
  set (w1 := mkWorld a1 b [] [] ([] ++ d) [] [] []).
  set (w2 := mkWorld a2 b [] [] ([] ++ d) [] [] []).
  set (a3 := after C OFlush a2).
  set (w3 := mkWorld a3 b ([] ++ i) [] ([] ++ d) [] [] []).
  set (w4 := mkWorld a3 (after C (ORecv p) b) q [] ([] ++ d) [] [] []).
  set (w5 := mkWorld a3 (after C (ORecv q) (w_b w4)) [] [] ([] ++ d) [] [] []).
  set (w6 := mkWorld a3 b1 [] [] ([] ++ d) [] [] ([] ++ returned C ORead (w_b w5))).
  set (w7 := mkWorld a3 b2 [] [] ([] ++ d) ([] ++ d') [] ([] ++ returned C ORead (w_b w5))).
  set (w8 := mkWorld a3 b3 [] [] ([] ++ d) ([] ++ d') [] ([] ++ returned C ORead (w_b w5))).
  set (b4 := after C OFlush b3).
  set (w9 := mkWorld a3 b4 [] ([] ++ returned C OFlush b3) ([] ++ d) ([] ++ d') [] ([] ++ returned C ORead (w_b w5))).
  set (w10 := mkWorld (after C (ORecv (c_out b3)) a3) b4 [] [] ([] ++ d) ([] ++ d') [] ([] ++ returned C ORead (w_b w5))).
  set (w11 := mkWorld (after C ORead (w_a w10)) b4 [] [] ([] ++ d) ([] ++ d') ([] ++ returned C ORead (w_a w10)) ([] ++ returned C ORead (w_b w5))).
  set (T := ending_traffic C (opened w0)).
  assert (T1 : T (mkEnding w1 false false)) by (apply (et_more C _ (opened w0)); [apply et_none | exact (em_send C w0 false d Sh S1)]).
  assert (T2 : T (mkEnding w2 true false)) by (apply (et_more C _ _ _ T1); exact (em_close C w1 false S2)).
  assert (T3 : T (mkEnding w3 true false)) by (apply (et_more C _ _ _ T2); exact (em_flush C w2 true false)).
  assert (T4 : T (mkEnding w4 true false)) by (apply (et_more C _ _ _ T3); exact (em_deliver C w3 true false p q I P)).
  assert (T5 : T (mkEnding w5 true false)) by (apply (et_more C _ _ _ T4); exact (em_deliver C w4 true false q [] (eq_sym (app_nil_r q)) Q)).
  assert (T6 : T (mkEnding w6 true false)) by (apply (et_more C _ _ _ T5); exact (em_read C w5 true false)).
  assert (T7 : T (mkEnding w7 true false)) by (apply (et_more C _ _ _ T6); exact (em_swap C (mkEnding w6 true false) _ (em_send C (swap w6) true d' Sh' S3))).
  assert (T8 : T (mkEnding w8 true true)) by (apply (et_more C _ _ _ T7); exact (em_swap C (mkEnding w7 true false) _ (em_close C (swap w7) true S4))).
  assert (T9 : T (mkEnding w9 true true)) by (apply (et_more C _ _ _ T8); exact (em_swap C (mkEnding w8 true true) _ (em_flush C (swap w8) true true))).
  assert (T10 : T (mkEnding w10 true true)).
  { apply (et_more C _ _ _ T9). exact (em_swap C (mkEnding w9 true true) _ (em_deliver C (swap w9) true true (c_out b3) [] (eq_sym (app_nil_r _)) Q')). }
  assert (M : ends_moves C (mkEnding w10 true true) (mkEnding w11 true true)) by exact (em_swap C (mkEnding w10 true true) _ (em_read C (swap w10) true true)).
  exists (mkEnding w11 true true), (mkEnding w10 true true). split; [exact T10|]. split; [exact M|]. split; [reflexivity|]. split; [reflexivity|].
  assert (T11 : T (mkEnding w11 true true)) by (eapply et_more; [exact T10 | exact M]).
  assert (Oa : c_out (after C (ORecv (c_out b3)) a3) = []).
  { destruct (endI_traffic C AC w0 _ Fp T9) as [_ B]. cbn [e_w e_a e_b w9 w_a w_b w_ba w_sent_b w_got_a] in B.
    rewrite app_nil_l in B. change (returned C OFlush b3) with (c_out b3) in B. rewrite <- (app_nil_r (c_out b3)) in B at 1.
    destruct (dirI_deliver C AC _ _ _ _ _ _ _ _ Q' B) as [_ (y & n & j & z & s & _ & _ & ->)]. reflexivity. }
  assert (Ar : arrived w11) by (split; [reflexivity | exact Oa]).
  assert (Ar' : arrived (swap w11)) by (split; reflexivity).
  split; [|split; [|split; [exact Ar | exact Ar']]].
  - destruct (all_arrived C AC w0 _ Fp T6) as [E _]; [split; reflexivity|]. cbn [e_w w6 w_got_b w_b w_sent_a app] in E.
    change (c_app b1) with (@nil byte) in E. rewrite app_nil_r in E. exact E.
  - destruct (endI_traffic C AC w0 _ Fp T11) as [_ B]. cbn [e_w e_a e_b] in B. destruct Ar' as [R1 R2]. cbn [swap w_ab w_a] in R1, R2.
    unfold dirI in B. rewrite R1, R2 in B. destruct B as (_ & y & _ & [(x & ds & _ & _ & _ & _ & N & _)|(_ & _ & G & _)]); [contradiction N; reflexivity|].
    cbn [w11 w_got_a w_sent_b w_a app] in G |- *. change (c_app (after C ORead ?c)) with (@nil byte) in G. rewrite app_nil_r in G. exact G.
Qed.
