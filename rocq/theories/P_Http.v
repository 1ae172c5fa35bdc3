From Coq Require Import ZArith Lia Zify.
From Verif Require Import Base P_Base Iana Crypto Config Conn Wrapper Examples S_Http.
Local Open Scope string_scope.
Local Open Scope list_scope.
Local Open Scope N_scope.

Ltac pows := change (2 ^ 6) with 64 in *; change (2 ^ 12) with 4096 in *; change (2 ^ 18) with 262144 in *.
Lemma bN_256 b : bN b < 256.
Proof. unfold bN. destruct b; vm_compute; reflexivity. Qed.

(* --- UTF-8 ----------------------------------------------------------------- *)
Lemma between_iff a b x : between a b x = true <-> a <= bN x <= b.
Proof. unfold between. rewrite andb_true_iff, !N.leb_le. reflexivity. Qed.
Lemma cont_iff x : cont x = true <-> 128 <= bN x <= 191.
Proof. unfold cont. rewrite andb_true_iff, !N.leb_le. reflexivity. Qed.
Lemma Nb_eq k x : k = bN x -> Nb k = x.
Proof. intros ->. apply Nb_bN. Qed.

Lemma decode_sound k : forall b s, (length b <= k)%nat -> utf8_decode b = Some s -> utf8 s b.
Proof.
  induction k as [|k IH]; intros b s Hl H.
  { destruct b; [|cbn in Hl; lia]. injection H as <-. constructor. }
  destruct b as [|x b1]; [injection H as <-; constructor|]. cbn [utf8_decode] in H. cbn [length] in Hl.
  pose proof (bN_256 x) as Bx.
  destruct (N.ltb_spec (bN x) 128) as [L|L].
  { destruct (utf8_decode b1) as [t|] eqn:E; [|discriminate H]. injection H as <-.
    change (x :: b1) with ([x] ++ b1). constructor; [unfold scalar; lia | | apply IH; [lia | exact E]].
    rewrite <- (Nb_bN x) at 2. constructor; lia. }
  destruct b1 as [|y b2]; [discriminate H|]. cbn [length] in Hl. pose proof (bN_256 y) as By.
  destruct (between 194 223 x && cont y) eqn:E2.
  { apply andb_prop in E2. destruct E2 as [E2 E2']. apply between_iff in E2. apply cont_iff in E2'.
    destruct (utf8_decode b2) as [t|] eqn:E; [|discriminate H]. injection H as <-. unfold low6.
    change (x :: y :: b2) with ([x; y] ++ b2). constructor; [unfold scalar; lia | | apply IH; [lia | exact E]].
    replace [x; y] with [Nb (0xC0 + (bN x - 192)); Nb (0x80 + (bN y - 128))]
      by (rewrite (Nb_eq _ x), (Nb_eq _ y) by lia; reflexivity).
    constructor; pows; lia. }
  destruct b2 as [|z b3]; [discriminate H|]. cbn [length] in Hl. pose proof (bN_256 z) as Bz.
  match type of H with (if ?cond then _ else _) = _ => destruct cond eqn:E3 end.
  { apply andb_prop in E3. destruct E3 as [E3 E3z]. apply andb_prop in E3. destruct E3 as [E3 E3y].
    apply between_iff in E3. apply cont_iff in E3z. apply between_iff in E3y.
    destruct (utf8_decode b3) as [t|] eqn:E; [|discriminate H]. injection H as <-. unfold low6.
    change (x :: y :: z :: b3) with ([x; y; z] ++ b3).
    assert (Hy : 128 <= bN y <= 191 /\ (bN x = 224 -> 160 <= bN y) /\ (bN x = 237 -> bN y <= 159)).
    { destruct (N.eqb_spec (bN x) 224); destruct (N.eqb_spec (bN x) 237); lia. }
    constructor; [unfold scalar; lia | | apply IH; [lia | exact E]].
    replace [x; y; z] with [Nb (0xE0 + (bN x - 224)); Nb (0x80 + (bN y - 128)); Nb (0x80 + (bN z - 128))]
      by (rewrite (Nb_eq _ x), (Nb_eq _ y), (Nb_eq _ z) by lia; reflexivity).
    constructor; pows; lia. }
  destruct b3 as [|w b4]; [discriminate H|]. cbn [length] in Hl. pose proof (bN_256 w) as Bw.
  match type of H with (if ?cond then _ else _) = _ => destruct cond eqn:E4 end; [|discriminate H].
  apply andb_prop in E4. destruct E4 as [E4 E4w]. apply andb_prop in E4. destruct E4 as [E4 E4z].
  apply andb_prop in E4. destruct E4 as [E4 E4y].
  apply between_iff in E4. apply cont_iff in E4z. apply cont_iff in E4w. apply between_iff in E4y.
  destruct (utf8_decode b4) as [t|] eqn:E; [|discriminate H]. injection H as <-. unfold low6.
  change (x :: y :: z :: w :: b4) with ([x; y; z; w] ++ b4).
  assert (Hy : 128 <= bN y <= 191 /\ (bN x = 240 -> 144 <= bN y) /\ (bN x = 244 -> bN y <= 143)).
  { destruct (N.eqb_spec (bN x) 240); destruct (N.eqb_spec (bN x) 244); lia. }
  constructor; [unfold scalar; lia | | apply IH; [lia | exact E]].
  replace [x; y; z; w] with [Nb (0xF0 + (bN x - 240)); Nb (0x80 + (bN y - 128)); Nb (0x80 + (bN z - 128)); Nb (0x80 + (bN w - 128))]
    by (rewrite (Nb_eq _ x), (Nb_eq _ y), (Nb_eq _ z), (Nb_eq _ w) by lia; reflexivity).
  constructor; pows; lia.
Qed.

Lemma between_no a b x : (bN x < a \/ b < bN x) -> between a b x = false.
Proof. intros H. destruct (between a b x) eqn:E; [apply between_iff in E; lia | reflexivity]. Qed.
Lemma decode_char n u b : scalar n -> spelt n u -> utf8_decode (u ++ b) = option_map (cons n) (utf8_decode b).
Proof.
  intros Hs H. unfold scalar in Hs. destruct H as [n H | n p q H Hp Hq En | n p q r H Hp Hq Hr En | n p q r t H Hp Hq Hr Ht En]; pows.
  - cbn [app utf8_decode]. rewrite bN_Nb by lia. rewrite (proj2 (N.ltb_lt _ _)) by lia. reflexivity.
  - cbn [app utf8_decode]. unfold low6. rewrite !bN_Nb by lia. rewrite (proj2 (N.ltb_ge _ _)) by lia.
    rewrite (proj2 (between_iff 194 223 _)) by (rewrite bN_Nb by lia; lia). rewrite (proj2 (cont_iff _)) by (rewrite bN_Nb by lia; lia).
    cbn [andb]. do 2 f_equal. lia.
  - cbn [app utf8_decode]. unfold low6. rewrite !bN_Nb by lia. rewrite (proj2 (N.ltb_ge _ _)) by lia.
    rewrite (between_no 194 223) by (rewrite bN_Nb by lia; lia). cbn [andb].
    rewrite (proj2 (between_iff 224 239 _)) by (rewrite bN_Nb by lia; lia). rewrite (proj2 (cont_iff (Nb (128 + r)))) by (rewrite bN_Nb by lia; lia).
    rewrite (proj2 (between_iff _ _ (Nb (128 + q)))).
    + cbn [andb]. do 2 f_equal. lia.
    + rewrite bN_Nb by lia. destruct (N.eqb_spec (224 + p) 224); destruct (N.eqb_spec (224 + p) 237); lia.
  - cbn [app utf8_decode]. unfold low6. rewrite !bN_Nb by lia. rewrite (proj2 (N.ltb_ge _ _)) by lia.
    rewrite (between_no 194 223) by (rewrite bN_Nb by lia; lia). cbn [andb].
    rewrite (between_no 224 239) by (rewrite bN_Nb by lia; lia). cbn [andb].
    rewrite (proj2 (between_iff 240 244 _)) by (rewrite bN_Nb by lia; lia).
    rewrite (proj2 (cont_iff (Nb (128 + r)))) by (rewrite bN_Nb by lia; lia).
    rewrite (proj2 (cont_iff (Nb (128 + t)))) by (rewrite bN_Nb by lia; lia).
    rewrite (proj2 (between_iff _ _ (Nb (128 + q)))).
    + cbn [andb]. do 2 f_equal. lia.
    + rewrite bN_Nb by lia. destruct (N.eqb_spec (240 + p) 240); destruct (N.eqb_spec (240 + p) 244); lia.
Qed.
Lemma decode_iff b s : utf8_decode b = Some s <-> utf8 s b.
Proof.
  split; [apply (decode_sound (length b)); lia|]. induction 1 as [|n s u b Hs Hu _ IH]; [reflexivity|].
  rewrite (decode_char n u b Hs Hu), IH. reflexivity.
Qed.
Lemma decode_none b : utf8_decode b = None <-> forall s, ~ utf8 s b.
Proof.
  split.
  - intros H s Hs. apply decode_iff in Hs. rewrite Hs in H. discriminate H.
  - intros H. destruct (utf8_decode b) as [s|] eqn:E; [|reflexivity]. apply decode_iff in E. destruct (H s E).
Qed.
Lemma utf8_unique b s s' : utf8 s b -> utf8 s' b -> s = s'.
Proof. intros H H'. apply decode_iff in H. apply decode_iff in H'. rewrite H in H'. injection H' as ->. reflexivity. Qed.

Lemma char_spelt n : scalar n -> spelt n (utf8_char n).
Proof.
  intros [H H']. unfold utf8_char.
  destruct (N.ltb_spec n 0x80); [constructor; lia|].
  destruct (N.ltb_spec n 0x800). { constructor; pows; Zify.zify; Z.to_euclidean_division_equations; lia. }
  destruct (N.ltb_spec n 0x10000). { constructor; pows; Zify.zify; Z.to_euclidean_division_equations; lia. }
  constructor; pows; Zify.zify; Z.to_euclidean_division_equations; lia.
Qed.
Lemma encode_ok s : Forall scalar s -> exists b, utf8_encode s = Some b /\ utf8 s b.
Proof.
  intros H. exists (flat_map utf8_char s). split.
  - unfold utf8_encode. replace (existsb surrogate s) with false; [reflexivity|]. symmetry.
    induction H as [|n s Hn _ IH]; [reflexivity|]. cbn [existsb]. rewrite IH. destruct Hn as [_ Hn]. unfold surrogate.
    destruct (N.leb_spec 0xD800 n); destruct (N.leb_spec n 0xDFFF); try reflexivity. lia.
  - induction H as [|n s Hn _ IH]; [constructor|]. cbn [flat_map]. constructor; [exact Hn | apply char_spelt; exact Hn | exact IH].
Qed.

(* --- lines and words --------------------------------------------------------- *)
Lemma crlf_first s : first_line s (before_crlf s).
Proof.
  induction s as [|a s IH]. { split; [left; reflexivity|]. intros. cbn. lia. }
  cbn [before_crlf]. destruct s as [|b s'].
  { split; [left; reflexivity|]. intros [|? p] q H; [discriminate H|]. cbn. lia. }
  destruct ((a =? 13) && (b =? 10)) eqn:E.
  - apply andb_prop in E. destruct E as [E E']. apply N.eqb_eq in E. apply N.eqb_eq in E'. subst a b. split; [right; exists s'; reflexivity|].
    intros. cbn. lia.
  - destruct IH as [IH1 IH2]. split.
    + destruct IH1 as [IH1|[r IH1]]; [left; rewrite <- IH1; reflexivity | right; exists r; cbn [app]; rewrite IH1 at 1; reflexivity].
    + intros [|x p] q H.
      * injection H as -> -> _. rewrite !N.eqb_refl in E. discriminate E.
      * injection H as <- H. cbn [length]. specialize (IH2 p q H). lia.
Qed.
Lemma first_line_unique s l l' : first_line s l -> first_line s l' -> l = l'.
Proof.
  assert (G : forall m m', first_line s m -> first_line s m' -> (length m <= length m')%nat).
  { intros m m' [[->|[r ->]] Hm] [[E|[r' E]] Hm'].
    - rewrite E. lia.
    - exact (Hm _ _ E).
    - rewrite <- E, app_length. lia.
    - exact (Hm _ _ E). }
  assert (P : forall m, first_line s m -> exists r, s = m ++ r).
  { intros m [[->|[r ->]] _]; [exists []; rewrite app_nil_r; reflexivity | eexists; reflexivity]. }
  intros H H'. pose proof (G l l' H H'). pose proof (G l' l H' H). destruct (P l H) as [r E], (P l' H') as [r' E']. rewrite E in E'.
  assert (length l = length l') by lia. clear - E' H2. revert l' E' H2. induction l as [|a l IH]; intros [|a' l'] E L; try discriminate L; [reflexivity|].
  injection E as -> E. f_equal. apply IH; [exact E | injection L; auto].
Qed.

Lemma space_white c : unicode_space c = true <-> white c.
Proof.
  unfold unicode_space, white, memN. cbn [existsb In]. rewrite !orb_true_iff, !andb_true_iff, !N.leb_le, !N.eqb_eq. 
  split; [|intros; lia]. intros H. lia.
Qed.
Lemma space_black c : unicode_space c = false <-> black c.
Proof. unfold black. rewrite <- space_white. destruct (unicode_space c); split; intros; try reflexivity; try discriminate; try congruence. Qed.
Lemma words_white c s l : white c -> words s l -> words (c :: s) l.
Proof.
  intros Hc H. destruct H as [s H | s w r l H Hw Hb Hr Hl].
  - constructor. constructor; assumption.
  - change (c :: s ++ w ++ r) with ((c :: s) ++ w ++ r). constructor; try assumption. constructor; assumption.
Qed.
Lemma split_words s : (words s (text_split [] s)) /\
  (forall w, w <> [] -> Forall black w -> words (rev w ++ s) (text_split w s)).
Proof.
  induction s as [|c s [IH1 IH2]].
  - split; [constructor; constructor|]. intros w Hw Hb. cbn [text_split]. destruct w as [|a w]; [congruence|]. cbn [is_nil].
    change (rev (a :: w) ++ []) with ([] ++ rev (a :: w) ++ []).
    constructor; [constructor | | apply Forall_rev; exact Hb | left; reflexivity | constructor; constructor].
    intros E. apply (f_equal (@length N)) in E. rewrite rev_length in E. discriminate E.
  - split.
    + cbn [text_split]. destruct (unicode_space c) eqn:E.
      * cbn [is_nil]. apply space_white in E. apply words_white; assumption.
      * apply space_black in E. apply (IH2 [c]); [discriminate | constructor; [exact E | constructor]].
    + intros w Hw Hb. cbn [text_split]. destruct (unicode_space c) eqn:E.
      * apply space_white in E. destruct w as [|a w]; [congruence|]. cbn [is_nil].
        change (rev (a :: w) ++ c :: s) with ([] ++ rev (a :: w) ++ (c :: s)).
        constructor; [constructor | | apply Forall_rev; exact Hb | right; exists c, s; split; [reflexivity | exact E] | apply words_white; assumption].
        intros E'. apply (f_equal (@length N)) in E'. rewrite rev_length in E'. discriminate E'.
      * apply space_black in E. specialize (IH2 (c :: w) ltac:(discriminate) ltac:(constructor; assumption)).
        cbn [rev] in IH2. rewrite <- app_assoc in IH2. exact IH2.
Qed.
Lemma split_white s r : Forall white s -> text_split [] (s ++ r) = text_split [] r.
Proof. induction 1 as [|c s Hc _ IH]; [reflexivity|]. cbn [app text_split]. apply space_white in Hc. rewrite Hc. cbn [is_nil]. exact IH. Qed.
Lemma split_black w : Forall black w -> forall v r, text_split v (w ++ r) = text_split (rev w ++ v) r.
Proof.
  induction 1 as [|c w Hc _ IH]; intros v r; [reflexivity|]. cbn [app text_split rev]. apply space_black in Hc. rewrite Hc, IH, <- app_assoc. reflexivity.
Qed.
Lemma words_split s l : words s l -> text_split [] s = l.
Proof.
  induction 1 as [s H | s w r l H Hw Hb Hr Hl IH].
  - rewrite <- (app_nil_r s), split_white by exact H. reflexivity.
  - rewrite split_white by exact H. rewrite split_black by exact Hb. rewrite app_nil_r.
    assert (Hn : is_nil (rev w) = false).
    { destruct (rev w) eqn:E; [|reflexivity]. apply (f_equal (@length N)) in E. rewrite rev_length in E. destruct w; [congruence | discriminate E]. }
    destruct Hr as [->|[c [r' [-> Hc]]]].
    + cbn [text_split]. cbn [text_split is_nil] in IH. rewrite Hn, rev_involutive. subst l. reflexivity.
    + cbn [text_split]. apply space_white in Hc. rewrite Hc. rewrite Hn, rev_involutive. f_equal.
      cbn [text_split] in IH. rewrite Hc in IH. exact IH.
Qed.
Lemma words_iff s l : words s l <-> text_split [] s = l.
Proof. split; [apply words_split|]. intros <-. apply split_words. Qed.

Lemma text_eqb_iff a b : text_eqb a b = true <-> a = b.
Proof. unfold text_eqb. destruct (list_eq_dec N.eq_dec a b); split; intros; congruence. Qed.
Lemma judged_iff q n : judged q n <-> snd (verdict q) = n.
Proof.
  split.
  - intros H. destruct H as [q H | q s l ws H Hl Hw Hn | q s l m p v H Hl Hw Hm | q s l p v H Hl Hw Hp | q s l v H Hl Hw]; unfold verdict.
    { apply decode_none in H. rewrite H. reflexivity. }
    all: apply decode_iff in H; rewrite H; rewrite <- (first_line_unique _ _ _ Hl (crlf_first s)); apply words_iff in Hw; rewrite Hw; cbn [snd].
    + destruct ws as [|a [|b [|d [|e ws]]]]; try reflexivity. destruct Hn. reflexivity.
    + destruct (text_eqb m GET) eqn:E; [apply text_eqb_iff in E; destruct (Hm E) | reflexivity].
    + replace (text_eqb [71; 69; 84] GET) with true by reflexivity. cbn [negb].
      destruct (text_eqb p [47]) eqn:E; [apply text_eqb_iff in E; destruct (Hp E) | reflexivity].
    + reflexivity.
  - intros <-. unfold verdict. destruct (utf8_decode q) as [s|] eqn:E; [|apply judged_garbage; apply decode_none; exact E].
    apply decode_iff in E. pose proof (crlf_first s) as Hl. cbn [snd].
    destruct (split_words (before_crlf s)) as [Hw _].
    destruct (text_split [] (before_crlf s)) as [|m [|p [|v [|x ws]]]] eqn:Ew;
      try (eapply judged_shape; [exact E | exact Hl | exact Hw | discriminate]).
    destruct (text_eqb m GET) eqn:Em; cbn [negb].
    + apply text_eqb_iff in Em. subst m. destruct (text_eqb p [47]) eqn:Ep; cbn [negb].
      * apply text_eqb_iff in Ep. subst p. eapply judged_fine; [exact E | exact Hl | exact Hw].
      * eapply judged_path; [exact E | exact Hl | exact Hw |]. intros ->. rewrite (proj2 (text_eqb_iff _ _) eq_refl) in Ep. discriminate Ep.
    + eapply judged_method; [exact E | exact Hl | exact Hw |]. intros ->. vm_compute in Em. discriminate Em.
Qed.

(* --- HTTP messages -------------------------------------------------------------- *)
Definition value (d : list N) (v : N) : N := fold_left (fun v c => 10 * v + (c - 48)) d v.
Lemma value_app d e v : value (d ++ e) v = value e (value d v).
Proof. apply fold_left_app. Qed.
Lemma decimal_spec fuel : forall n acc, n < 2 ^ N.of_nat fuel ->
  exists d, decimal_loop (S fuel) n acc = d ++ acc /\ d <> [] /\ Forall (fun c => 48 <= c <= 57) d /\ value d 0 = n /\
    (forall c r, d = c :: r -> c = 48 -> r = []).
Proof.
  induction fuel as [|f IH]; intros n acc H.
  - cbn [N.of_nat] in H. change (2 ^ 0) with 1 in H. assert (n = 0) by lia. subst n. exists [48]. cbn. repeat split; try discriminate.
    + constructor; [lia | constructor].
    + intros c r E. injection E as <- <-. reflexivity.
  - change (decimal_loop (S (S f)) n acc) with (if n <? 10 then (48 + n) :: acc else decimal_loop (S f) (n / 10) ((48 + n mod 10) :: acc)).
    destruct (N.ltb_spec n 10) as [L|L].
    + exists [48 + n]. repeat split; try discriminate.
      * constructor; [lia | constructor].
      * unfold value. cbn [fold_left]. lia.
      * intros c r E. injection E as <- <-. reflexivity.
    + assert (Hd : n / 10 < 2 ^ N.of_nat f).
      { rewrite Nat2N.inj_succ, N.pow_succ_r' in H. apply N.div_lt_upper_bound; [lia|]. remember (2 ^ N.of_nat f) as P. lia. }
      destruct (IH (n / 10) ((48 + n mod 10) :: acc) Hd) as [d [E [Hn [Hf [Hv Hz]]]]].
      exists (d ++ [48 + n mod 10]). pose proof (N.mod_lt n 10 ltac:(lia)) as Hm. pose proof (N.div_mod n 10 ltac:(lia)) as Hdm.
      assert (Hq : n / 10 <> 0) by (intros Q; rewrite Q in Hdm; lia).
      split; [rewrite E, <- app_assoc; reflexivity|]. split; [intros E'; apply app_eq_nil in E'; destruct E'; discriminate|].
      split; [apply Forall_app; split; [exact Hf | constructor; [cbv beta; remember (n mod 10) as M; lia | constructor]]|].
      split. { rewrite value_app, Hv. unfold value. cbn [fold_left]. clear - Hdm. remember (n mod 10) as M. remember (n / 10) as Q. lia. }
      intros c r E' Ec. destruct d as [|x d]; [congruence|]. injection E' as -> E'. pose proof (Hz c d eq_refl Ec). subst d c.
      unfold value in Hv. cbn [fold_left] in Hv. lia.
Qed.
Lemma size_bound n : n < 2 ^ N.of_nat (N.size_nat n).
Proof.
  destruct n as [|p]; [vm_compute; reflexivity|]. cbn [N.size_nat]. induction p as [p IH|p IH|]; cbn [Pos.size_nat]; rewrite ?Nat2N.inj_succ, ?N.pow_succ_r'; try lia.
Qed.
Lemma decimal_numeral n : numeral n (decimal n).
Proof.
  unfold decimal, numeral. destruct (decimal_spec (N.size_nat n) n [] (size_bound n)) as [d [-> [Hn [Hf [Hv Hz]]]]]. rewrite app_nil_r.
  split; [exact Hn|]. split; [exact Hf|]. split; [exact Hz | symmetry; exact Hv].
Qed.

Definition ascii (s : list N) : Prop := Forall (fun c => c < 128) s.
Definition visible (s : list N) : Prop := Forall (fun c => 32 <= c < 127) s.
Definition noblank (t : list N) : Prop := forall p q, t <> p ++ [13; 10; 13; 10] ++ q.
Lemma noblank_line l : visible l -> noblank l.
Proof.
  intros H p q ->. apply Forall_app in H. destruct H as [_ H]. inversion H as [|? ? H1]. lia.
Qed.
Lemma noblank_cons l x t : visible l -> 32 <= x -> noblank (x :: t) -> noblank (l ++ CRLF ++ x :: t).
Proof.
  intros H Hx Ht p q E. revert p E. induction H as [|a l Ha _ IH]; intros p E.
  - cbn [app CRLF] in E. destruct p as [|b [|b' p]]; injection E; intros; subst; try lia. apply (Ht p q). assumption.
  - destruct p as [|b p]; cbn [app] in E; injection E; intros; subst; [lia|]. apply (IH p). assumption.
Qed.
Lemma visible_app a b : visible a -> visible b -> visible (a ++ b).
Proof. intros. apply Forall_app. split; assumption. Qed.
Lemma visible_digits n : visible (decimal n).
Proof.
  destruct (decimal_numeral n) as [_ [H _]]. revert H. apply Forall_impl. intros a Ha. lia.
Qed.
Definition visibleb (s : list N) : bool := forallb (fun c => (32 <=? c) && (c <? 127)) s.
Lemma visible_b s : visibleb s = true -> visible s.
Proof.
  unfold visibleb, visible. rewrite forallb_forall, Forall_forall. intros H x Hx. specialize (H x Hx). apply andb_prop in H. destruct H as [H H'].
  apply N.leb_le in H. apply N.ltb_lt in H'. lia.
Qed.
Lemma visible_ascii s : visible s -> ascii s.
Proof. apply Forall_impl. intros a Ha. lia. Qed.
Lemma encode_ascii s t : ascii s -> flat_map utf8_char (s ++ t) = map Nb s ++ flat_map utf8_char t.
Proof.
  intros H. rewrite flat_map_app. f_equal. induction H as [|c s Hc _ IH]; [reflexivity|]. cbn [flat_map map]. rewrite IH. unfold utf8_char.
  rewrite (proj2 (N.ltb_lt c 0x80)) by exact Hc. reflexivity.
Qed.
Lemma ascii_app a b : ascii a -> ascii b -> ascii (a ++ b).
Proof. intros. apply Forall_app. split; assumption. Qed.
Lemma ascii_scalar s : ascii s -> Forall scalar s.
Proof. apply Forall_impl. intros a Ha. unfold scalar. lia. Qed.
Lemma encode_map s : ascii s -> utf8_encode s = Some (map Nb s).
Proof.
  intros H. destruct (encode_ok s (ascii_scalar s H)) as [b [E _]]. unfold utf8_encode in *. destruct (existsb surrogate s); [discriminate E|].
  f_equal. rewrite <- (app_nil_r s), encode_ascii by exact H. cbn [flat_map]. rewrite !app_nil_r. reflexivity.
Qed.

(* the lines of a message *)
Fixpoint lines (ls : list (list N)) (last : list N) : list N :=
  match ls with [] => last | l :: r => l ++ CRLF ++ lines r last end.
Definition line_ok (l : list N) : Prop := l <> [] /\ visible l.
Lemma lines_noblank ls last : Forall line_ok ls -> line_ok last -> noblank (lines ls last) /\ exists x t, lines ls last = x :: t /\ 32 <= x.
Proof.
  intros H [Hn Hv]. induction H as [|l ls [Hl Hlv] _ [IH [x [t [Ex Hx]]]]]; cbn [lines].
  - split; [apply noblank_line; exact Hv|]. destruct last as [|x t]; [congruence|]. exists x, t. split; [reflexivity|]. inversion Hv; subst. lia.
  - split; [rewrite Ex in *; apply noblank_cons; assumption|]. destruct l as [|y l]; [congruence|]. exists y. eexists. split; [reflexivity|].
    inversion Hlv; subst. lia.
Qed.
Lemma lines_ascii ls last : Forall line_ok ls -> ascii last -> ascii (lines ls last).
Proof.
  intros H Hl. induction H as [|l ls [_ Hv] _ IH]; [exact Hl|]. cbn [lines]. apply ascii_app; [apply visible_ascii; exact Hv|].
  apply ascii_app; [|exact IH]. repeat constructor.
Qed.
Lemma carry ls body : ls <> [] -> Forall line_ok ls -> ascii body ->
  let m := lines ls (content_length ++ decimal (N.of_nat (length body)) ++ CRLF ++ CRLF ++ body) in
  utf8_encode m = Some (map Nb m) /\ carries (map Nb m) (map Nb body).
Proof.
  intros Hne Hls Hb. cbn zeta.
  set (d := decimal (N.of_nat (length body))).
  assert (Hcl : visible content_length) by (apply visible_b; reflexivity).
  assert (Hd : visible d) by apply visible_digits.
  assert (Hcd : line_ok (content_length ++ d)) by (split; [discriminate | apply visible_app; assumption]).
  split.
  - apply encode_map. apply lines_ascii; [exact Hls|]. apply ascii_app; [apply visible_ascii; exact Hcl|]. apply ascii_app; [apply visible_ascii; exact Hd|].
    apply ascii_app; [repeat constructor|]. apply ascii_app; [repeat constructor | exact Hb].
  - assert (G : exists head, ascii head /\ forall t, lines ls t = head ++ [13; 10] ++ t).
    { clear - Hne Hls. induction Hls as [|l ls [_ Hv] Hls IH]; [congruence|]. destruct ls as [|l' ls'].
      - exists l. split; [apply visible_ascii; exact Hv | reflexivity].
      - destruct (IH ltac:(discriminate)) as [h [Hh E]]. exists (l ++ CRLF ++ h). split.
        + apply ascii_app; [apply visible_ascii; exact Hv|]. apply ascii_app; [repeat constructor | exact Hh].
        + intros t. change (lines (l :: l' :: ls') t) with (l ++ CRLF ++ lines (l' :: ls') t). rewrite E, <- !app_assoc. reflexivity. }
    destruct G as [head [Hh E]]. exists head, (N.of_nat (length body)), d.
    split. { rewrite E, <- map_app. f_equal. unfold CRLF. rewrite <- !app_assoc. reflexivity. }
    split; [exact Hh|]. split; [apply decimal_numeral|]. split; [unfold blen; rewrite map_length; reflexivity|].
    destruct (lines_noblank ls (content_length ++ d) Hls Hcd) as [Hnb _]. intros p q Epq. apply (Hnb p q). rewrite E. exact Epq.
Qed.
Lemma line_b l : negb (is_nil l) && visibleb l = true -> line_ok l.
Proof. intros H. apply andb_prop in H. destruct H as [H H']. split; [destruct l; [discriminate H | discriminate] | apply visible_b; exact H']. Qed.
Lemma line_pre l r : negb (is_nil l) && visibleb l = true -> visible r -> line_ok (l ++ r).
Proof.
  intros H Hr. destruct (line_b l H) as [Hn Hv]. split; [|apply visible_app; assumption]. intros E. apply app_eq_nil in E. destruct E. congruence.
Qed.
Lemma response_carries version date code body : visible version -> visible date -> ascii body ->
  exists m, utf8_encode (http_response version date code body) = Some m /\ carries m (map Nb body).
Proof.
  intros Hv Hd Hb.
  set (ls := [txt "HTTP/1.1 " ++ decimal code ++ txt " " ++ phrase code; txt "Date: " ++ date; txt "Server: siotls/" ++ version;
              txt "Connection: close"; txt "Content-Type: text/plain; charset=utf-8"]).
  assert (Hls : Forall line_ok ls).
  { unfold ls. repeat apply Forall_cons; try apply Forall_nil; try (apply line_pre; [reflexivity | assumption]); try (apply line_b; reflexivity).
    apply line_pre; [reflexivity|]. apply visible_app; [apply visible_digits|]. apply visible_app; [apply visible_b; reflexivity|].
    apply visible_b. unfold phrase. destruct (code =? 200); [reflexivity|]. destruct (code =? 404); [reflexivity|]. destruct (code =? 405); reflexivity. }
  assert (E : http_response version date code body = lines ls (content_length ++ decimal (N.of_nat (length body)) ++ CRLF ++ CRLF ++ body)).
  { unfold http_response, http_tail, ls. cbn [lines]. rewrite <- !app_assoc. reflexivity. }
  rewrite E. destruct (carry ls body ltac:(discriminate) Hls Hb) as [E1 E2]. eexists. split; [exact E1 | exact E2].
Qed.
Lemma request_carries version host meth path body : visible version -> visible host -> visible meth -> visible path -> ascii body ->
  exists m, utf8_encode (http_request version host meth path body) = Some m /\ carries m (map Nb body).
Proof.
  intros Hv Hh Hm Hp Hb.
  set (ls := [meth ++ txt " " ++ path ++ txt " HTTP/1.1"; txt "Host: " ++ host; txt "User-Agent: siotls/" ++ version;
              txt "Connection: close"; txt "Content-Type: text/plain; charset=utf-8"]).
  assert (Hls : Forall line_ok ls).
  { unfold ls. repeat apply Forall_cons; try apply Forall_nil; try (apply line_pre; [reflexivity | assumption]); try (apply line_b; reflexivity).
    split.
    - intros E. apply app_eq_nil in E. destruct E. discriminate.
    - apply visible_app; [exact Hm|]. apply visible_app; [apply visible_b; reflexivity|]. apply visible_app; [exact Hp | apply visible_b; reflexivity]. }
  assert (E : http_request version host meth path body = lines ls (content_length ++ decimal (N.of_nat (length body)) ++ CRLF ++ CRLF ++ body)).
  { unfold http_request, http_tail, ls. cbn [lines]. rewrite <- !app_assoc. reflexivity. }
  rewrite E. destruct (carry ls body ltac:(discriminate) Hls Hb) as [E1 E2]. eexists. split; [exact E1 | exact E2].
Qed.
Lemma answered C version date s s1 q s2 code : visible version -> visible date ->
  do_handshake C s = (Ok tt, s1) -> wread C s1 = (Ok q, s2) -> judged q code ->
  exists m d rest, m = map Nb (txt "HTTP/1.1 " ++ d ++ [32]) ++ rest /\ numeral code d /\
    carries m (if code =? 200 then map Nb (txt "Hello from siotls" ++ [10]) else []) /\
    forall s3 s4, wwrite C m s2 = (Ok tt, s3) -> wclose C s3 = (Ok tt, s4) ->
      snd (handle_one C version date s) = s4 /\ (fst (handle_one C version date s) = Ok tt <-> exists t, utf8 t q).
Proof.
  intros Hv Hd E1 E2 Hj. apply judged_iff in Hj.
  assert (Hb : ascii (body_of code)).
  { unfold body_of. destruct (code =? 200); [|constructor]. apply ascii_app; [apply visible_ascii, visible_b; reflexivity | repeat constructor]. }
  destruct (response_carries version date code (body_of code) Hv Hd Hb) as [m [Em Hm]].
  assert (Es : exists rest, m = map Nb (txt "HTTP/1.1 " ++ decimal code ++ [32]) ++ rest).
  { unfold utf8_encode in Em. destruct (existsb surrogate _); [discriminate Em|]. injection Em as <-. unfold http_response.
    change (txt " ") with [32]. exists (flat_map utf8_char (phrase code ++ CRLF ++ txt "Date: " ++ date ++ CRLF ++ txt "Server: siotls/" ++ version ++ CRLF ++ http_tail (body_of code))).
    rewrite <- encode_ascii.
    - rewrite <- !app_assoc. reflexivity.
    - apply ascii_app; [apply visible_ascii, visible_b; reflexivity|]. apply ascii_app; [apply visible_ascii, visible_digits | repeat constructor]. }
  destruct Es as [rest Es]. exists m, (decimal code), rest. split; [exact Es|]. split; [apply decimal_numeral|].
  split. { unfold body_of in Hm. destruct (code =? 200); exact Hm. }
  intros s3 s4 E3 E4. unfold handle_one, wwith, wbind. rewrite E1. unfold wfinally. rewrite E2.
  pose proof (decode_iff q) as Hq. unfold verdict in Hj |- *. destruct (utf8_decode q) as [t|] eqn:Eq; cbn [snd] in Hj; rewrite Hj, Em, E3, E4; cbn [fst snd].
  - split; [reflexivity|]. split; [intros _; exists t; apply Hq; reflexivity | reflexivity].
  - split; [reflexivity|]. split; [discriminate|]. intros [t Ht]. apply Hq in Ht. discriminate Ht.
Qed.
Lemma Nb_digit c : 48 <= c <= 57 -> Nb c = x31 -> c = 49.
Proof. intros H E. apply (f_equal bN) in E. rewrite bN_Nb in E by lia. exact E. Qed.
Lemma not_carried y : ~ carries (y ++ [x31; x0d; x0a; x0d; x0a; xc3; xa9]) [xc3; xa9].
Proof.
  intros [head [n [d [E [_ [[Hd [Hf [_ Hv]]] [Hn _]]]]]]].
  destruct (exists_last Hd) as [d' [c ->]].
  apply Forall_app in Hf. destruct Hf as [_ Hf]. pose proof (Forall_inv Hf) as Hc. cbv beta in Hc. subst n.
  rewrite fold_left_app in Hn. cbn [fold_left] in Hn. unfold blen in Hn. cbn [length] in Hn.
  repeat rewrite ?map_app, <- ?app_assoc in E. cbn [map app] in E.
  assert (G : forall (a b : list byte) u v, a ++ u = b ++ v -> length u = length v -> u = v).
  { intros a b u v Eq L. apply (f_equal (@rev byte)) in Eq. rewrite !rev_app_distr in Eq.
    assert (K : forall (p q p' q' : list byte), p ++ q = p' ++ q' -> length p = length p' -> p = p').
    { induction p as [|x p IH]; intros q [|x' p'] q' Ep Lp; try discriminate Lp; [reflexivity|]. injection Ep as -> Ep. f_equal. apply (IH q p' q' Ep). injection Lp; auto. }
    apply K in Eq; [|rewrite !rev_length; exact L]. rewrite <- (rev_involutive u), Eq, rev_involutive. reflexivity. }
  change (map Nb head ++ Nb 13 :: Nb 10 :: map Nb content_length ++ map Nb d' ++ Nb c :: Nb 13 :: Nb 10 :: Nb 13 :: Nb 10 :: [xc3; xa9])
    with (map Nb head ++ (Nb 13 :: Nb 10 :: map Nb content_length) ++ map Nb d' ++ [Nb c; Nb 13; Nb 10; Nb 13; Nb 10; xc3; xa9]) in E.
  rewrite !app_assoc in E. apply G in E; [|reflexivity]. injection E as E. rewrite (Nb_digit c Hc (eq_sym E)) in Hn. lia.
Qed.
Lemma garbage_raises C version date s s1 q s2 m s3 s4 : do_handshake C s = (Ok tt, s1) -> wread C s1 = (Ok q, s2) -> utf8_decode q = None ->
  utf8_encode (http_response version date 400 []) = Some m -> wwrite C m s2 = (Ok tt, s3) -> wclose C s3 = (Ok tt, s4) ->
  handle_one C version date s = (Err (XOther 0), s4).
Proof.
  intros E1 E2 Eq Em E3 E4. unfold handle_one, wwith, wbind. rewrite E1. unfold wfinally. rewrite E2. unfold verdict. rewrite Eq.
  change (body_of 400) with (@nil N). rewrite Em, E3, E4. reflexivity.
Qed.
