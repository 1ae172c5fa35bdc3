(* The offsets of a dump are aligned. *)
From Verif Require Import Base P_Base Utils S_Utils P_Utils.

Lemma fixed_length w : forall n, length (hex_fixed w n) = w.
Proof. induction w as [|w IH]; intro n; [reflexivity|]. cbn [hex_fixed]. rewrite app_length, IH. cbn [length]. lia. Qed.
Lemma size_mono a b : a <= b -> N.size a <= N.size b.
Proof.
  intro H. destruct a as [|a]; [cbn; lia|]. destruct b as [|b]; [lia|]. rewrite !N.size_log2 by discriminate.
  apply -> N.succ_le_mono. apply N.log2_le_mono. exact H.
Qed.
Lemma digits_wide len i : 0 < len -> i < len -> hex_width i <= offset_digits len.
Proof.
  intros L H. unfold hex_width, offset_digits. pose proof (size_mono i len ltac:(lia)) as M.
  assert (S1 : 1 <= N.size len) by (rewrite N.size_log2 by lia; lia).
  pose proof (N.div_le_mono (N.size i + 3) (N.size len + 3) 4 ltac:(lia) ltac:(lia)) as D.
  set (a := (N.size i + 3) / 4) in *. assert (K1 : 1 <= (N.size len + 3) / 4) by (apply N.div_le_lower_bound; lia).
  set (k := (N.size len + 3) / 4) in *.
  pose proof (N.div_mod (k + 3) 4 ltac:(lia)). pose proof (N.mod_lt (k + 3) 4 ltac:(lia)). set (q := (k + 3) / 4) in *. lia.
Qed.
Lemma digits_least len : 0 < len -> offset_digits len mod 4 = 0 /\ len < 16 ^ offset_digits len /\ 16 ^ (offset_digits len - 4) <= len.
Proof.
  intro L. unfold offset_digits. assert (S1 : 1 <= N.size len) by (rewrite N.size_log2 by lia; lia).
  pose proof (N.div_mod (N.size len + 3) 4 ltac:(lia)). pose proof (N.mod_lt (N.size len + 3) 4 ltac:(lia)).
  set (k := (N.size len + 3) / 4) in *.
  pose proof (N.div_mod (k + 3) 4 ltac:(lia)). pose proof (N.mod_lt (k + 3) 4 ltac:(lia)). set (q := (k + 3) / 4) in *.
  split; [apply N.mod_mul; discriminate|].
  assert (P16 : forall x, 16 ^ x = 2 ^ (4 * x)) by (intro x; rewrite N.pow_mul_r; reflexivity). rewrite !P16. split.
  - apply N.lt_le_trans with (2 ^ N.size len); [apply N.size_gt|]. apply N.pow_le_mono_r; [discriminate | lia].
  - assert (Q1 : 4 * q <= k + 3) by (apply N.mul_div_le; discriminate).
    assert (Q2 : 4 * k <= N.size len + 3) by (apply N.mul_div_le; discriminate).
    assert (Q3 : 4 * (q * 4 - 4) <= N.size len - 1) by (clearbody q k; clear - Q1 Q2 S1; lia).
    apply N.le_trans with (2 ^ (N.size len - 1)); [apply N.pow_le_mono_r; [discriminate | exact Q3]|].
    rewrite N.size_log2 by lia. replace (N.succ (N.log2 len) - 1) with (N.log2 len) by lia. apply N.log2_spec. exact L.
Qed.
Definition wide (w : N) (line : bytes) : Prop := N.of_nat (length (fst (cut_colon line))) = w.
Lemma line_wide d i line : hex_width i <= d -> wide d (dump_line d i line).
Proof.
  intro H. unfold wide, dump_line, format_hex. cbn [app]. rewrite hex_fixed_cut. cbn [fst]. rewrite fixed_length. lia.
Qed.
Lemma lines_wide : forall fuel d i b, b <> [] -> (length b <= fuel)%nat -> (forall j, j < i + blen b -> hex_width j <= d) ->
  Forall (wide d) (split_lines (removelast (dump_lines fuel d i b))).
Proof.
  induction fuel as [|fuel IH]; intros d i b Hb Hf HW.
  - destruct b; [contradiction|]. cbn in Hf. lia.
  - destruct b as [|x b]; [contradiction|]. set (b1 := x :: b) in *.
    assert (dump_lines (S fuel) d i b1 =
            dump_line d i (btake 16 b1) ++ [x0a] ++ dump_lines fuel d (i + 16) (bdrop 16 b1)) as -> by reflexivity.
    assert (W : wide d (dump_line d i (btake 16 b1))) by (apply line_wide, HW; unfold b1, blen; cbn [length]; lia).
    destruct (bdrop 16 b1) as [|y b2] eqn:E.
    + assert (dump_lines fuel d (i + 16) [] = []) as -> by (destruct fuel; reflexivity).
      rewrite app_nil_r, removelast_app_ne by discriminate. cbn [removelast].
      rewrite app_nil_r, split_lines_none by apply no_nl_line. constructor; [exact W | constructor].
    + assert (L : length b1 = (16 + length (y :: b2))%nat).
      { rewrite <- E. unfold bdrop. rewrite skipn_length. assert (length (bdrop 16 b1) <> 0)%nat by (rewrite E; discriminate).
        unfold bdrop in *. rewrite skipn_length in *. change (N.to_nat 16) with 16%nat in *. lia. }
      assert (NE : dump_lines fuel d (i + 16) (y :: b2) <> []) by (apply dump_lines_ne; [discriminate|]; cbn [length] in *; lia).
      rewrite app_assoc, removelast_app_ne by exact NE. rewrite <- app_assoc. cbn [app].
      rewrite split_lines_cons by apply no_nl_line. constructor; [exact W|].
      apply IH; [discriminate | cbn [length] in *; lia|]. intros j Hj. apply HW. unfold blen in *. rewrite L. lia.
Qed.
Lemma aligned b : b <> [] -> exists w, w mod 4 = 0 /\ blen b < 16 ^ w /\ 16 ^ (w - 4) <= blen b /\
  Forall (fun line => N.of_nat (length (fst (cut_colon line))) = w) (split_lines (hexdump b)).
Proof.
  intro Hb. assert (L : 0 < blen b) by (destruct b; [congruence | unfold blen; cbn [length]; lia]).
  exists (offset_digits (blen b)). destruct (digits_least _ L) as (A & B & D). split; [exact A|]. split; [exact B|]. split; [exact D|].
  unfold hexdump. replace (is_nil b) with false by (destruct b; [congruence | reflexivity]).
  apply (lines_wide (length b) _ 0 b Hb (le_n _)). intros j Hj. apply digits_wide; [exact L|]. rewrite N.add_0_l in Hj. exact Hj.
Qed.
