(* The two models of get_ca_certificates_path agree. *)
From Verif Require Import Base P_Base Utils Examples Main.

Lemma bN_same a : forall b, map bN a = map bN b -> a = b.
Proof.
  induction a as [|x a IH]; intros [|y b] H; try discriminate; [reflexivity|]. injection H; intros T E.
  rewrite (IH b T). f_equal. apply (f_equal Nb) in E. rewrite !Nb_bN in E. exact E.
Qed.
Lemma eqb_same a b : text_eqb (map bN a) (map bN b) = beqb b a.
Proof.
  unfold text_eqb. destruct (list_eq_dec N.eq_dec (map bN a) (map bN b)) as [E|E].
  - apply bN_same in E. subst b. symmetry. apply beqb_refl.
  - destruct (beqb b a) eqn:E1; [|reflexivity]. apply beqb_eq in E1. subst b. congruence.
Qed.
Lemma space_same x : bN x < 128 -> unicode_space (bN x) = is_space x.
Proof. destruct x; intro H; first [reflexivity | discriminate H]. Qed.
Lemma split_same : forall s w, Forall (fun x => bN x < 128) s -> text_split (map bN w) (map bN s) = map (map bN) (split_words w s).
Proof.
  induction s as [|x s IH]; intros w H.
  - destruct w as [|y w]; [reflexivity|]. cbn [map text_split split_words is_nil]. f_equal. symmetry. exact (map_rev bN (y :: w)).
  - inversion_clear H as [|? ? Hx Hs]. cbn [map text_split split_words]. rewrite (space_same x Hx). destruct (is_space x).
    + destruct w as [|y w]; cbn [map is_nil app].
      * exact (IH [] Hs).
      * f_equal; [symmetry; exact (map_rev bN (y :: w)) | exact (IH [] Hs)].
    + exact (IH (x :: w) Hs).
Qed.
Lemma path_same : forall ids, ca_path (map (map bN) ids) = match first_path ids with Some p => Ok p | None => Err XValue end.
Proof.
  induction ids as [|i ids IH]; [reflexivity|]. cbn [map ca_path first_path]. unfold ca_paths, ca_certificates_paths, txt. cbn [find lookup_path fst].
  rewrite !eqb_same.
  repeat match goal with |- context [beqb i ?k] => destruct (beqb i k); [reflexivity|] end. exact IH.
Qed.
Lemma models_agree id like : Forall (fun x => bN x < 128) like ->
  get_ca_certificates_path (Some id) (Some like) = ca_path (map bN id :: text_split [] (map bN like)).
Proof.
  intro H. unfold get_ca_certificates_path. change (@nil N) with (map bN []). rewrite (split_same like [] H).
  change (map bN id :: map (map bN) (split_words [] like)) with (map (map bN) (id :: split_words [] like)).
  rewrite path_same. reflexivity.
Qed.
