From Coq Require Import String.
From Verif Require Import Base Froz S_Froz.
Local Open Scope list_scope.

Lemma lookup_store n v d k : lookup k (store n v d) = if String.eqb k n then Some v else lookup k d.
Proof.
  induction d as [|[a w] d IH]; cbn [store lookup]; [destruct (String.eqb k n); reflexivity|].
  destruct (String.eqb_spec n a) as [E|N]; cbn [lookup].
  - rewrite E. destruct (String.eqb k a); reflexivity.
  - destruct (String.eqb_spec k a) as [E|K]; [|exact IH].
    destruct (String.eqb_spec k n); [congruence | reflexivity].
Qed.
Lemma store_names n v d x : In x (map fst (store n v d)) -> x = n \/ In x (map fst d).
Proof.
  induction d as [|[a w] d IH]; cbn [store map fst In]; [intros [E|[]]; auto|].
  destruct (String.eqb_spec n a) as [->|N]; cbn [map fst In]; [tauto|]. intros [E|I]; [tauto|]. destruct (IH I); tauto.
Qed.
Lemma store_nodup n v d : NoDup (map fst d) -> NoDup (map fst (store n v d)).
Proof.
  induction d as [|[a w] d IH]; cbn [store map fst]; intro H; [constructor; [intros [] | constructor]|].
  destruct (String.eqb_spec n a) as [->|N]; cbn [map fst]; [exact H|]. inversion H; subst. constructor; [|auto].
  intro I. apply store_names in I as [E|I]; [congruence | contradiction].
Qed.
Lemma lookup_in n d : lookup n d = None <-> ~ In n (map fst d).
Proof.
  induction d as [|[a w] d IH]; cbn [lookup map fst In]; [tauto|]. destruct (String.eqb_spec n a) as [->|N]; [split; [discriminate | tauto]|].
  rewrite IH. split; intros H I; [destruct I; [congruence | tauto] | tauto].
Qed.
Lemma unset_spec n d : NoDup (map fst d) ->
  match unset n d with
  | Ok d1 => lookup n d <> None /\ NoDup (map fst d1) /\ incl (map fst d1) (map fst d) /\ forall k, lookup k d1 = if String.eqb k n then None else lookup k d
  | Err e => e = XAttr /\ lookup n d = None
  end.
Proof.
  induction d as [|[a w] d IH]; cbn [unset lookup map fst]; intro H; [auto|]. inversion H as [|? ? I H']; subst.
  destruct (String.eqb_spec n a) as [->|N].
  - split; [discriminate|]. split; [exact H'|]. split; [intros x X; right; exact X|]. intro k. destruct (String.eqb_spec k a) as [->|K]; [|reflexivity].
    apply lookup_in. exact I.
  - specialize (IH H'). destruct (unset n d) as [d1|e]; cbn [rbind]; [|exact IH]. destruct IH as (L & D & S & F). split; [exact L|]. cbn [map fst]. split.
    + constructor; [|exact D]. intro X. apply I. apply S. exact X.
    + split; [intros x [->|X]; [left; reflexivity | right; apply S; exact X]|]. intro k. cbn [lookup].
      destruct (String.eqb_spec k a) as [->|K]; [destruct (String.eqb_spec a n); [congruence | reflexivity] | apply F].
Qed.

Lemma step_shows o d v : shows d v -> leaves_flag o ->
  shows (fnext o d) (fst (vnext o v)) /\ match fstep o d with Ok _ => None | Err e => Some e end = snd (vnext o v).
Proof.
  intros W L. pose proof W as (D & F & V). unfold fnext, vnext. destruct o as [n x|n|]; cbn [fstep leaves_flag] in *; unfold nc_freeze, nc_set, nc_del, unless_frozen; rewrite F; cbn [truth].
  - destruct (v_sealed v) eqn:S; [split; [exact W | reflexivity]|]. split; [|reflexivity]. cbn [fst]. split; [apply store_nodup; exact D|].
    split; [rewrite lookup_store; destruct (String.eqb_spec frozen_name n); [congruence | exact F]|].
    intros k K. rewrite lookup_store. cbn [v_vals]. destruct (String.eqb k n); [reflexivity | auto].
  - destruct (v_sealed v) eqn:S; [split; [exact W | reflexivity]|]. pose proof (unset_spec n d D) as U. rewrite (V n L) in U.
    destruct (unset n d) as [d1|e].
    + destruct U as (X & D1 & _ & G). destruct (v_vals v n) as [y|]; [|contradiction]. split; [|reflexivity]. cbn [fst]. split; [exact D1|].
      split; [rewrite G; destruct (String.eqb_spec frozen_name n); [congruence | exact F]|]. intros k K. rewrite G. cbn [v_vals]. destruct (String.eqb k n); [reflexivity | auto].
    + destruct U as (-> & ->). split; [exact W | reflexivity].
  - destruct (v_sealed v) eqn:S; [split; [exact W | reflexivity]|]. split; [|reflexivity]. cbn [fst]. split; [apply store_nodup; exact D|].
    split; [rewrite lookup_store, String.eqb_refl; reflexivity|]. intros k K. rewrite lookup_store. destruct (String.eqb_spec k frozen_name); [contradiction | exact (V k K)].
Qed.
Lemma run_shows l : forall d v, shows d v -> Forall leaves_flag l -> shows (frun l d) (vrun l v) /\ fouts l d = vouts l v.
Proof.
  induction l as [|o l IH]; intros d v S F; [split; [exact S | reflexivity]|]. inversion F as [|? ? Fo Fl]; subst.
  destruct (step_shows o d v S Fo) as (S1 & E). destruct (IH _ _ S1 Fl) as (S2 & E2). split; [exact S2|]. cbn [fouts vouts]. rewrite E, E2. reflexivity.
Qed.
Lemma new_shows d : nc_new = Ok d -> shows d vault_new.
Proof.
  intro E. assert (Q : nc_new = Ok ((frozen_name, PBool false) :: nc_names)) by (vm_compute; reflexivity). rewrite Q in E. injection E; intros <-. split.
  - assert (B : forall l : list string, (fix nd l := match l with [] => true | x :: l' => negb (existsb (String.eqb x) l') && nd l' end) l = true -> NoDup l).
    { induction l as [|x l IH]; intro H; [constructor|]. apply andb_prop in H as [H1 H2]. constructor; [|auto]. intro I.
      apply Bool.negb_true_iff in H1. assert (existsb (String.eqb x) l = true) by (apply existsb_exists; exists x; split; [exact I | apply String.eqb_refl]). congruence. }
    apply B. vm_compute. reflexivity.
  - split; [reflexivity|]. intros n N. cbn [lookup v_vals vault_new]. destruct (String.eqb_spec n frozen_name); [contradiction|].
    unfold nc_names, parameters. cbn [lookup existsb].
    repeat match goal with |- context [String.eqb n ?k] => destruct (String.eqb_spec n k) as [->|?]; [reflexivity|] end. reflexivity.
Qed.
Lemma follows ops d : nc_new = Ok d -> Forall leaves_flag ops -> shows (frun ops d) (vrun ops vault_new) /\ fouts ops d = vouts ops vault_new.
Proof. intros E F. exact (run_shows ops _ _ (new_shows _ E) F). Qed.

(* --- sealed ----------------------------------------------------------------- *)
Lemma frozen_step d o : lookup frozen_name d = Some (PBool true) -> fstep o d = Err XType.
Proof. intro F. destruct o; cbn [fstep]; unfold nc_freeze, nc_set, nc_del, unless_frozen; rewrite F; reflexivity. Qed.
Lemma frozen_all d d1 : nc_freeze d = Ok d1 -> forall ops, frun ops d1 = d1 /\ Forall (fun r => r = Some XType) (fouts ops d1) /\
  forall n, n <> frozen_name -> lookup n d1 = lookup n d.
Proof.
  intros E. assert (F : lookup frozen_name d1 = Some (PBool true) /\ forall n, n <> frozen_name -> lookup n d1 = lookup n d).
  { unfold nc_freeze, nc_set, unless_frozen in E. destruct (lookup frozen_name d); [|discriminate]. destruct (truth p); [discriminate|]. injection E; intros <-.
    split; [rewrite lookup_store, String.eqb_refl; reflexivity|]. intros n N. rewrite lookup_store. destruct (String.eqb_spec n frozen_name); [contradiction | reflexivity]. }
  destruct F as (F & G). intro ops. assert (H : frun ops d1 = d1 /\ Forall (fun r => r = Some XType) (fouts ops d1)).
  { induction ops as [|o ops [IH1 IH2]]; [split; [reflexivity | constructor]|]. unfold frun. cbn [fold_left fouts]. unfold fnext. rewrite (frozen_step d1 o F).
    split; [exact IH1 | constructor; [reflexivity | exact IH2]]. }
  destruct H. auto.
Qed.
