(** Lemmas about numerical derivatives. *)
From Coq Require Import Lra.
From Verif Require Import NumDerivModel.
Open Scope R_scope.

(** The step width is usable: positive (for a component variable: as configured). *)
Definition good_kind (k : dvar) : Prop := 0 < stepwidth k.

Lemma numeric_deriv_restores k f v w r :
  numeric_deriv k f v = (w, Ok r) -> w = v.
Proof.
  destruct k; cbn [numeric_deriv]; unfold central_inplace, fluid_deriv; cbv zeta;
  repeat match goal with
  | |- context [match f ?x with Ok _ => _ | Err _ => _ end] => destruct (f x)
  end; intros H; inversion H; subst; lra.
Qed.

Lemma central_affine d a b v :
  d <> 0 -> central_inplace d (fun x => Ok (a * x + b)) v = (v, Ok a).
Proof.
  intros Hd. unfold central_inplace. f_equal; [lra|]. f_equal. field. auto.
Qed.

Lemma numeric_deriv_affine k a b v :
  k <> VFluid -> stepwidth k <> 0 ->
  numeric_deriv k (fun x => Ok (a * x + b)) v = (v, Ok a).
Proof.
  intros Hk Hd. destruct k; try congruence; cbn [numeric_deriv]; now apply central_affine.
Qed.

Lemma numeric_deriv_affine_fluid a b v :
  / 100000 <= v <= 1 ->
  numeric_deriv VFluid (fun x => Ok (a * x + b)) v = (v, Ok a).
Proof.
  intros Hv. cbn [numeric_deriv]. unfold fluid_deriv. cbn [stepwidth].
  destruct (Rle_dec (v + / 100000) 1) as [H|H].
  - destruct (Rle_dec 0 (v + / 100000 - 2 * / 100000)) as [H2|H2]; [|lra].
    f_equal. f_equal. field.
  - destruct (Rle_dec 0 (1 - 2 * / 100000)) as [H2|H2]; [|lra].
    f_equal. f_equal. field.
Qed.

Lemma numeric_deriv_fluid_low a b v :
  0 <= v < / 100000 ->
  numeric_deriv VFluid (fun x => Ok (a * x + b)) v = (v, Ok (a * ((v + / 100000) / (2 * / 100000)))).
Proof.
  intros Hv. cbn [numeric_deriv]. unfold fluid_deriv. cbn [stepwidth].
  destruct (Rle_dec (v + / 100000) 1) as [H|H]; [|lra].
  destruct (Rle_dec 0 (v + / 100000 - 2 * / 100000)) as [H2|H2]; [lra|].
  f_equal. f_equal. field.
Qed.

(** For a differentiable equation the numerical derivative is the derivative at
    some point within the step width. *)
Lemma central_mvt d f f' v :
  0 < d -> (forall x, v - d <= x <= v + d -> derivable_pt_lim f x (f' x)) ->
  exists x, v - d < x < v + d /\ central_inplace d (fun y => Ok (f y)) v = (v, Ok (f' x)).
Proof.
  intros Hd Hf.
  destruct (MVT_cor2 f f' (v - d) (v + d)) as (c & Hc & Hin); [lra|auto|].
  exists c. split; [auto|]. unfold central_inplace.
  replace (v + d - 2 * d) with (v - d) by ring. rewrite Hc.
  f_equal; [lra|]. f_equal. field. lra.
Qed.

Lemma numeric_deriv_mvt k f f' v :
  k <> VFluid -> 0 < stepwidth k ->
  (forall x, v - stepwidth k <= x <= v + stepwidth k -> derivable_pt_lim f x (f' x)) ->
  exists x, v - stepwidth k < x < v + stepwidth k /\
    numeric_deriv k (fun y => Ok (f y)) v = (v, Ok (f' x)).
Proof.
  intros Hk Hd Hf. destruct k; try congruence; cbn [numeric_deriv]; now apply central_mvt.
Qed.

Lemma fluid_mvt f f' v :
  / 100000 <= v <= 1 ->
  (forall x, 0 <= x <= 1 -> derivable_pt_lim f x (f' x)) ->
  exists x, v - 2 / 100000 < x < v + 2 / 100000 /\ 0 <= x <= 1 /\
    numeric_deriv VFluid (fun y => Ok (f y)) v = (v, Ok (f' x)).
Proof.
  intros Hv Hf. cbn [numeric_deriv]. unfold fluid_deriv. cbn [stepwidth].
  destruct (Rle_dec (v + / 100000) 1) as [H|H].
  - destruct (Rle_dec 0 (v + / 100000 - 2 * / 100000)) as [H2|H2]; [|lra].
    destruct (MVT_cor2 f f' (v + / 100000 - 2 * / 100000) (v + / 100000)) as (c & Hc & Hin); [lra|intros; apply Hf; lra|].
    exists c. split; [lra|]. split; [lra|]. rewrite Hc. f_equal. f_equal. field.
  - destruct (Rle_dec 0 (1 - 2 * / 100000)) as [H2|H2]; [|lra].
    destruct (MVT_cor2 f f' (1 - 2 * / 100000) 1) as (c & Hc & Hin); [lra|intros; apply Hf; lra|].
    exists c. split; [lra|]. split; [lra|]. rewrite Hc. f_equal. f_equal. field.
Qed.

Lemma central_difference_affine a b x delta :
  delta <> 0 -> central_difference (fun y => Ok (a * y + b)) x delta = Ok a.
Proof. intros H. unfold central_difference; cbn. f_equal. field. auto. Qed.

Lemma fluid_zero_half :
  numeric_deriv VFluid (fun x => Ok (1 * x + 0)) 0 = (0, Ok (/ 2)).
Proof.
  rewrite numeric_deriv_fluid_low by lra. f_equal. f_equal. field.
Qed.

Lemma raising_not_restored :
  numeric_deriv Vp (fun x => Err ValueError) 100000 = (100000 + / 10, Err ValueError).
Proof. reflexivity. Qed.

Lemma fluid_zero_in_range : 0 <= 0 <= 1. Proof. lra. Qed.
Lemma half_not_one : / 2 <> 1. Proof. lra. Qed.
Lemma displaced : 100000 + / 10 <> 100000. Proof. lra. Qed.

(** On copies the same slope is found. *)
Lemma central_difference_inplace f x d : central_difference f x d = snd (central_inplace d f x).
Proof.
  unfold central_difference, central_inplace. destruct (f (x + d)) as [u|]; cbn [rbind]; [|reflexivity].
  replace (x + d - 2 * d) with (x - d) by ring. destruct (f (x - d)); reflexivity.
Qed.
Lemma central_difference_mvt f f' x d : 0 < d ->
  (forall y, x - d <= y <= x + d -> derivable_pt_lim f y (f' y)) ->
  exists y, x - d < y < x + d /\ central_difference (fun z => Ok (f z)) x d = Ok (f' y).
Proof.
  intros D H. destruct (numeric_deriv_mvt (VComp d) f f' x) as (y & Y & E); [discriminate|exact D|exact H|].
  exists y. split; [exact Y|]. rewrite central_difference_inplace. change (numeric_deriv (VComp d)) with (central_inplace d) in E. now rewrite E.
Qed.
