(** C08, C46: numerical derivatives. *)
From Coq Require Import Lra.
From Verif Require Import NumDerivModel NumDerivProofs.
Open Scope R_scope.

(** C08 – whenever a derivative is returned, the variable has its old value. *)
Theorem C08_state_restored :
  forall kind f v w r, numeric_deriv kind f v = (w, Ok r) -> w = v.
Proof. exact numeric_deriv_restores. Qed.
Print Assumptions C08_state_restored.

(** C08 – exact slope for equations affine in m, p, h or a component variable. *)
Theorem C08_affine_exact :
  forall kind a b v,
    kind <> VFluid -> stepwidth kind <> 0 ->
    numeric_deriv kind (fun x => Ok (a * x + b)) v = (v, Ok a).
Proof. exact numeric_deriv_affine. Qed.
Print Assumptions C08_affine_exact.

(** C08 – for a differentiable equation the result is the derivative at a point
    closer than the step width. *)
Theorem C08_mean_value :
  forall kind f f' v,
    kind <> VFluid -> 0 < stepwidth kind ->
    (forall x, v - stepwidth kind <= x <= v + stepwidth kind -> derivable_pt_lim f x (f' x)) ->
    exists x, v - stepwidth kind < x < v + stepwidth kind /\
      numeric_deriv kind (fun y => Ok (f y)) v = (v, Ok (f' x)).
Proof. exact numeric_deriv_mvt. Qed.
Print Assumptions C08_mean_value.

(** C08 – mass fractions of at least the step width 1e-5: exact for affine
    equations, upper limit 1 included. *)
Theorem C08_fluid_affine_exact :
  forall a b v,
    / 100000 <= v <= 1 ->
    numeric_deriv VFluid (fun x => Ok (a * x + b)) v = (v, Ok a).
Proof. exact numeric_deriv_affine_fluid. Qed.
Print Assumptions C08_fluid_affine_exact.

Theorem C08_fluid_mean_value :
  forall f f' v,
    / 100000 <= v <= 1 ->
    (forall x, 0 <= x <= 1 -> derivable_pt_lim f x (f' x)) ->
    exists x, v - 2 / 100000 < x < v + 2 / 100000 /\ 0 <= x <= 1 /\
      numeric_deriv VFluid (fun y => Ok (f y)) v = (v, Ok (f' x)).
Proof. exact fluid_mvt. Qed.
Print Assumptions C08_fluid_mean_value.

(** C08 – the derivatives of property functions, taken on copies: exact for affine
    functions, the derivative at a point closer than the step width otherwise. *)
Theorem C08_property_functions :
  (forall a b x d, d <> 0 -> central_difference (fun y => Ok (a * y + b)) x d = Ok a) /\
  (forall f f' x d, 0 < d -> (forall y, x - d <= y <= x + d -> derivable_pt_lim f y (f' y)) ->
     exists y, x - d < y < x + d /\ central_difference (fun z => Ok (f z)) x d = Ok (f' y)).
Proof. exact (conj central_difference_affine central_difference_mvt). Qed.
Print Assumptions C08_property_functions.

(** C46 – below the step width the slope is wrong: it is scaled by
    (v + d) / (2 d), one half at v = 0. *)
Theorem C46_fluid_slope_below_step_partial :
  forall a b v,
    0 <= v < / 100000 ->
    numeric_deriv VFluid (fun x => Ok (a * x + b)) v
      = (v, Ok (a * ((v + / 100000) / (2 * / 100000)))).
Proof. exact numeric_deriv_fluid_low. Qed.
Print Assumptions C46_fluid_slope_below_step_partial.

Theorem C46_fluid_affine_exact_refuted :
  exists a b v r,
    0 <= v <= 1 /\ numeric_deriv VFluid (fun x => Ok (a * x + b)) v = (v, Ok r) /\ r <> a.
Proof.
  exact (ex_intro _ 1 (ex_intro _ 0 (ex_intro _ 0 (ex_intro _ (/ 2)
    (conj fluid_zero_in_range (conj fluid_zero_half half_not_one)))))).
Qed.
Print Assumptions C46_fluid_affine_exact_refuted.

(** C46 – an equation that raises leaves the variable displaced. *)
Theorem C46_restored_when_raising_refuted :
  exists kind f v w e, numeric_deriv kind f v = (w, Err e) /\ w <> v.
Proof.
  exact (ex_intro _ Vp (ex_intro _ (fun _ => Err ValueError) (ex_intro _ 100000
    (ex_intro _ (100000 + / 10) (ex_intro _ ValueError (conj raising_not_restored displaced)))))).
Qed.
Print Assumptions C46_restored_when_raising_refuted.

Example C08_case :
  stepwidth Vm <> 0 /\ 0 < stepwidth Vp /\ / 100000 <= 1 / 2 <= 1 /\
  numeric_deriv Vm (fun x => Ok (3 * x + 2)) 10 = (10, Ok 3).
Proof.
  split; [cbn; lra|]. split; [cbn; lra|]. split; [lra|].
  apply numeric_deriv_affine; [discriminate|cbn; lra].
Qed.
