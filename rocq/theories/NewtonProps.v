(** C06, C07: the scalar Newton solver. *)
From Coq Require Import QArith Qabs.
From Verif Require Import NewtonModel NewtonSpec NewtonProofs.
Open Scope Q_scope.

(** C06 – for every function, derivative (either may raise), start value and
    limit the solver ends within 13 iterations, with an exception of the
    function, or with a value inside the bounds; if it did not stop because of
    the iteration limit, the last evaluated argument met the tolerance. *)
Theorem C06_terminates_in_bounds :
  forall a val0 max_iter,
    (exists e, newton 14 a val0 max_iter = Some (Err e)) \/
    (exists o, newton 14 a val0 max_iter = Some (Ok o) /\
       (nk_valmin a <= nk_valmax a -> nk_valmin a <= no_x o <= nk_valmax a) /\
       (1 <= no_iter o <= 13)%nat /\
       (no_exhausted o = false ->
          exists fx, nk_f a (no_prev o) = Ok fx /\ tolerance_met a (nk_target a - fx))).
Proof. exact newton_spec. Qed.
Print Assumptions C06_terminates_in_bounds.

(** C06 – for an affine function with correct slope and a solution inside the
    bounds the solution is returned exactly, from every start value and with
    every iteration limit, in at most two iterations. *)
Theorem C06_affine_exact :
  forall slope offset target lo hi tol_rel tol_abs mode x0 max_iter root,
    ~ slope == 0 -> slope * root + offset == target -> lo <= root -> root <= hi ->
    0 < tol_rel -> 0 < tol_abs ->
    exists o,
      newton 14 (affine_args slope offset target lo hi tol_rel tol_abs mode) x0 max_iter
        = Some (Ok o) /\
      no_x o == root /\ (no_iter o <= 2)%nat.
Proof. exact newton_affine. Qed.
Print Assumptions C06_affine_exact.

Example C06_case :
  exists o, newton 14 (affine_args 2 1 701 70 3000 (1#1000000) (1#1000000000000) ModeRel) 300 10
      = Some (Ok o) /\ no_x o == 350.
Proof. eexists; split; [vm_compute; reflexivity|reflexivity]. Qed.

(** C07 – "at most max_iter + 1 evaluations" is false: max_iter = 4 runs 13. *)
Theorem C07_max_iter_honoured_refuted :
  exists a val0 max_iter o,
    newton 14 a val0 max_iter = Some (Ok o) /\ (no_iter o > max_iter + 1)%nat.
Proof. exact (ex_intro _ wit_const (ex_intro _ 5 (ex_intro _ 4%nat wit_const_4))). Qed.
Print Assumptions C07_max_iter_honoured_refuted.

(** C07 – nor is a larger limit honoured: max_iter = 50 gives up after 13. *)
Theorem C07_max_iter_usable_refuted :
  exists a val0 o,
    newton 14 a val0 50 = Some (Ok o) /\ no_iter o = 13%nat /\ no_exhausted o = true.
Proof. exact (ex_intro _ wit_const (ex_intro _ 5 wit_const_50)). Qed.
Print Assumptions C07_max_iter_usable_refuted.

(** C07 – "the returned value satisfies the tolerance" is false even when the
    loop ends by its tolerance test: the test uses the residual of the previous
    iterate. *)
Theorem C07_returned_value_converged_refuted :
  exists a val0 o,
    newton 14 a val0 10 = Some (Ok o) /\ no_exhausted o = false /\
    exists fx, nk_f a (no_x o) = Ok fx /\ ~ tolerance_met a (nk_target a - fx).
Proof. exact (ex_intro _ wit_jump (ex_intro _ 300 wit_jump_result)). Qed.
Print Assumptions C07_returned_value_converged_refuted.

(** C07 – limits up to three are honoured (the loop overwrites the limit at its
    fifth iteration). Missing: larger limits, refuted above. *)
Theorem C07_small_limit_honoured_partial :
  forall fuel a val0 max_iter o,
    (max_iter <= 3)%nat -> newton fuel a val0 max_iter = Some (Ok o) ->
    (no_iter o <= max_iter + 1)%nat.
Proof. exact newton_limit. Qed.
Print Assumptions C07_small_limit_honoured_partial.

Example C07_case :
  exists o, newton 14 wit_const 5 3 = Some (Ok o) /\ no_iter o = 4%nat.
Proof. eexists; split; [vm_compute; reflexivity|reflexivity]. Qed.
