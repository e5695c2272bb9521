(** What "the tolerance is met" means for newton_with_kwargs. *)
From Coq Require Import QArith Qabs.
From Verif Require Import NewtonModel.
Open Scope Q_scope.

(** Absolute criterion for targets near zero or on request, relative criterion
    otherwise, both for any other mode. *)
Definition tolerance_met (a : newton_args) (residual : Q) : Prop :=
  let absolute := Qabs residual < nk_tol_abs a in
  let relative := Qabs (residual / nk_target a) < nk_tol_rel a in
  match nk_mode a with
  | ModeAbs => absolute
  | ModeRel => (Qabs (nk_target a) <= 2 * nk_tol_rel a \/ nk_target a == 0 -> absolute) /\
               (2 * nk_tol_rel a < Qabs (nk_target a) -> ~ nk_target a == 0 -> relative)
  | ModeBoth => (nk_target a == 0 -> absolute) /\ (~ nk_target a == 0 -> relative /\ absolute)
  end.

(** An affine function with its slope, as oracle arguments. *)
Definition affine_args (slope offset target lo hi tol_rel tol_abs : Q) (m : tolmode) : newton_args :=
  {| nk_f := fun x => Ok (slope * x + offset); nk_df := fun _ => Ok slope;
     nk_target := target; nk_valmin := lo; nk_valmax := hi;
     nk_tol_rel := tol_rel; nk_tol_abs := tol_abs; nk_mode := m |}.
