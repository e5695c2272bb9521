(** What it means that a row of the Jacobian matches its equation. Independent of how the
    derivative methods are written: only the residual as a function of the unknowns and the
    assignments made to the row occur. *)
From Coq Require Import Reals List String Bool.
From Verif Require Import EqnModel EqnSpec.
Import ListNotations.
Open Scope R_scope.

(** Steps of the difference quotients: 1e-4 kg/s, 0.1 Pa, 0.1 J/kg, 1e-5 for fractions, the
    step of the parameter for component variables. *)
Definition step (ds : nat -> R) (q : qty) : R :=
  match q with
  | QM _ => 1 / 10000
  | QP _ | QH _ => 1 / 10
  | QF _ _ => 1 / 100000
  | QC v => ds v
  end.

(** Symmetric difference quotient of the residual in one unknown. *)
Definition quotient (ds : nat -> R) (f : env -> R) (e : env) (q : qty) : R :=
  (f (upd e q (e q + step ds q)) - f (upd e q (e q - step ds q))) / (2 * step ds q).

(** An entry of the row: partial derivative or symmetric difference quotient. *)
Definition approximates (ds : nat -> R) (f : env -> R) (e : env) (q : qty) (v : R) : Prop :=
  partial_is f e q v \/ v = quotient ds f e q.

(** The residual does not depend on the unknown. *)
Definition independent (f : env -> R) (e : env) (q : qty) : Prop := forall t, f (upd e q t) = f e.

(** The row matches the equation for the unknowns selected by [K]: all that are not skipped by
    the filter have an entry that approximates the derivative, or the equation does not depend
    on them; and nothing is written for quantities that are not unknown. *)
Definition row_matches (K : qty -> Prop) (isv filt : qty -> bool) (ds : nat -> R) (f : env -> R)
  (ws : list write) (e : env) : Prop :=
  (forall q, K q -> isv q = true -> filt q = false ->
     match run_writes empty_row ws q with
     | Some v => approximates ds f e q v
     | None => independent f e q
     end) /\
  (forall q v, run_writes empty_row ws q = Some v -> isv q = true).

(** Every unknown. *)
Definition any (q : qty) : Prop := True.
(** Mass flows, pressures, enthalpies and component variables. *)
Definition no_fraction (q : qty) : Prop := match q with QF _ _ => False | _ => True end.
(** Mass flows, pressures, enthalpies and mass fractions. *)
Definition no_parameter (q : qty) : Prop := match q with QC _ => False | _ => True end.
(** Mass flows, pressures, enthalpies. *)
Definition state_var (q : qty) : Prop := match q with QM _ | QP _ | QH _ => True | _ => False end.

(** A parameter that is an unknown has a column. *)
Definition has_column (isv : qty -> bool) (p : param) : Prop :=
  match p with PVar v => isv (QC v) = true | PVal _ => True end.
(** A parameter with a fixed value. *)
Definition fixed (p : param) : Prop := match p with PVar _ => False | PVal _ => True end.
(** Fractions at least one step away from zero and one. *)
Definition inner_fractions (e : env) (l : list conn) : Prop :=
  forall c f, In c l -> In f (ckeys c) -> 1 / 100000 <= vx e c f <= 1 - 1 / 100000.
(** The same for the fluids listed only. *)
Definition inner_of (fluids : list string) (e : env) (l : list conn) : Prop :=
  forall c f, In c l -> In f fluids -> 1 / 100000 <= vx e c f <= 1 - 1 / 100000.
(** Symmetric difference quotient with a given step. *)
Definition quotient_at (d : R) (f : env -> R) (e : env) (q : qty) : R :=
  (f (upd e q (e q + d)) - f (upd e q (e q - d))) / (2 * d).
