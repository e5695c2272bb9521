(** Numerical derivatives.
    Models src/tespy/tools/helpers.py 382-470 (_numeric_deriv) and 568-573
    (central_difference) over the reals. The equation is an oracle that reads
    the value of the one variable being varied and may raise; all other state is
    constant during the call and is part of the oracle. *)
From Coq Require Export Reals.
From Verif Require Export Base.
Open Scope R_scope.

(** The kinds of variable _numeric_deriv distinguishes: a component variable
    with its step width d (410-421), a mass fraction (423-445), mass flow,
    pressure or enthalpy (447-460). *)
Inductive dvar := VComp (d : R) | VFluid | Vm | Vp | Vh.

(** Step widths, helpers.py 411, 424, 449-452. *)
Definition stepwidth (k : dvar) : R :=
  match k with
  | VComp d => d
  | VFluid => / 100000
  | Vm => / 10000
  | Vp | Vh => / 10
  end.

(** helpers.py 410-421 and 447-460: the value is moved to v + d, then by -2 d,
    then by + d again. If the equation raises, the value stays where it is.
    Returns the final value of the variable and the derivative. *)
Definition central_inplace (d : R) (f : R -> res R) (v : R) : R * res R :=
  let v1 := v + d in
  match f v1 with
  | Err e => (v1, Err e)
  | Ok e1 =>
      let v2 := v1 - 2 * d in
      match f v2 with
      | Err e => (v2, Err e)
      | Ok e2 => (v2 + d, Ok ((e1 - e2) / (2 * d)))
      end
  end.

(** helpers.py 423-445: mass fractions, steps truncated at 1 and 0; the old
    value is restored explicitly. *)
Definition fluid_deriv (f : R -> res R) (v : R) : R * res R :=
  let d := stepwidth VFluid in
  let v1 := if Rle_dec (v + d) 1 then v + d else 1 in
  match f v1 with
  | Err e => (v1, Err e)
  | Ok e1 =>
      let v2 := if Rle_dec 0 (v1 - 2 * d) then v1 - 2 * d else 0 in
      match f v2 with
      | Err e => (v2, Err e)
      | Ok e2 => (v, Ok ((e1 - e2) / (2 * d)))
      end
  end.

(** helpers.py 382-470: _numeric_deriv. *)
Definition numeric_deriv (k : dvar) (f : R -> res R) (v : R) : R * res R :=
  match k with
  | VFluid => fluid_deriv f v
  | _ => central_inplace (stepwidth k) f v
  end.

(** helpers.py 568-573: central_difference works on copies. *)
Definition central_difference (f : R -> res R) (x delta : R) : res R :=
  rbind (f (x + delta)) (fun u =>
  rbind (f (x - delta)) (fun l => Ok ((u - l) / (2 * delta)))).
