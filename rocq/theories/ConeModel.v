(** The cone law of turbines, with its formula. EqnModel treats it as an unknown function of
    the inlet and outlet pressures and the inlet enthalpy.
    Models /repo/src/tespy/components/turbomachinery/turbine.py 269-297 over the reals. *)
From Coq Require Export Reals.
Open Scope R_scope.

(** Mass flow, inlet pressure and specific volume, outlet pressure. turbine.py 286-289. *)
Record cstate := { c_m : R; c_p : R; c_v : R; c_po : R }.
(** Design values: mass flow, inlet pressure and specific volume, pressure ratio.
    turbine.py 290-297. *)
Record cdesign := { d_m : R; d_p : R; d_v : R; d_pr : R }.

(** turbine.py 286-297 cone_func with n = 1; [x ** 0.5] is the square root. *)
Definition cone_func (d : cdesign) (s : cstate) : R :=
  - c_m s + d_m d * c_p s / d_p d * sqrt (d_p d * d_v d / (c_p s * c_v s))
            * sqrt (Rabs ((1 - (c_po s / c_p s) ^ 2) / (1 - d_pr d ^ 2))).
