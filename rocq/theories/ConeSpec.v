(** Vocabulary for statements about the cone law. *)
From Coq Require Import Reals.
From Verif Require Import ConeModel.
Open Scope R_scope.

(** A design of a turbine: it expands. *)
Definition expands (d : cdesign) : Prop := 0 < d_m d /\ 0 < d_p d /\ 0 < d_v d /\ 0 <= d_pr d < 1.
(** A state with pressures and volume of a gas. *)
Definition gas (s : cstate) : Prop := 0 < c_p s /\ 0 < c_v s /\ 0 <= c_po s.
(** The law of the ellipse. *)
Definition ellipse (d : cdesign) (s : cstate) : Prop :=
  c_m s ^ 2 * (c_p s * c_v s * (d_p d ^ 2 * (1 - d_pr d ^ 2))) = d_m d ^ 2 * (d_p d * d_v d * (c_p s ^ 2 - c_po s ^ 2)).
(** The residual as documented, turbine.py 280-284 (and in the LaTeX report, 314-321): the
    specific volumes are swapped in comparison to the code. *)
Definition documented (d : cdesign) (s : cstate) : R :=
  d_m d * c_p s / d_p d * sqrt (d_p d * c_v s / (c_p s * d_v d))
    * sqrt ((1 - (c_po s / c_p s) ^ 2) / (1 - d_pr d ^ 2)) - c_m s.
