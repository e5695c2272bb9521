(** Objects used in the examples and refutations of ExergyProps.v. *)
From Coq Require Import QArith Lqa.
From Verif Require Import Base ExergyModel ExergySpec ExergyProofs.
Open Scope Q_scope.

(** A consistent incompressible fluid: heat capacity proportional to the
    temperature, specific volume [v]; its exergy at pressure p0 is (T - T0)^2/2. *)
Definition lin (v : Q) : fluid := {| f_h := fun p T => T * T / 2 + v * p; f_s := fun _ T => T |}.
Definition st (v m p T : Q) : conn :=
  {| x_m := m; x_p := p; x_T := T; x_h := f_h (lin v) p T; x_s := f_s (lin v) p T; x_fluid := lin v; x_chem := 0 |}.
Definition amb : ambient := {| a_p := 1; a_T := 300 |}.
