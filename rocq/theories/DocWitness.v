(** Concrete reports. Source: see DocModel.v. *)
From Coq Require Import QArith.
From Verif Require Import Base DocModel DocSpec.
Open Scope nat_scope.

(** Two connections: pressure of the first and temperature of the second specified *)
Definition demo_frame : frame :=
  {| t_rows := ["c1"; "c2"]%string; t_cols := ["p"; "T"; "v"; "phase"]%string;
     t_val := fun l c => if String.eqb c "phase" then None else if String.eqb l "c1" then Some (10 # 1)%Q else Some (20 # 1)%Q |}.
Definition demo_spec (l c : string) : bool :=
  (String.eqb l "c1" && String.eqb c "p") || (String.eqb l "c2" && String.eqb c "T").
(** A turbine with given eta_s, variable pr; "Tamb" without text of its equation *)
Definition demo_comps : frame :=
  {| t_rows := ["turbine"]%string; t_cols := ["eta_s"; "pr"; "P"; "Tamb"]%string;
     t_val := fun _ c => if String.eqb c "eta_s" then Some (9 # 10)%Q else Some (1 # 2)%Q |}.
Definition demo_specs : comp_specs :=
  {| p_spec := fun _ c => String.eqb c "eta_s" || String.eqb c "Tamb"; p_var := fun _ c => String.eqb c "pr";
     p_latex := fun c => negb (String.eqb c "Tamb") |}.
Definition only (ps : list string) : settings := {| f_results := true; f_params := ps |}.
Definition inputs : settings := {| f_results := false; f_params := [] |}.
