(** Results of components. *)
From Verif Require Import CellModel CellSpec CellProofs CellWitness TableSpec.
Open Scope nat_scope.
Open Scope string_scope.
Open Scope list_scope.

(** After a complete calculation the row of a component has the parameters of its class that take numbers;
    parameters with an equation and results show what was computed from this solution; a number shown
    is computed from it, found for a variable, or specified; nan is shown exactly for the others. *)
Theorem C250_cells : forall parse c evs r, parse "var" = None -> r_end r = Complete ->
  exists s rw, calculate parse c r (lived parse c evs) = Ok s /\ l_row s = Some rw /\ map fst rw = numbers c
  /\ forall p tr, dget p (class_params c) = Some tr -> t_kind tr = KCp ->
     (has_equation tr = true \/ t_result tr = true -> dget p rw = Some (Some (r_calc r p)))
     /\ (forall v, dget p rw = Some (Some v) -> v = r_calc r p
          \/ specified (l_comp s) p = true /\ (if var_flag (l_comp s) p then v = r_sol r p else value (l_comp (lived parse c evs)) p = Some v))
     /\ (dget p rw = Some None <-> has_equation tr = false /\ t_result tr = false /\ specified (l_comp s) p = false /\ arises c (l_comp s) p = false).
Proof. exact cells. Qed.
Print Assumptions C250_cells.

(** The power of engines and reactors is always shown, for reactors as specified or as found. *)
Theorem C250_power : forall parse c evs r, parse "var" = None -> r_end r = Complete -> In c [KCombustionEngine; KFuelCell; KWaterElectrolyzer] ->
  exists s rw v, calculate parse c r (lived parse c evs) = Ok s /\ l_row s = Some rw /\ dget "P" rw = Some (Some v)
  /\ (c <> KCombustionEngine -> if specified (l_comp (lived parse c evs)) "P" && negb (var_flag (l_comp (lived parse c evs)) "P")
      then value (l_comp (lived parse c evs)) "P" = Some v else v = r_sol r "P").
Proof. exact power_shown. Qed.
Print Assumptions C250_power.

Example C250_pipe : rmap l_row (calculate no_numbers KPipe pipe_run (lived no_numbers KPipe pipe_events))
  = Ok (Some [("Q", Some (num 3)); ("pr", Some (num 3)); ("zeta", Some (num 3)); ("D", Some (num (1 # 10))); ("L", Some (num 25));
      ("ks", None); ("ks_HW", None); ("kA", Some (num 7)); ("Tamb", Some (num 10))]).
Proof. reflexivity. Qed.
Example C250_cell_power : rmap l_row (calculate no_numbers KFuelCell pipe_run (born KFuelCell))
  = Ok (Some [("P", Some (num 25)); ("Q", Some (num 3)); ("pr", Some (num 3)); ("zeta", Some (num 3)); ("eta", Some (num 3)); ("e", Some (num 3))]).
Proof. reflexivity. Qed.

(** A calculation that ends without convergence replaces a number the user specified; it stays specified,
    with the other number. *)
Theorem C251_refuted : exists c p v w evs r, v <> w /\ number c p /\ fixed (l_comp (lived no_numbers c evs)) p
  /\ value (l_comp (lived no_numbers c evs)) p = Some (num v) /\ r_end r = Complete /\ r_converged r = false
  /\ exists s, calculate no_numbers c r (lived no_numbers c evs) = Ok s /\ fixed (l_comp s) p /\ value (l_comp s) p = Some (num w).
Proof.
  exists KPump, "eta_s", (4 # 5)%Q, (1 # 2)%Q, pump_eta, (pump_run Complete false 5). split; [discriminate|].
  split; [eexists; split; reflexivity|]. split; [split; reflexivity|]. split; [reflexivity|]. split; [reflexivity|]. split; [reflexivity|].
  eexists. split; [apply calculate_lived; reflexivity|]. split; [split; reflexivity|reflexivity].
Qed.
Print Assumptions C251_refuted.

(** Whatever was specified, a complete calculation replaces the number of a parameter with an equation and of
    a pure result by the number computed. *)
Theorem C251_overwritten_always : forall parse c evs r p tr, parse "var" = None -> r_end r = Complete -> dget p (class_params c) = Some tr -> t_kind tr = KCp ->
  has_equation tr = true \/ t_result tr = true -> fixed (l_comp (lived parse c evs)) p ->
  exists s, calculate parse c r (lived parse c evs) = Ok s /\ fixed (l_comp s) p /\ value (l_comp s) p = Some (r_calc r p).
Proof. exact overwritten. Qed.
Print Assumptions C251_overwritten_always.

(** A calculation that converges, or that ends early, keeps the numbers specified for parameters something depends on,
    and the results show them. *)
Theorem C251_partial : forall parse c evs r p v, parse "var" = None -> number c p -> fixed (l_comp (lived parse c evs)) p -> ~ In p (ignored c) ->
  value (l_comp (lived parse c evs)) p = Some v -> (r_end r = Complete -> r_converged r = true) -> satisfied c (l_comp (lived parse c evs)) r ->
  exists s, calculate parse c r (lived parse c evs) = Ok s /\ fixed (l_comp s) p /\ value (l_comp s) p = Some v
  /\ (r_end r = Complete -> exists rw, l_row s = Some rw /\ dget p rw = Some (Some v)).
Proof. exact kept_specified. Qed.
Print Assumptions C251_partial.

(** Parameters that enter equations of groups only (lengths, diameters, optical properties, ...) keep their
    numbers in every calculation. *)
Theorem C251_inputs_partial : forall parse c evs r p tr, parse "var" = None -> dget p (class_params c) = Some tr -> t_kind tr = KCp -> has_equation tr = false -> t_result tr = false ->
  ~ In p ["kA"; "Q_loss"; "P"; "Qloss"] -> fixed (l_comp (lived parse c evs)) p ->
  exists s, calculate parse c r (lived parse c evs) = Ok s /\ fixed (l_comp s) p /\ value (l_comp s) p = value (l_comp (lived parse c evs)) p.
Proof. exact kept_inputs. Qed.
Print Assumptions C251_inputs_partial.

Example C251_converged : rmap (fun s => (value (l_comp s) "pr", specified (l_comp s) "pr")) (calculate no_numbers KPump (pump_run Complete true 5)
    (lived no_numbers KPump [Set_ [("pr", CV (num 5))]])) = Ok (Some (num 5), true).
Proof. reflexivity. Qed.

(** After a calculation that failed the results of the component are those of an earlier one. *)
Theorem C252_refuted : exists c p v w evs r s rw, v <> w /\ r_end r = Singular /\ calculate no_numbers c r (lived no_numbers c evs) = Ok s
  /\ fixed (l_comp s) p /\ value (l_comp s) p = Some (num v) /\ l_row s = Some rw /\ dget p rw = Some (Some (num w)).
Proof.
  exists KPump, "pr", 10%Q, 5%Q, pump_twice, (pump_run Singular false 10). eexists. eexists. split; [discriminate|].
  split; [reflexivity|]. split; [apply calculate_lived; reflexivity|]. split; [split; reflexivity|]. split; [reflexivity|]. split; reflexivity.
Qed.
Print Assumptions C252_refuted.

Theorem C252_stale_always : forall parse c evs r s, r_end r <> Complete -> calculate parse c r (lived parse c evs) = Ok s -> l_row s = l_row (lived parse c evs).
Proof. exact stale. Qed.
Print Assumptions C252_stale_always.

Example C252_first : rmap l_row (calculate no_numbers KPump (pump_run NoProgress false 10) (lived no_numbers KPump pump_eta)) = Ok None.
Proof. reflexivity. Qed.
