(** The results of a component over its life: specifications and calculations in any order.
    Models src/tespy/networks/network.py 785-791, 1903-2010 (the order of events for one component),
    2486-2501 (process_components) and which parameters the calc_parameters of every class of
    src/tespy/components write: basics/cycle_closer.py 166-177, combustion/base.py 1338-1342,
    combustion/diabatic.py 361-386, combustion/engine.py 1298-1313, heat_exchangers/base.py 1117-1179,
    heat_exchangers/condenser.py 471-533, heat_exchangers/movingboundary.py 564-567,
    heat_exchangers/simple.py 885-911, heat_exchangers/solar_collector.py 306-319,
    heat_exchangers/parabolic_trough.py 356-369, piping/valve.py 316-321, reactors/fuel_cell.py 835-846,
    reactors/water_electrolyzer.py 1158-1169, turbomachinery/base.py 237-241, compressor.py 650-658,
    pump.py 502-510, turbine.py 522-529, component.py 811-812.
    The numbers written and the numbers the solver finds for component variables are given for every
    calculation; offdesign mode and errors while computing results are not in this model. *)
From Verif Require Export PrepModel.
From Verif Require Import TableSpec.
Open Scope nat_scope.
Open Scope string_scope.
Open Scope list_scope.

(** Parameters calc_parameters always writes, by class (files and lines above) *)
Definition always_written (c : cls) : list string :=
  match c with
  | KCycleCloser => ["mass_deviation"; "fluid_deviation"]
  | KCombustionChamber => ["ti"; "lamb"]
  | KDiabaticCombustionChamber => ["ti"; "lamb"; "eta"; "Q_loss"; "pr"]
  | KCombustionEngine => ["Q1"; "pr1"; "zeta1"; "Q2"; "pr2"; "zeta2"; "P"; "Qloss"; "ti"; "lamb"]
  | KHeatExchanger | KCondenser | KDesuperheater =>
      ["Q"; "ttd_u"; "ttd_l"; "ttd_min"; "pr1"; "zeta1"; "dp1"; "pr2"; "zeta2"; "dp2"; "td_log"; "kA";
       "eff_hot"; "eff_cold"; "eff_max"]
  | KMovingBoundaryHeatExchanger =>
      ["Q"; "ttd_u"; "ttd_l"; "ttd_min"; "pr1"; "zeta1"; "dp1"; "pr2"; "zeta2"; "dp2"; "td_log"; "kA";
       "eff_hot"; "eff_cold"; "eff_max"; "UA"; "td_pinch"]
  | KSimpleHeatExchanger | KHeatExchangerSimple | KPipe | KSolarCollector | KParabolicTrough => ["Q"; "pr"; "zeta"]
  | KValve => ["pr"; "zeta"]
  | KFuelCell | KWaterElectrolyzer => ["Q"; "pr"; "e"; "eta"; "zeta"]
  | KCompressor | KPump | KTurbine | KSteamTurbine => ["P"; "pr"; "eta_s"]
  | KSink | KSource | KSubsystemInterface | KDropletSeparator | KDrum | KMerge | KSeparator | KSplitter => []
  end.
(** A parameter that is a result only if another one is specified, and that other one; simple.py 894-911,
    solar_collector.py 315-319, parabolic_trough.py 365-369 *)
Definition conditional (c : cls) : option (string * string) :=
  match c with
  | KSimpleHeatExchanger | KHeatExchangerSimple | KPipe => Some ("kA", "Tamb")
  | KSolarCollector | KParabolicTrough => Some ("Q_loss", "energy_group")
  | _ => None
  end.
(** Parameters written in this state of the component, as above *)
Definition written (c : cls) (k : comp) : list string :=
  always_written c ++ match conditional c with
                      | Some (p, g) => if specified k g then [p] else []
                      | None => [] end.
(** The value of [is_result] after calc_parameters; data_containers.py 241-245, simple.py 909-911,
    solar_collector.py 317-319, parabolic_trough.py 367-369 *)
Definition is_result (c : cls) (k : comp) (p : string) : bool :=
  match conditional c with
  | Some (q, g) => if String.eqb p q then specified k g
                   else match dget p (class_params c) with Some r => t_result r | None => false end
  | None => match dget p (class_params c) with Some r => t_result r | None => false end
  end.

(** [p.val = v] for some parameters; component.py 811-812 and the methods above *)
Definition write_values (which : string -> param -> bool) (v : string -> pv) (k : comp) : comp :=
  k_with_params k (map (fun e => (fst e, if which (fst e) (snd e) then put_field (FVal (v (fst e))) (snd e) else snd e)) (k_params k)).
(** Component variables take the values of the solution, network.py 2274-2283 *)
Definition solve_variables (v : string -> pv) (k : comp) : comp :=
  write_values (fun _ q => match q_kind q with KCp => q_is_var q | _ => false end) v k.
(** calc_parameters, network.py 2490-2491 *)
Definition calc_parameters (c : cls) (v : string -> pv) (k : comp) : comp :=
  write_values (fun p _ => smem p (written c k)) v k.

(** One cell of the results table, network.py 2495-2501; [None] is nan *)
Definition cell (c : cls) (k : comp) (p : string) : option pv :=
  match dget p (k_params k) with
  | None => None
  | Some q => if (q_func q || (negb (q_func q) && q_is_set q) || is_result c k p)%bool then Some (q_val q) else None
  end.
(** The columns of the table: ComponentProperties in the order of the class, network.py 786-791 *)
Definition columns (k : comp) : list string :=
  map fst (filter (fun e => match q_kind (snd e) with KCp => true | _ => false end) (k_params k)).
(** The row of the component, network.py 2494-2501 *)
Definition row (c : cls) (k : comp) : dict (option pv) := map (fun p => (p, cell c k p)) (columns k).

(** How a calculation ends: network.py 1982-2003, 2004 *)
Inductive ending := Singular | NoProgress | Complete.
(** A calculation: how it ends, whether it converged, the variables found, the parameters computed;
    network.py 1903-2010 *)
Record run := { r_end : ending; r_converged : bool; r_sol : string -> pv; r_calc : string -> pv }.
(** preprocess of the class, component.py 329-412 and PrepModel; errors because of the fluids at the component
    are left out and the number of equations is not used *)
Definition prepare (parse : string -> option pnum) (c : cls) (k : comp) : res comp :=
  rmap fst (match c with
            | KCombustionEngine => engine_preprocess parse 0 k
            | KFuelCell | KWaterElectrolyzer => rbind (auto_var parse "P" k) (preprocess 0)
            | KCondenser => condenser_preprocess 0 k
            | _ => preprocess 0 k
            end).
(** The component and its row in the results, network.py 785-791 (no row at first) *)
Record life := { l_comp : comp; l_row : option (dict (option pv)) }.
(** solve for one component, network.py 1965, 1974-2006: results are written if the calculation was complete *)
Definition calculate (parse : string -> option pnum) (c : cls) (r : run) (s : life) : res life :=
  rmap (fun k =>
    let k := solve_variables (r_sol r) k in
    match r_end r with
    | Complete => let k := calc_parameters c (r_calc r) k in {| l_comp := k; l_row := Some (row c k) |}
    | _ => {| l_comp := k; l_row := l_row s |}
    end) (prepare parse c (l_comp s)).
(** What happens to a component: the user calls set_attr (component.py 138-265) or solve (network.py 1903-2010) *)
Inductive event := Set_ (kw : list (string * carg)) | Run (r : run).
(** One event; errors of set_attr and of the preparation are caught by the user, network.py 1903-2010 *)
Definition step (parse : string -> option pnum) (c : cls) (s : life) (e : event) : life :=
  match e with
  | Set_ kw => {| l_comp := fst (cset_attr parse kw (l_comp s)); l_row := l_row s |}
  | Run r => match calculate parse c r s with Ok s' => s' | Err _ => s end
  end.
(** A new component, component.py 112-136 *)
Definition born (c : cls) : life := {| l_comp := new_component c; l_row := None |}.
(** Any sequence of events, component.py 138-265, network.py 1903-2010 *)
Definition lived (parse : string -> option pnum) (c : cls) (evs : list event) : life := fold_left (step parse c) evs (born c).
