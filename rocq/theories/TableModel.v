(** The parameters of all component classes: the tables of get_parameters of every class, and
    which component variables the derivative methods have a column for.
    Models get_parameters and get_mandatory_constraints of all files of src/tespy/components, and the
    branches for component variables of the *_deriv methods.  Texts of equations (latex), step sizes (d)
    and arguments of characteristics are not in the tables. *)
From Coq Require Export QArith.
From Verif Require Export CompSpecModel.
Open Scope string_scope.
Open Scope list_scope.
Open Scope Q_scope.

(** A row: the keyword arguments of the data container with the defaults of data_containers.py 195-200,
    241-245, 300-306, 405-409, 439-442, 567-577.  [t_own] is the parameter named in func_params *)
Record prow := {
  t_kind : pkind; t_val : pv; t_min : Q; t_max : Q; t_result : bool;
  t_func : option string; t_deriv : option string; t_own : string; t_latex : bool; t_num_eq : nat }.
(** dict.update and item assignment, e.g. components/heat_exchangers/condenser.py 248-252 *)
Definition update_rows (d e : dict prow) : dict prow := fold_left (fun d kr => dset (fst kr) (snd kr) d) e d.

(** Component.get_parameters, components/component.py 429-430 *)
Definition params_Component : dict prow := [].
(** CycleCloser.get_parameters, components/basics/cycle_closer.py 100-104 *)
Definition params_CycleCloser : dict prow := [
  ("mass_deviation", {| t_kind := KCp; t_val := PNum (Fin 0); t_min := (-10^12); t_max := (1 # 1000); t_result := true; t_func := None; t_deriv := None; t_own := ""; t_latex := false; t_num_eq := 0 |});
  ("fluid_deviation", {| t_kind := KCp; t_val := PNum (Fin 0); t_min := (-10^12); t_max := (1 # 100000); t_result := true; t_func := None; t_deriv := None; t_own := ""; t_latex := false; t_num_eq := 0 |}) ].
(** Sink inherits from Component, components/basics/sink.py 20 *)
Definition params_Sink : dict prow := params_Component.
(** Source inherits from Component, components/basics/source.py 20 *)
Definition params_Source : dict prow := params_Component.
(** SubsystemInterface.get_parameters, components/basics/subsystem_interface.py 148-149 *)
Definition params_SubsystemInterface : dict prow := [
  ("num_inter", {| t_kind := KSimple; t_val := PNum NaN; t_min := (-10^12); t_max := (10^12); t_result := false; t_func := None; t_deriv := None; t_own := ""; t_latex := false; t_num_eq := 0 |}) ].
(** CombustionChamber.get_parameters, components/combustion/base.py 162-170 *)
Definition params_CombustionChamber : dict prow := [
  ("lamb", {| t_kind := KCp; t_val := PNum (Fin 1); t_min := 1; t_max := (10^12); t_result := false; t_func := Some "lambda_func"; t_deriv := Some "lambda_deriv"; t_own := ""; t_latex := true; t_num_eq := 1 |});
  ("ti", {| t_kind := KCp; t_val := PNum (Fin 1); t_min := 0; t_max := (10^12); t_result := false; t_func := Some "ti_func"; t_deriv := Some "ti_deriv"; t_own := ""; t_latex := true; t_num_eq := 1 |}) ].
(** DiabaticCombustionChamber.get_parameters, components/combustion/diabatic.py 199-216 *)
Definition params_DiabaticCombustionChamber : dict prow := [
  ("lamb", {| t_kind := KCp; t_val := PNum (Fin 1); t_min := 1; t_max := (10^12); t_result := false; t_func := Some "lambda_func"; t_deriv := Some "lambda_deriv"; t_own := ""; t_latex := true; t_num_eq := 1 |});
  ("ti", {| t_kind := KCp; t_val := PNum (Fin 1); t_min := 0; t_max := (10^12); t_result := false; t_func := Some "ti_func"; t_deriv := Some "ti_deriv"; t_own := ""; t_latex := true; t_num_eq := 1 |});
  ("pr", {| t_kind := KCp; t_val := PNum (Fin 1); t_min := 0; t_max := (10^12); t_result := false; t_func := Some "pr_func"; t_deriv := Some "pr_deriv"; t_own := ""; t_latex := true; t_num_eq := 1 |});
  ("eta", {| t_kind := KCp; t_val := PNum (Fin 1); t_min := 0; t_max := 1; t_result := false; t_func := Some "energy_balance_func"; t_deriv := Some "energy_balance_deriv"; t_own := ""; t_latex := true; t_num_eq := 1 |});
  ("Q_loss", {| t_kind := KCp; t_val := PNum (Fin 1); t_min := (-10^12); t_max := 0; t_result := true; t_func := None; t_deriv := None; t_own := ""; t_latex := false; t_num_eq := 0 |}) ].
(** CombustionEngine.get_parameters, components/combustion/engine.py 250-284 *)
Definition params_CombustionEngine : dict prow := [
  ("lamb", {| t_kind := KCp; t_val := PNum (Fin 1); t_min := 1; t_max := (10^12); t_result := false; t_func := Some "lambda_func"; t_deriv := Some "lambda_deriv"; t_own := ""; t_latex := true; t_num_eq := 1 |});
  ("ti", {| t_kind := KCp; t_val := PNum (Fin 1); t_min := 0; t_max := (10^12); t_result := false; t_func := Some "ti_func"; t_deriv := Some "ti_deriv"; t_own := ""; t_latex := true; t_num_eq := 1 |});
  ("P", {| t_kind := KCp; t_val := PNum (Fin (-1000000)); t_min := (-10^12); t_max := (-1); t_result := false; t_func := None; t_deriv := None; t_own := ""; t_latex := false; t_num_eq := 0 |});
  ("Q1", {| t_kind := KCp; t_val := PNum (Fin 1); t_min := (-10^12); t_max := (-1); t_result := false; t_func := Some "Q1_func"; t_deriv := Some "Q1_deriv"; t_own := ""; t_latex := true; t_num_eq := 1 |});
  ("Q2", {| t_kind := KCp; t_val := PNum (Fin 1); t_min := (-10^12); t_max := (-1); t_result := false; t_func := Some "Q2_func"; t_deriv := Some "Q2_deriv"; t_own := ""; t_latex := true; t_num_eq := 1 |});
  ("Qloss", {| t_kind := KCp; t_val := PNum (Fin (-100000)); t_min := (-10^12); t_max := (-1); t_result := false; t_func := None; t_deriv := None; t_own := ""; t_latex := false; t_num_eq := 0 |});
  ("pr1", {| t_kind := KCp; t_val := PNum (Fin 1); t_min := (1 # 10000); t_max := 1; t_result := false; t_func := Some "pr_func"; t_deriv := Some "pr_deriv"; t_own := "pr1"; t_latex := true; t_num_eq := 1 |});
  ("pr2", {| t_kind := KCp; t_val := PNum (Fin 1); t_min := (1 # 10000); t_max := 1; t_result := false; t_func := Some "pr_func"; t_deriv := Some "pr_deriv"; t_own := "pr2"; t_latex := true; t_num_eq := 1 |});
  ("zeta1", {| t_kind := KCp; t_val := PNum (Fin 1); t_min := 0; t_max := 1000000000000000; t_result := false; t_func := Some "zeta_func"; t_deriv := Some "zeta_deriv"; t_own := "zeta1"; t_latex := true; t_num_eq := 1 |});
  ("zeta2", {| t_kind := KCp; t_val := PNum (Fin 1); t_min := 0; t_max := 1000000000000000; t_result := false; t_func := Some "zeta_func"; t_deriv := Some "zeta_deriv"; t_own := "zeta2"; t_latex := true; t_num_eq := 1 |});
  ("tiP_char", {| t_kind := KCc; t_val := PNone; t_min := (-10^12); t_max := (10^12); t_result := false; t_func := None; t_deriv := None; t_own := ""; t_latex := false; t_num_eq := 0 |});
  ("Q1_char", {| t_kind := KCc; t_val := PNone; t_min := (-10^12); t_max := (10^12); t_result := false; t_func := None; t_deriv := None; t_own := ""; t_latex := false; t_num_eq := 0 |});
  ("Q2_char", {| t_kind := KCc; t_val := PNone; t_min := (-10^12); t_max := (10^12); t_result := false; t_func := None; t_deriv := None; t_own := ""; t_latex := false; t_num_eq := 0 |});
  ("Qloss_char", {| t_kind := KCc; t_val := PNone; t_min := (-10^12); t_max := (10^12); t_result := false; t_func := None; t_deriv := None; t_own := ""; t_latex := false; t_num_eq := 0 |});
  ("eta_mech", {| t_kind := KSimple; t_val := PNum (Fin (17 # 20)); t_min := (-10^12); t_max := (10^12); t_result := false; t_func := None; t_deriv := None; t_own := ""; t_latex := false; t_num_eq := 0 |});
  ("T_v_inner", {| t_kind := KSimple; t_val := PNum NaN; t_min := (-10^12); t_max := (10^12); t_result := false; t_func := None; t_deriv := None; t_own := ""; t_latex := false; t_num_eq := 0 |}) ].
(** HeatExchanger.get_parameters, components/heat_exchangers/base.py 232-296 *)
Definition params_HeatExchanger : dict prow := [
  ("Q", {| t_kind := KCp; t_val := PNum (Fin 1); t_min := (-10^12); t_max := 0; t_result := false; t_func := Some "energy_balance_hot_func"; t_deriv := Some "energy_balance_hot_deriv"; t_own := ""; t_latex := true; t_num_eq := 1 |});
  ("kA", {| t_kind := KCp; t_val := PNum (Fin 1); t_min := 0; t_max := (10^12); t_result := false; t_func := Some "kA_func"; t_deriv := Some "kA_deriv"; t_own := ""; t_latex := true; t_num_eq := 1 |});
  ("td_log", {| t_kind := KCp; t_val := PNum (Fin 1); t_min := 0; t_max := (10^12); t_result := true; t_func := None; t_deriv := None; t_own := ""; t_latex := false; t_num_eq := 0 |});
  ("ttd_u", {| t_kind := KCp; t_val := PNum (Fin 1); t_min := 0; t_max := (10^12); t_result := false; t_func := Some "ttd_u_func"; t_deriv := Some "ttd_u_deriv"; t_own := ""; t_latex := true; t_num_eq := 1 |});
  ("ttd_l", {| t_kind := KCp; t_val := PNum (Fin 1); t_min := 0; t_max := (10^12); t_result := false; t_func := Some "ttd_l_func"; t_deriv := Some "ttd_l_deriv"; t_own := ""; t_latex := true; t_num_eq := 1 |});
  ("ttd_min", {| t_kind := KCp; t_val := PNum (Fin 1); t_min := 0; t_max := (10^12); t_result := false; t_func := Some "ttd_min_func"; t_deriv := Some "ttd_min_deriv"; t_own := ""; t_latex := false; t_num_eq := 1 |});
  ("pr1", {| t_kind := KCp; t_val := PNum (Fin 1); t_min := (1 # 10000); t_max := 1; t_result := false; t_func := Some "pr_func"; t_deriv := Some "pr_deriv"; t_own := "pr1"; t_latex := true; t_num_eq := 1 |});
  ("pr2", {| t_kind := KCp; t_val := PNum (Fin 1); t_min := (1 # 10000); t_max := 1; t_result := false; t_func := Some "pr_func"; t_deriv := Some "pr_deriv"; t_own := "pr2"; t_latex := true; t_num_eq := 1 |});
  ("dp1", {| t_kind := KCp; t_val := PNum (Fin 1); t_min := 0; t_max := 1000000000000000; t_result := false; t_func := Some "dp_func"; t_deriv := Some "dp_deriv"; t_own := "dp1"; t_latex := false; t_num_eq := 1 |});
  ("dp2", {| t_kind := KCp; t_val := PNum (Fin 1); t_min := 0; t_max := 1000000000000000; t_result := false; t_func := Some "dp_func"; t_deriv := Some "dp_deriv"; t_own := "dp2"; t_latex := false; t_num_eq := 1 |});
  ("zeta1", {| t_kind := KCp; t_val := PNum (Fin 1); t_min := 0; t_max := 1000000000000000; t_result := false; t_func := Some "zeta_func"; t_deriv := Some "zeta_deriv"; t_own := "zeta1"; t_latex := true; t_num_eq := 1 |});
  ("zeta2", {| t_kind := KCp; t_val := PNum (Fin 1); t_min := 0; t_max := 1000000000000000; t_result := false; t_func := Some "zeta_func"; t_deriv := Some "zeta_deriv"; t_own := "zeta2"; t_latex := true; t_num_eq := 1 |});
  ("kA_char", {| t_kind := (KGcc ["kA_char1"; "kA_char2"]); t_val := PNone; t_min := (-10^12); t_max := (10^12); t_result := false; t_func := Some "kA_char_func"; t_deriv := Some "kA_char_deriv"; t_own := ""; t_latex := true; t_num_eq := 1 |});
  ("kA_char1", {| t_kind := KCc; t_val := PNone; t_min := (-10^12); t_max := (10^12); t_result := false; t_func := None; t_deriv := None; t_own := ""; t_latex := false; t_num_eq := 0 |});
  ("kA_char2", {| t_kind := KCc; t_val := PNone; t_min := (-10^12); t_max := (10^12); t_result := false; t_func := None; t_deriv := None; t_own := ""; t_latex := false; t_num_eq := 0 |});
  ("eff_cold", {| t_kind := KCp; t_val := PNum (Fin 1); t_min := 0; t_max := 1; t_result := false; t_func := Some "eff_cold_func"; t_deriv := Some "eff_cold_deriv"; t_own := ""; t_latex := false; t_num_eq := 1 |});
  ("eff_hot", {| t_kind := KCp; t_val := PNum (Fin 1); t_min := 0; t_max := 1; t_result := false; t_func := Some "eff_hot_func"; t_deriv := Some "eff_hot_deriv"; t_own := ""; t_latex := false; t_num_eq := 1 |});
  ("eff_max", {| t_kind := KCp; t_val := PNum (Fin 1); t_min := 0; t_max := 1; t_result := false; t_func := Some "eff_max_func"; t_deriv := Some "eff_max_deriv"; t_own := ""; t_latex := false; t_num_eq := 1 |}) ].
(** Condenser.get_parameters, components/heat_exchangers/condenser.py 246-253 *)
Definition params_Condenser : dict prow := update_rows params_HeatExchanger [
  ("subcooling", {| t_kind := KSimple; t_val := PBool false; t_min := (-10^12); t_max := (10^12); t_result := false; t_func := Some "subcooling_func"; t_deriv := Some "subcooling_deriv"; t_own := ""; t_latex := true; t_num_eq := 1 |}) ].
(** Desuperheater inherits from HeatExchanger, components/heat_exchangers/desuperheater.py 22 *)
Definition params_Desuperheater : dict prow := params_HeatExchanger.
(** MovingBoundaryHeatExchanger.get_parameters, components/heat_exchangers/movingboundary.py 265-286 *)
Definition params_MovingBoundaryHeatExchanger : dict prow := update_rows params_HeatExchanger [
  ("U_gas_gas", {| t_kind := KCp; t_val := PNum (Fin 1); t_min := 0; t_max := (10^12); t_result := false; t_func := None; t_deriv := None; t_own := ""; t_latex := false; t_num_eq := 0 |});
  ("U_gas_twophase", {| t_kind := KCp; t_val := PNum (Fin 1); t_min := 0; t_max := (10^12); t_result := false; t_func := None; t_deriv := None; t_own := ""; t_latex := false; t_num_eq := 0 |});
  ("U_gas_liquid", {| t_kind := KCp; t_val := PNum (Fin 1); t_min := 0; t_max := (10^12); t_result := false; t_func := None; t_deriv := None; t_own := ""; t_latex := false; t_num_eq := 0 |});
  ("U_liquid_gas", {| t_kind := KCp; t_val := PNum (Fin 1); t_min := 0; t_max := (10^12); t_result := false; t_func := None; t_deriv := None; t_own := ""; t_latex := false; t_num_eq := 0 |});
  ("U_liquid_twophase", {| t_kind := KCp; t_val := PNum (Fin 1); t_min := 0; t_max := (10^12); t_result := false; t_func := None; t_deriv := None; t_own := ""; t_latex := false; t_num_eq := 0 |});
  ("U_liquid_liquid", {| t_kind := KCp; t_val := PNum (Fin 1); t_min := 0; t_max := (10^12); t_result := false; t_func := None; t_deriv := None; t_own := ""; t_latex := false; t_num_eq := 0 |});
  ("U_twophase_gas", {| t_kind := KCp; t_val := PNum (Fin 1); t_min := 0; t_max := (10^12); t_result := false; t_func := None; t_deriv := None; t_own := ""; t_latex := false; t_num_eq := 0 |});
  ("U_twophase_twophase", {| t_kind := KCp; t_val := PNum (Fin 1); t_min := 0; t_max := (10^12); t_result := false; t_func := None; t_deriv := None; t_own := ""; t_latex := false; t_num_eq := 0 |});
  ("U_twophase_liquid", {| t_kind := KCp; t_val := PNum (Fin 1); t_min := 0; t_max := (10^12); t_result := false; t_func := None; t_deriv := None; t_own := ""; t_latex := false; t_num_eq := 0 |});
  ("A", {| t_kind := KCp; t_val := PNum (Fin 1); t_min := 0; t_max := (10^12); t_result := false; t_func := None; t_deriv := None; t_own := ""; t_latex := false; t_num_eq := 0 |});
  ("UA", {| t_kind := KCp; t_val := PNum (Fin 1); t_min := 0; t_max := (10^12); t_result := false; t_func := Some "UA_func"; t_deriv := Some "UA_deriv"; t_own := ""; t_latex := false; t_num_eq := 1 |});
  ("td_pinch", {| t_kind := KCp; t_val := PNum (Fin 1); t_min := 0; t_max := (10^12); t_result := false; t_func := Some "td_pinch_func"; t_deriv := Some "td_pinch_deriv"; t_own := ""; t_latex := false; t_num_eq := 1 |}) ].
(** SimpleHeatExchanger.get_parameters, components/heat_exchangers/simple.py 205-243 *)
Definition params_SimpleHeatExchanger : dict prow := [
  ("Q", {| t_kind := KCp; t_val := PNum (Fin 1); t_min := (-10^12); t_max := (10^12); t_result := false; t_func := Some "energy_balance_func"; t_deriv := Some "energy_balance_deriv"; t_own := ""; t_latex := true; t_num_eq := 1 |});
  ("pr", {| t_kind := KCp; t_val := PNum (Fin 1); t_min := (1 # 10000); t_max := 1; t_result := false; t_func := Some "pr_func"; t_deriv := Some "pr_deriv"; t_own := "pr"; t_latex := true; t_num_eq := 1 |});
  ("zeta", {| t_kind := KCp; t_val := PNum (Fin 1); t_min := 0; t_max := 1000000000000000; t_result := false; t_func := Some "zeta_func"; t_deriv := Some "zeta_deriv"; t_own := "zeta"; t_latex := true; t_num_eq := 1 |});
  ("D", {| t_kind := KCp; t_val := PNum (Fin 1); t_min := (1 # 100); t_max := 2; t_result := false; t_func := None; t_deriv := None; t_own := ""; t_latex := false; t_num_eq := 0 |});
  ("L", {| t_kind := KCp; t_val := PNum (Fin 1); t_min := (1 # 10); t_max := (10^12); t_result := false; t_func := None; t_deriv := None; t_own := ""; t_latex := false; t_num_eq := 0 |});
  ("ks", {| t_kind := KCp; t_val := PNum (Fin (1 # 10000)); t_min := (1 # 10000000); t_max := (1 # 1000); t_result := false; t_func := None; t_deriv := None; t_own := ""; t_latex := false; t_num_eq := 0 |});
  ("ks_HW", {| t_kind := KCp; t_val := PNum (Fin 10); t_min := (1 # 10); t_max := 1000; t_result := false; t_func := None; t_deriv := None; t_own := ""; t_latex := false; t_num_eq := 0 |});
  ("kA", {| t_kind := KCp; t_val := PNum (Fin 1); t_min := 0; t_max := (10^12); t_result := false; t_func := None; t_deriv := None; t_own := ""; t_latex := false; t_num_eq := 0 |});
  ("kA_char", {| t_kind := KCc; t_val := PNone; t_min := (-10^12); t_max := (10^12); t_result := false; t_func := None; t_deriv := None; t_own := ""; t_latex := false; t_num_eq := 0 |});
  ("Tamb", {| t_kind := KCp; t_val := PNum (Fin 1); t_min := (-10^12); t_max := (10^12); t_result := false; t_func := None; t_deriv := None; t_own := ""; t_latex := false; t_num_eq := 0 |});
  ("dissipative", {| t_kind := KSimple; t_val := PNone; t_min := (-10^12); t_max := (10^12); t_result := false; t_func := None; t_deriv := None; t_own := ""; t_latex := false; t_num_eq := 0 |});
  ("darcy_group", {| t_kind := (KGcp ["L"; "ks"; "D"]); t_val := PNone; t_min := (-10^12); t_max := (10^12); t_result := false; t_func := Some "darcy_func"; t_deriv := Some "darcy_deriv"; t_own := ""; t_latex := true; t_num_eq := 1 |});
  ("hw_group", {| t_kind := (KGcp ["L"; "ks_HW"; "D"]); t_val := PNone; t_min := (-10^12); t_max := (10^12); t_result := false; t_func := Some "hazen_williams_func"; t_deriv := Some "hazen_williams_deriv"; t_own := ""; t_latex := true; t_num_eq := 1 |});
  ("kA_group", {| t_kind := (KGcp ["kA"; "Tamb"]); t_val := PNone; t_min := (-10^12); t_max := (10^12); t_result := false; t_func := Some "kA_group_func"; t_deriv := Some "kA_group_deriv"; t_own := ""; t_latex := true; t_num_eq := 1 |});
  ("kA_char_group", {| t_kind := (KGcp ["kA_char"; "Tamb"]); t_val := PNone; t_min := (-10^12); t_max := (10^12); t_result := false; t_func := Some "kA_char_group_func"; t_deriv := Some "kA_char_group_deriv"; t_own := ""; t_latex := true; t_num_eq := 1 |}) ].
(** ParabolicTrough.get_parameters, components/heat_exchangers/parabolic_trough.py 226-247 *)
Definition params_ParabolicTrough : dict prow := update_rows (ddel "kA_char" (ddel "kA" (ddel "kA_char_group" (ddel "kA_group" params_SimpleHeatExchanger)))) [
  ("E", {| t_kind := KCp; t_val := PNum (Fin 1); t_min := 0; t_max := (10^12); t_result := false; t_func := None; t_deriv := None; t_own := ""; t_latex := false; t_num_eq := 0 |});
  ("A", {| t_kind := KCp; t_val := PNum (Fin 1); t_min := 0; t_max := (10^12); t_result := false; t_func := None; t_deriv := None; t_own := ""; t_latex := false; t_num_eq := 0 |});
  ("eta_opt", {| t_kind := KCp; t_val := PNum (Fin 1); t_min := 0; t_max := 1; t_result := false; t_func := None; t_deriv := None; t_own := ""; t_latex := false; t_num_eq := 0 |});
  ("c_1", {| t_kind := KCp; t_val := PNum (Fin 1); t_min := 0; t_max := (10^12); t_result := false; t_func := None; t_deriv := None; t_own := ""; t_latex := false; t_num_eq := 0 |});
  ("c_2", {| t_kind := KCp; t_val := PNum (Fin 1); t_min := 0; t_max := (10^12); t_result := false; t_func := None; t_deriv := None; t_own := ""; t_latex := false; t_num_eq := 0 |});
  ("iam_1", {| t_kind := KCp; t_val := PNum (Fin 1); t_min := (-10^12); t_max := (10^12); t_result := false; t_func := None; t_deriv := None; t_own := ""; t_latex := false; t_num_eq := 0 |});
  ("iam_2", {| t_kind := KCp; t_val := PNum (Fin 1); t_min := (-10^12); t_max := (10^12); t_result := false; t_func := None; t_deriv := None; t_own := ""; t_latex := false; t_num_eq := 0 |});
  ("aoi", {| t_kind := KCp; t_val := PNum (Fin 1); t_min := (-90); t_max := 90; t_result := false; t_func := None; t_deriv := None; t_own := ""; t_latex := false; t_num_eq := 0 |});
  ("doc", {| t_kind := KCp; t_val := PNum (Fin 1); t_min := 0; t_max := 1; t_result := false; t_func := None; t_deriv := None; t_own := ""; t_latex := false; t_num_eq := 0 |});
  ("Tamb", {| t_kind := KCp; t_val := PNum (Fin 1); t_min := (-10^12); t_max := (10^12); t_result := false; t_func := None; t_deriv := None; t_own := ""; t_latex := false; t_num_eq := 0 |});
  ("Q_loss", {| t_kind := KCp; t_val := PNum (Fin 0); t_min := (-10^12); t_max := 0; t_result := false; t_func := None; t_deriv := None; t_own := ""; t_latex := false; t_num_eq := 0 |});
  ("energy_group", {| t_kind := (KGcp ["E"; "eta_opt"; "aoi"; "doc"; "c_1"; "c_2"; "iam_1"; "iam_2"; "A"; "Tamb"]); t_val := PNone; t_min := (-10^12); t_max := (10^12); t_result := false; t_func := Some "energy_group_func"; t_deriv := Some "energy_group_deriv"; t_own := ""; t_latex := true; t_num_eq := 1 |}) ].
(** HeatExchangerSimple inherits from SimpleHeatExchanger, components/heat_exchangers/simple.py 1165 *)
Definition params_HeatExchangerSimple : dict prow := params_SimpleHeatExchanger.
(** SolarCollector.get_parameters, components/heat_exchangers/solar_collector.py 189-207 *)
Definition params_SolarCollector : dict prow := update_rows (ddel "kA_char" (ddel "kA" (ddel "kA_char_group" (ddel "kA_group" params_SimpleHeatExchanger)))) [
  ("E", {| t_kind := KCp; t_val := PNum (Fin 1); t_min := 0; t_max := (10^12); t_result := false; t_func := None; t_deriv := None; t_own := ""; t_latex := false; t_num_eq := 0 |});
  ("A", {| t_kind := KCp; t_val := PNum (Fin 1); t_min := 0; t_max := (10^12); t_result := false; t_func := None; t_deriv := None; t_own := ""; t_latex := false; t_num_eq := 0 |});
  ("eta_opt", {| t_kind := KCp; t_val := PNum (Fin 1); t_min := 0; t_max := 1; t_result := false; t_func := None; t_deriv := None; t_own := ""; t_latex := false; t_num_eq := 0 |});
  ("lkf_lin", {| t_kind := KCp; t_val := PNum (Fin 1); t_min := 0; t_max := (10^12); t_result := false; t_func := None; t_deriv := None; t_own := ""; t_latex := false; t_num_eq := 0 |});
  ("lkf_quad", {| t_kind := KCp; t_val := PNum (Fin 1); t_min := 0; t_max := (10^12); t_result := false; t_func := None; t_deriv := None; t_own := ""; t_latex := false; t_num_eq := 0 |});
  ("Tamb", {| t_kind := KCp; t_val := PNum (Fin 1); t_min := (-10^12); t_max := (10^12); t_result := false; t_func := None; t_deriv := None; t_own := ""; t_latex := false; t_num_eq := 0 |});
  ("Q_loss", {| t_kind := KCp; t_val := PNum (Fin 0); t_min := (-10^12); t_max := 0; t_result := false; t_func := None; t_deriv := None; t_own := ""; t_latex := false; t_num_eq := 0 |});
  ("energy_group", {| t_kind := (KGcp ["E"; "eta_opt"; "lkf_lin"; "lkf_quad"; "A"; "Tamb"]); t_val := PNone; t_min := (-10^12); t_max := (10^12); t_result := false; t_func := Some "energy_group_func"; t_deriv := Some "energy_group_deriv"; t_own := ""; t_latex := true; t_num_eq := 1 |}) ].
(** NodeBase inherits from Component, components/nodes/base.py 19 *)
Definition params_NodeBase : dict prow := params_Component.
(** DropletSeparator inherits from NodeBase, components/nodes/droplet_separator.py 22 *)
Definition params_DropletSeparator : dict prow := params_NodeBase.
(** Drum inherits from DropletSeparator, components/nodes/drum.py 23 *)
Definition params_Drum : dict prow := params_DropletSeparator.
(** Merge.get_parameters, components/nodes/merge.py 136-137 *)
Definition params_Merge : dict prow := [
  ("num_in", {| t_kind := KSimple; t_val := PNum NaN; t_min := (-10^12); t_max := (10^12); t_result := false; t_func := None; t_deriv := None; t_own := ""; t_latex := false; t_num_eq := 0 |}) ].
(** Separator.get_parameters, components/nodes/separator.py 141-142 *)
Definition params_Separator : dict prow := [
  ("num_out", {| t_kind := KSimple; t_val := PNum NaN; t_min := (-10^12); t_max := (10^12); t_result := false; t_func := None; t_deriv := None; t_own := ""; t_latex := false; t_num_eq := 0 |}) ].
(** Splitter.get_parameters, components/nodes/splitter.py 123-124 *)
Definition params_Splitter : dict prow := [
  ("num_out", {| t_kind := KSimple; t_val := PNum NaN; t_min := (-10^12); t_max := (10^12); t_result := false; t_func := None; t_deriv := None; t_own := ""; t_latex := false; t_num_eq := 0 |}) ].
(** Pipe inherits from SimpleHeatExchanger, components/piping/pipe.py 18 *)
Definition params_Pipe : dict prow := params_SimpleHeatExchanger.
(** Valve.get_parameters, components/piping/valve.py 139-153 *)
Definition params_Valve : dict prow := [
  ("pr", {| t_kind := KCp; t_val := PNum (Fin 1); t_min := (1 # 10000); t_max := 1; t_result := false; t_func := Some "pr_func"; t_deriv := Some "pr_deriv"; t_own := "pr"; t_latex := true; t_num_eq := 1 |});
  ("zeta", {| t_kind := KCp; t_val := PNum (Fin 1); t_min := 0; t_max := 1000000000000000; t_result := false; t_func := Some "zeta_func"; t_deriv := Some "zeta_deriv"; t_own := "zeta"; t_latex := true; t_num_eq := 1 |});
  ("dp_char", {| t_kind := KCc; t_val := PNone; t_min := (-10^12); t_max := (10^12); t_result := false; t_func := Some "dp_char_func"; t_deriv := Some "dp_char_deriv"; t_own := ""; t_latex := true; t_num_eq := 1 |}) ].
(** FuelCell.get_parameters, components/reactors/fuel_cell.py 160-183 *)
Definition params_FuelCell : dict prow := [
  ("P", {| t_kind := KCp; t_val := PNum (Fin 1); t_min := (-10^12); t_max := 0; t_result := false; t_func := None; t_deriv := None; t_own := ""; t_latex := false; t_num_eq := 0 |});
  ("Q", {| t_kind := KCp; t_val := PNum (Fin 1); t_min := (-10^12); t_max := 0; t_result := false; t_func := Some "heat_func"; t_deriv := Some "heat_deriv"; t_own := ""; t_latex := true; t_num_eq := 1 |});
  ("pr", {| t_kind := KCp; t_val := PNum (Fin 1); t_min := (-10^12); t_max := 1; t_result := false; t_func := Some "pr_func"; t_deriv := Some "pr_deriv"; t_own := "pr"; t_latex := true; t_num_eq := 1 |});
  ("zeta", {| t_kind := KCp; t_val := PNum (Fin 1); t_min := 0; t_max := (10^12); t_result := false; t_func := Some "zeta_func"; t_deriv := Some "zeta_deriv"; t_own := "zeta"; t_latex := true; t_num_eq := 1 |});
  ("eta", {| t_kind := KCp; t_val := PNum (Fin 1); t_min := 0; t_max := 1; t_result := false; t_func := Some "eta_func"; t_deriv := Some "eta_deriv"; t_own := ""; t_latex := true; t_num_eq := 1 |});
  ("e", {| t_kind := KCp; t_val := PNum (Fin 1); t_min := (-10^12); t_max := 0; t_result := false; t_func := Some "specific_energy_func"; t_deriv := Some "specific_energy_deriv"; t_own := ""; t_latex := true; t_num_eq := 1 |}) ].
(** WaterElectrolyzer.get_parameters, components/reactors/water_electrolyzer.py 190-218 *)
Definition params_WaterElectrolyzer : dict prow := [
  ("P", {| t_kind := KCp; t_val := PNum (Fin 1); t_min := 0; t_max := (10^12); t_result := false; t_func := None; t_deriv := None; t_own := ""; t_latex := false; t_num_eq := 0 |});
  ("Q", {| t_kind := KCp; t_val := PNum (Fin 1); t_min := (-10^12); t_max := 0; t_result := false; t_func := Some "heat_func"; t_deriv := Some "heat_deriv"; t_own := ""; t_latex := true; t_num_eq := 1 |});
  ("pr", {| t_kind := KCp; t_val := PNum (Fin 1); t_min := (-10^12); t_max := 1; t_result := false; t_func := Some "pr_func"; t_deriv := Some "pr_deriv"; t_own := "pr"; t_latex := true; t_num_eq := 1 |});
  ("zeta", {| t_kind := KCp; t_val := PNum (Fin 1); t_min := 0; t_max := (10^12); t_result := false; t_func := Some "zeta_func"; t_deriv := Some "zeta_deriv"; t_own := "zeta"; t_latex := true; t_num_eq := 1 |});
  ("eta", {| t_kind := KCp; t_val := PNum (Fin 1); t_min := 0; t_max := 1; t_result := false; t_func := Some "eta_func"; t_deriv := Some "eta_deriv"; t_own := ""; t_latex := true; t_num_eq := 1 |});
  ("eta_char", {| t_kind := KCc; t_val := PNone; t_min := (-10^12); t_max := (10^12); t_result := false; t_func := Some "eta_char_func"; t_deriv := Some "eta_char_deriv"; t_own := ""; t_latex := true; t_num_eq := 1 |});
  ("e", {| t_kind := KCp; t_val := PNum (Fin 1); t_min := 0; t_max := (10^12); t_result := false; t_func := Some "specific_energy_consumption_func"; t_deriv := Some "specific_energy_consumption_deriv"; t_own := ""; t_latex := true; t_num_eq := 1 |}) ].
(** Turbomachine.get_parameters, components/turbomachinery/base.py 85-95 *)
Definition params_Turbomachine : dict prow := [
  ("P", {| t_kind := KCp; t_val := PNum (Fin 1); t_min := (-10^12); t_max := (10^12); t_result := false; t_func := Some "energy_balance_func"; t_deriv := Some "energy_balance_deriv"; t_own := ""; t_latex := true; t_num_eq := 1 |});
  ("pr", {| t_kind := KCp; t_val := PNum (Fin 1); t_min := (-10^12); t_max := (10^12); t_result := false; t_func := Some "pr_func"; t_deriv := Some "pr_deriv"; t_own := "pr"; t_latex := true; t_num_eq := 1 |}) ].
(** Compressor.get_parameters, components/turbomachinery/compressor.py 158-190 *)
Definition params_Compressor : dict prow := [
  ("P", {| t_kind := KCp; t_val := PNum (Fin 1); t_min := 0; t_max := (10^12); t_result := false; t_func := Some "energy_balance_func"; t_deriv := Some "energy_balance_deriv"; t_own := ""; t_latex := true; t_num_eq := 1 |});
  ("eta_s", {| t_kind := KCp; t_val := PNum (Fin 1); t_min := 0; t_max := 1; t_result := false; t_func := Some "eta_s_func"; t_deriv := Some "eta_s_deriv"; t_own := ""; t_latex := true; t_num_eq := 1 |});
  ("eta_s_char", {| t_kind := KCc; t_val := PNone; t_min := (-10^12); t_max := (10^12); t_result := false; t_func := Some "eta_s_char_func"; t_deriv := Some "eta_s_char_deriv"; t_own := ""; t_latex := true; t_num_eq := 1 |});
  ("pr", {| t_kind := KCp; t_val := PNum (Fin 1); t_min := 1; t_max := (10^12); t_result := false; t_func := Some "pr_func"; t_deriv := Some "pr_deriv"; t_own := "pr"; t_latex := true; t_num_eq := 1 |});
  ("igva", {| t_kind := KCp; t_val := PNum (Fin 0); t_min := (-90); t_max := 90; t_result := false; t_func := None; t_deriv := None; t_own := ""; t_latex := false; t_num_eq := 0 |});
  ("char_map_eta_s", {| t_kind := KCm; t_val := PNone; t_min := (-10^12); t_max := (10^12); t_result := false; t_func := None; t_deriv := None; t_own := ""; t_latex := false; t_num_eq := 0 |});
  ("char_map_eta_s_group", {| t_kind := (KGcp ["char_map_eta_s"; "igva"]); t_val := PNone; t_min := (-10^12); t_max := (10^12); t_result := false; t_func := Some "char_map_eta_s_func"; t_deriv := Some "char_map_eta_s_deriv"; t_own := ""; t_latex := true; t_num_eq := 1 |});
  ("char_map_pr", {| t_kind := KCm; t_val := PNone; t_min := (-10^12); t_max := (10^12); t_result := false; t_func := None; t_deriv := None; t_own := ""; t_latex := false; t_num_eq := 0 |});
  ("char_map_pr_group", {| t_kind := (KGcp ["char_map_pr"; "igva"]); t_val := PNone; t_min := (-10^12); t_max := (10^12); t_result := false; t_func := Some "char_map_pr_func"; t_deriv := Some "char_map_pr_deriv"; t_own := ""; t_latex := true; t_num_eq := 1 |}) ].
(** Pump.get_parameters, components/turbomachinery/pump.py 161-189 *)
Definition params_Pump : dict prow := [
  ("P", {| t_kind := KCp; t_val := PNum (Fin 1); t_min := 0; t_max := (10^12); t_result := false; t_func := Some "energy_balance_func"; t_deriv := Some "energy_balance_deriv"; t_own := ""; t_latex := true; t_num_eq := 1 |});
  ("eta_s", {| t_kind := KCp; t_val := PNum (Fin 1); t_min := 0; t_max := 1; t_result := false; t_func := Some "eta_s_func"; t_deriv := Some "eta_s_deriv"; t_own := ""; t_latex := true; t_num_eq := 1 |});
  ("pr", {| t_kind := KCp; t_val := PNum (Fin 1); t_min := 1; t_max := (10^12); t_result := false; t_func := Some "pr_func"; t_deriv := Some "pr_deriv"; t_own := "pr"; t_latex := true; t_num_eq := 1 |});
  ("eta_s_char", {| t_kind := KCc; t_val := PNone; t_min := (-10^12); t_max := (10^12); t_result := false; t_func := Some "eta_s_char_func"; t_deriv := Some "eta_s_char_deriv"; t_own := ""; t_latex := true; t_num_eq := 1 |});
  ("flow_char", {| t_kind := KCc; t_val := PNone; t_min := (-10^12); t_max := (10^12); t_result := false; t_func := Some "flow_char_func"; t_deriv := Some "flow_char_deriv"; t_own := ""; t_latex := true; t_num_eq := 1 |}) ].
(** Turbine.get_parameters, components/turbomachinery/turbine.py 154-177 *)
Definition params_Turbine : dict prow := [
  ("P", {| t_kind := KCp; t_val := PNum (Fin 1); t_min := (-10^12); t_max := 0; t_result := false; t_func := Some "energy_balance_func"; t_deriv := Some "energy_balance_deriv"; t_own := ""; t_latex := true; t_num_eq := 1 |});
  ("eta_s", {| t_kind := KCp; t_val := PNum (Fin 1); t_min := 0; t_max := 1; t_result := false; t_func := Some "eta_s_func"; t_deriv := Some "eta_s_deriv"; t_own := ""; t_latex := true; t_num_eq := 1 |});
  ("eta_s_char", {| t_kind := KCc; t_val := PNone; t_min := (-10^12); t_max := (10^12); t_result := false; t_func := Some "eta_s_char_func"; t_deriv := Some "eta_s_char_deriv"; t_own := ""; t_latex := true; t_num_eq := 1 |});
  ("pr", {| t_kind := KCp; t_val := PNum (Fin 1); t_min := 0; t_max := 1; t_result := false; t_func := Some "pr_func"; t_deriv := Some "pr_deriv"; t_own := "pr"; t_latex := true; t_num_eq := 1 |});
  ("cone", {| t_kind := KSimple; t_val := PNum NaN; t_min := (-10^12); t_max := (10^12); t_result := false; t_func := Some "cone_func"; t_deriv := Some "cone_deriv"; t_own := ""; t_latex := true; t_num_eq := 1 |}) ].
(** SteamTurbine.get_parameters, components/turbomachinery/steam_turbine.py 153-164 *)
Definition params_SteamTurbine : dict prow := update_rows params_Turbine [
  ("alpha", {| t_kind := KCp; t_val := PNum (Fin 1); t_min := (2 # 5); t_max := (5 # 2); t_result := false; t_func := None; t_deriv := None; t_own := ""; t_latex := false; t_num_eq := 0 |});
  ("eta_s_dry", {| t_kind := KCp; t_val := PNum (Fin 1); t_min := 0; t_max := 1; t_result := false; t_func := None; t_deriv := None; t_own := ""; t_latex := false; t_num_eq := 0 |});
  ("eta_s_dry_group", {| t_kind := (KGcp ["alpha"; "eta_s_dry"]); t_val := PNone; t_min := (-10^12); t_max := (10^12); t_result := false; t_func := Some "eta_s_wet_func"; t_deriv := Some "eta_s_wet_deriv"; t_own := ""; t_latex := false; t_num_eq := 1 |}) ].

(** The classes a user can create components of, components/__init__.py 4-30 *)
Inductive cls := KCycleCloser | KSink | KSource | KSubsystemInterface | KCombustionChamber | KDiabaticCombustionChamber | KCombustionEngine | KHeatExchanger | KCondenser | KDesuperheater | KMovingBoundaryHeatExchanger | KSimpleHeatExchanger | KParabolicTrough | KHeatExchangerSimple | KSolarCollector | KDropletSeparator | KDrum | KMerge | KSeparator | KSplitter | KPipe | KValve | KFuelCell | KWaterElectrolyzer | KCompressor | KPump | KTurbine | KSteamTurbine.
(** get_parameters by class, component.py 133 *)
Definition class_params (c : cls) : dict prow :=
  match c with
  | KCycleCloser => params_CycleCloser
  | KSink => params_Sink
  | KSource => params_Source
  | KSubsystemInterface => params_SubsystemInterface
  | KCombustionChamber => params_CombustionChamber
  | KDiabaticCombustionChamber => params_DiabaticCombustionChamber
  | KCombustionEngine => params_CombustionEngine
  | KHeatExchanger => params_HeatExchanger
  | KCondenser => params_Condenser
  | KDesuperheater => params_Desuperheater
  | KMovingBoundaryHeatExchanger => params_MovingBoundaryHeatExchanger
  | KSimpleHeatExchanger => params_SimpleHeatExchanger
  | KParabolicTrough => params_ParabolicTrough
  | KHeatExchangerSimple => params_HeatExchangerSimple
  | KSolarCollector => params_SolarCollector
  | KDropletSeparator => params_DropletSeparator
  | KDrum => params_Drum
  | KMerge => params_Merge
  | KSeparator => params_Separator
  | KSplitter => params_Splitter
  | KPipe => params_Pipe
  | KValve => params_Valve
  | KFuelCell => params_FuelCell
  | KWaterElectrolyzer => params_WaterElectrolyzer
  | KCompressor => params_Compressor
  | KPump => params_Pump
  | KTurbine => params_Turbine
  | KSteamTurbine => params_SteamTurbine
  end.
(** All classes, components/__init__.py 4-30 *)
Definition all_classes : list cls := [KCycleCloser; KSink; KSource; KSubsystemInterface; KCombustionChamber; KDiabaticCombustionChamber; KCombustionEngine; KHeatExchanger; KCondenser; KDesuperheater; KMovingBoundaryHeatExchanger; KSimpleHeatExchanger; KParabolicTrough; KHeatExchangerSimple; KSolarCollector; KDropletSeparator; KDrum; KMerge; KSeparator; KSplitter; KPipe; KValve; KFuelCell; KWaterElectrolyzer; KCompressor; KPump; KTurbine; KSteamTurbine].

(** Derivatives of the mandatory constraints, by class: get_mandatory_constraints of
    basics/cycle_closer.py 106-120;
    basics/sink.py 71-72;
    basics/source.py 96-97;
    basics/subsystem_interface.py 131-145;
    combustion/base.py 172-202;
    combustion/diabatic.py 218-222;
    combustion/engine.py 286-310;
    component.py 432-433;
    heat_exchangers/base.py 298-305;
    heat_exchangers/desuperheater.py 183-193;
    nodes/droplet_separator.py 145-168;
    nodes/drum.py 175-201;
    nodes/merge.py 139-170;
    nodes/separator.py 144-172;
    nodes/splitter.py 126-143;
    piping/valve.py 155-163;
    reactors/fuel_cell.py 185-206;
    reactors/water_electrolyzer.py 220-247 *)
Definition mandatory_derivs (c : cls) : list string :=
  match c with
  | KCycleCloser => ["pressure_equality_deriv"; "enthalpy_equality_deriv"]
  | KSink => []
  | KSource => []
  | KSubsystemInterface => ["pressure_equality_deriv"; "enthalpy_equality_deriv"]
  | KCombustionChamber => ["mass_flow_deriv"; "combustion_pressure_deriv"; "stoichiometry_deriv"; "energy_balance_deriv"]
  | KDiabaticCombustionChamber => ["mass_flow_deriv"; "stoichiometry_deriv"]
  | KCombustionEngine => ["mass_flow_deriv"; "combustion_pressure_deriv"; "stoichiometry_deriv"; "energy_balance_deriv"; "tiP_char_deriv"; "Q1_char_deriv"; "Q2_char_deriv"; "Qloss_char_deriv"]
  | KHeatExchanger => ["energy_balance_deriv"]
  | KCondenser => ["energy_balance_deriv"]
  | KDesuperheater => ["energy_balance_deriv"; "saturated_gas_deriv"]
  | KMovingBoundaryHeatExchanger => ["energy_balance_deriv"]
  | KSimpleHeatExchanger => []
  | KParabolicTrough => []
  | KHeatExchangerSimple => []
  | KSolarCollector => []
  | KDropletSeparator => ["mass_flow_deriv"; "energy_balance_deriv"; "pressure_equality_deriv"; "outlet_states_deriv"]
  | KDrum => ["mass_flow_deriv"; "energy_balance_deriv"; "pressure_equality_deriv"; "outlet_states_deriv"]
  | KMerge => ["mass_flow_deriv"; "fluid_deriv"; "energy_balance_deriv"; "pressure_equality_deriv"]
  | KSeparator => ["mass_flow_deriv"; "fluid_deriv"; "energy_balance_deriv"; "pressure_equality_deriv"]
  | KSplitter => ["mass_flow_deriv"; "energy_balance_deriv"; "pressure_equality_deriv"]
  | KPipe => []
  | KValve => ["enthalpy_equality_deriv"]
  | KFuelCell => ["mass_flow_deriv"; "energy_balance_deriv"; "reactor_pressure_deriv"]
  | KWaterElectrolyzer => ["mass_flow_deriv"; "energy_balance_deriv"; "reactor_pressure_deriv"; "gas_temperature_deriv"]
  | KCompressor => []
  | KPump => []
  | KTurbine => []
  | KSteamTurbine => []
  end.

(** A new component: all parameters with their defaults, nothing specified; component.py 121-136 *)
Definition new_param (r : prow) : param :=
  {| q_kind := t_kind r; q_val := t_val r; q_is_set := false; q_is_var := false; q_char := None;
     q_func := match t_func r with Some _ => true | None => false end; q_num_eq := t_num_eq r; q_extra := [] |}.
(** component.py 121-136 without the keyword arguments *)
Definition new_component (c : cls) : comp :=
  {| k_params := map (fun kr => (fst kr, new_param (snd kr))) (class_params c);
     k_design := []; k_offdesign := []; k_local_design := false; k_local_offdesign := false;
     k_printout := true; k_char_warnings := true; k_design_path := CV PNone; k_fkt_group := CV PNone;
     k_new_design := true |}.

(** Component variables with a branch of their own in the derivative methods:
    turbomachinery/base.py 161-162; turbomachinery/compressor.py 448-451, 562-565; heat_exchangers/simple.py
    316-317, 411-417, 508-514, 617-618; heat_exchangers/solar_collector.py 296-304;
    heat_exchangers/parabolic_trough.py 346-354; combustion/engine.py 496-499, 690-691, 785-786, 882-883,
    958-961; reactors/fuel_cell.py 306-307, 412-416, 528-529; reactors/water_electrolyzer.py 405-406, 511-515,
    627-628, 700-701.  No other derivative method looks at component variables *)
Definition branch_vars (c : cls) (d : string) : list string :=
  match c with
  | KCompressor =>
      if String.eqb d "energy_balance_deriv" then ["P"]
      else if String.eqb d "char_map_eta_s_deriv" then ["igva"]
      else if String.eqb d "char_map_pr_deriv" then ["igva"] else []
  | KPump | KTurbine | KSteamTurbine => if String.eqb d "energy_balance_deriv" then ["P"] else []
  | KSimpleHeatExchanger | KHeatExchangerSimple | KPipe | KSolarCollector | KParabolicTrough =>
      if String.eqb d "energy_balance_deriv" then ["Q"]
      else if String.eqb d "darcy_deriv" then ["L"; "ks"; "D"]
      else if String.eqb d "hazen_williams_deriv" then ["L"; "ks_HW"; "D"]
      else if String.eqb d "kA_group_deriv" then ["kA"]
      else if String.eqb d "energy_group_deriv" then
        match c with
        | KSolarCollector => ["E"; "eta_opt"; "lkf_lin"; "lkf_quad"; "A"]
        | _ => ["E"; "eta_opt"; "aoi"; "doc"; "c_1"; "c_2"; "iam_1"; "iam_2"; "A"]
        end
      else []
  | KCombustionEngine =>
      if String.eqb d "energy_balance_deriv" then ["P"; "Qloss"]
      else if String.eqb d "Qloss_char_deriv" then ["P"; "Qloss"]
      else if smem d ["tiP_char_deriv"; "Q1_char_deriv"; "Q2_char_deriv"] then ["P"] else []
  | KFuelCell =>
      if String.eqb d "specific_energy_deriv" then ["P"; "e"]
      else if smem d ["eta_deriv"; "energy_balance_deriv"] then ["P"] else []
  | KWaterElectrolyzer =>
      if String.eqb d "specific_energy_consumption_deriv" then ["P"; "e"]
      else if smem d ["eta_deriv"; "energy_balance_deriv"; "eta_char_deriv"] then ["P"] else []
  | _ => []
  end.

(** The columns of component variables a derivative method writes to, component.py 1083-1090 (pr_deriv uses
    the column of self.pr), 1217-1232 (zeta_deriv).  The pr_deriv of combustion/diabatic.py 259-276 has no branch
    for a variable; its row has no own parameter *)
Definition deriv_columns (c : cls) (is_var : string -> bool) (d own : string) : res (list string) :=
  if String.eqb d "pr_deriv" then
    if is_var own then (if dmem "pr" (class_params c) then Ok ["pr"] else Err AttributeError) else Ok []
  else if String.eqb d "zeta_deriv" then Ok (filter is_var [own])
  else Ok (filter is_var (branch_vars c d)).
(** The derivatives called in a solution: those of the mandatory constraints and of all specified parameters
    with an equation, component.py 586-602 *)
Definition active_derivs (c : cls) (k : comp) : list (string * string) :=
  map (fun d => (d, "")) (mandatory_derivs c)
  ++ flat_map (fun kr => match t_func (snd kr), t_deriv (snd kr), dget (fst kr) (k_params k) with
                         | Some _, Some d, Some p => if q_is_set p then [(d, t_own (snd kr))] else []
                         | _, _, _ => [] end) (class_params c).
(** Is the parameter a variable of the component, component.py 355 *)
Definition var_flag (k : comp) (p : string) : bool :=
  match dget p (k_params k) with Some p => q_is_var p | None => false end.
(** All columns of component variables written in one iteration, component.py 586-602 *)
Definition jac_columns (c : cls) (k : comp) : res (list string) :=
  rmap (@concat string) (rmapM (fun dn => deriv_columns c (var_flag k) (fst dn) (snd dn)) (active_derivs c k)).
