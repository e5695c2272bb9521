(** What a user expects of the parameters of a component class. *)
From Verif Require Import TableModel.
Open Scope string_scope.
Open Scope list_scope.

(** The parameter is specified. *)
Definition specified (k : comp) (p : string) : bool :=
  match dget p (k_params k) with Some q => q_is_set q | None => false end.
(** The parameter has an equation of its own. *)
Definition has_equation (r : prow) : bool := match t_func r with Some _ => true | None => false end.
(** Number of parameters that are specified and have an equation. *)
Definition equations (c : cls) (k : comp) : nat :=
  length (filter (fun kr => has_equation (snd kr) && specified k (fst kr))%bool (class_params c)).
(** [p] is a parameter of the class that takes numbers. *)
Definition number (c : cls) (p : string) : Prop := exists r, dget p (class_params c) = Some r /\ t_kind r = KCp.

(** Parameters that take numbers nothing depends on. *)
Definition ignored (c : cls) : list string :=
  match c with
  | KCycleCloser => ["mass_deviation"; "fluid_deviation"]
  | KDiabaticCombustionChamber | KParabolicTrough | KSolarCollector => ["Q_loss"]
  | KHeatExchanger | KCondenser | KDesuperheater => ["td_log"]
  | KMovingBoundaryHeatExchanger =>
      ["td_log"; "U_gas_gas"; "U_gas_twophase"; "U_gas_liquid"; "U_liquid_gas"; "U_liquid_twophase";
       "U_liquid_liquid"; "U_twophase_gas"; "U_twophase_twophase"; "U_twophase_liquid"; "A"]
  | _ => []
  end.

(** Equations that have a derivative with respect to a parameter of the component: the name of the
    equation, empty for those that are always there, and of the parameter. *)
Definition flow_resistance : list (string * string) :=
  [("Q", "Q"); ("pr", "pr"); ("zeta", "zeta"); ("darcy_group", "L"); ("darcy_group", "ks"); ("darcy_group", "D");
   ("hw_group", "L"); ("hw_group", "ks_HW"); ("hw_group", "D")].
Definition carriers (c : cls) : list (string * string) :=
  match c with
  | KCombustionEngine => [("", "P"); ("", "Qloss"); ("zeta1", "zeta1"); ("zeta2", "zeta2")]
  | KHeatExchanger | KCondenser | KDesuperheater | KMovingBoundaryHeatExchanger => [("zeta1", "zeta1"); ("zeta2", "zeta2")]
  | KSimpleHeatExchanger | KHeatExchangerSimple | KPipe => flow_resistance ++ [("kA_group", "kA")]
  | KSolarCollector => flow_resistance ++ map (fun p => ("energy_group", p)) ["E"; "eta_opt"; "lkf_lin"; "lkf_quad"; "A"]
  | KParabolicTrough => flow_resistance ++ map (fun p => ("energy_group", p)) ["E"; "eta_opt"; "aoi"; "doc"; "c_1"; "c_2"; "iam_1"; "iam_2"; "A"]
  | KValve => [("pr", "pr"); ("zeta", "zeta")]
  | KFuelCell => [("", "P"); ("pr", "pr"); ("zeta", "zeta"); ("eta", "P"); ("e", "P"); ("e", "e")]
  | KWaterElectrolyzer => [("", "P"); ("pr", "pr"); ("zeta", "zeta"); ("eta", "P"); ("eta_char", "P"); ("e", "P"); ("e", "e")]
  | KCompressor => [("P", "P"); ("pr", "pr"); ("char_map_eta_s_group", "igva"); ("char_map_pr_group", "igva")]
  | KPump | KTurbine | KSteamTurbine => [("P", "P"); ("pr", "pr")]
  | _ => []
  end.
(** Pressure ratios of components with two sides. *)
Definition two_sided (c : cls) : bool :=
  match c with
  | KCombustionEngine | KHeatExchanger | KCondenser | KDesuperheater | KMovingBoundaryHeatExchanger => true
  | _ => false
  end.
(** Defaults outside of the limits. *)
Definition out_of_limits (c : cls) : list string :=
  match c with
  | KDiabaticCombustionChamber => ["Q_loss"] | KCombustionEngine => ["Q1"; "Q2"]
  | KHeatExchanger | KCondenser | KDesuperheater | KMovingBoundaryHeatExchanger | KWaterElectrolyzer => ["Q"]
  | KFuelCell => ["P"; "Q"; "e"] | KTurbine | KSteamTurbine => ["P"] | _ => []
  end.
(** The default of a parameter is within its limits. *)
Definition within (r : prow) : Prop := match t_val r with PNum (Fin q) => (t_min r <= q <= t_max r)%Q | _ => True end.
