{
 "claims": [
  {
   "property": "C01",
   "status": "proved",
   "theorems": [
    "C01_roundtrip_user_SI_user",
    "C01_roundtrip_SI_user_SI",
    "C01_physical",
    "C01_unsupported_is_error",
    "C01_monotone",
    "C01_scaling",
    "C01_temperature_difference"
   ],
   "note": "complete unit table, exact rationals (no rounding)"
  },
  {
   "property": "C02",
   "status": "proved",
   "theorems": [
    "C02_set_attr_success",
    "C02_range_read_back",
    "C02_units_always_supported"
   ],
   "note": "successful calls and all histories; failing calls are C45"
  },
  {
   "property": "C03",
   "status": "proved",
   "theorems": [
    "C03_constructor",
    "C03_through_points",
    "C03_segment",
    "C03_clamped_below",
    "C03_clamped_above",
    "C03_total",
    "C03_range",
    "C03_continuous",
    "C03_monotone",
    "C03_extrapolate"
   ],
   "note": "all data sets with strictly increasing abscissae"
  },
  {
   "property": "C04",
   "status": "proved",
   "theorems": [
    "C04_constructed_maps_are_ok",
    "C04_through_nodes",
    "C04_total",
    "C04_range",
    "C04_speedline",
    "C04_left_border",
    "C04_right_border"
   ],
   "note": "all well-formed maps"
  },
  {
   "property": "C05",
   "status": "partial",
   "theorems": [
    "C05_map_unchanged_refuted",
    "C05_map_unchanged_inside_partial",
    "C05_map_unchanged_igva0_partial"
   ],
   "note": "refuted: evaluating a compressor map at the border of the map scales the stored rows in place (witness); proved unchanged for operating points inside the map and for igva = 0"
  },
  {
   "property": "C06",
   "status": "proved",
   "theorems": [
    "C06_terminates_in_bounds",
    "C06_affine_exact"
   ],
   "note": "function and derivative are oracles that may raise; the limit is 13 iterations whatever max_iter is"
  },
  {
   "property": "C07",
   "status": "partial",
   "theorems": [
    "C07_max_iter_honoured_refuted",
    "C07_max_iter_usable_refuted",
    "C07_returned_value_converged_refuted",
    "C07_small_limit_honoured_partial"
   ],
   "note": "refuted: max_iter is overwritten at iteration 5, the tolerance test uses the previous iterate, exhaustion is not reported to the caller; proved: max_iter <= 3 is honoured"
  },
  {
   "property": "C08",
   "status": "proved",
   "theorems": [
    "C08_state_restored",
    "C08_affine_exact",
    "C08_mean_value",
    "C08_fluid_affine_exact",
    "C08_fluid_mean_value",
    "C08_property_functions"
   ],
   "note": "derivative exact for affine equations and equal to the derivative at a point within the step for differentiable ones"
  },
  {
   "property": "C09",
   "status": "proved",
   "theorems": [
    "C09_values",
    "C09_references",
    "C09_starting_values",
    "C09_other_attributes",
    "C09_last_call_wins",
    "C09_last_reference_wins",
    "C09_unknown_iff_unset"
   ],
   "note": "values, references, starting values, other attributes, for all keyword combinations and histories; failing calls only covered by the frame of what was not named"
  },
  {
   "property": "C10",
   "status": "proved",
   "theorems": [
    "C10_none_unsets",
    "C10_none_accepted"
   ],
   "note": "all eleven properties"
  },
  {
   "property": "C11",
   "status": "proved",
   "theorems": [
    "C11_fluids_after_history",
    "C11_consistent",
    "C11_names",
    "C11_engines"
   ],
   "note": "per fluid entry, histories of fluid, fluid0, fluid_engines dictionaries"
  },
  {
   "property": "C12",
   "status": "proved",
   "theorems": [
    "C12_specification_in_force",
    "C12_frame",
    "C12_group_iff_complete",
    "C12_preprocess_frame",
    "C12_equation_count",
    "C12_columns",
    "C12_variables_are_specified"
   ],
   "note": "all parameter kinds; overwriting func, num_eq or elements through a dictionary argument is not tracked"
  },
  {
   "property": "C13",
   "status": "proved",
   "theorems": [
    "C13_labels_unique",
    "C13_get_conn",
    "C13_added",
    "C13_removed",
    "C13_unknown"
   ],
   "note": "all histories; the iteration order of the set of components is arbitrary"
  },
  {
   "property": "C14",
   "status": "proved",
   "theorems": [
    "C14_components_mirror_connections",
    "C14_get_comp"
   ],
   "note": "all successful histories; failing calls are C51"
  },
  {
   "property": "C15",
   "status": "proved",
   "theorems": [
    "C15_checks_iff_fully_connected",
    "C15_port_lists"
   ],
   "note": "connections made by the constructor; order of ten or more ports is C55"
  },
  {
   "property": "C16",
   "status": "proved",
   "theorems": [
    "C16_terminates",
    "C16_branches",
    "C16_fluid_branches",
    "C16_check_frame"
   ],
   "note": "all component classes with their declared ports; side effects of the branch methods on fluid values and the fluid wrapper branches are not modelled"
  },
  {
   "property": "C17",
   "status": "proved",
   "theorems": [
    "C17_accepts",
    "C17_one_container_per_branch"
   ],
   "note": "branches given as disjoint non-empty lists (C16); specification flag and SI value of the containers"
  },
  {
   "property": "C18",
   "status": "proved",
   "theorems": [
    "C18_solve_keeps_specifications",
    "C18_repeated_solves"
   ],
   "note": "mass flow specifications, solves that return; failing solves are C56, fluid specifications C58"
  },
  {
   "property": "C19",
   "status": "proved",
   "theorems": [
    "C19_propagate",
    "C19_propagate_outcome",
    "C19_accepts",
    "C19_composition"
   ],
   "note": "one fluid wrapper branch; the sum of a fixed composition is C57"
  },
  {
   "property": "C20",
   "status": "proved",
   "theorems": [
    "C20_every_unknown_one_column",
    "C20_columns_distinct",
    "C20_error_only_overspecified",
    "C20_overspecified_rejected"
   ],
   "note": "connection containers, fluid fractions and component variables; the over specified case raises"
  },
  {
   "property": "C21",
   "status": "proved",
   "theorems": [
    "C21_rows_of_one_iteration",
    "C21_every_row_has_an_owner",
    "C21_row_owner_unique",
    "C21_no_stale_entries",
    "C21_rows_within_component",
    "C21_equation_without_unknown_singular"
   ],
   "note": "equation groups as arbitrary residual lists and Jacobian dictionaries; the equation without unknowns is C61"
  },
  {
   "property": "C22",
   "status": "proved",
   "theorems": [
    "C22_undetermined_rejected",
    "C22_determined_solved"
   ],
   "note": "the Newton step is an arbitrary function"
  },
  {
   "property": "C23",
   "status": "proved",
   "theorems": [
    "C23_converged_sound",
    "C23_unconverged_reason",
    "C23_stops_at_first_success",
    "C23_postprocessing_condition"
   ],
   "note": "the Newton step is an arbitrary function incl. exceptions, nan and singular Jacobians; printing not modelled"
  },
  {
   "property": "C24",
   "status": "proved",
   "theorems": [
    "C24_fixed_values_fixed",
    "C24_update_ranges"
   ],
   "note": "positive pressures before the update; nan not modelled"
  },
  {
   "property": "C25",
   "status": "proved",
   "theorems": [
    "C25_only_unknowns_changed",
    "C25_mass_flow_in_range",
    "C25_mixture_in_range",
    "C25_mass_flow_nearest",
    "C25_mixture_nearest",
    "C25_temperature_range",
    "C25_temperature_nothing"
   ],
   "note": "fluid property functions are arbitrary functions that may raise; convergence checks of compressor, turbine, pump and combustion chamber modelled"
  },
  {
   "property": "C26",
   "status": "proved",
   "theorems": [
    "C26_sum_is_one",
    "C26_no_negative_fraction",
    "C26_fixed_fractions_kept"
   ],
   "note": "sum shown for compositions without positive specified fractions; the rest is C67"
  },
  {
   "property": "C27",
   "status": "proved",
   "theorems": [
    "C27_node_mass",
    "C27_merge_species",
    "C27_merge_mass",
    "C27_separator_species",
    "C27_separator_last_species",
    "C27_drum_mass",
    "C27_fuel_cell_mass",
    "C27_electrolyzer_mass"
   ],
   "note": "combustion chamber is C36; pass-through components share one container (C16, C17)"
  },
  {
   "property": "C28",
   "status": "proved",
   "theorems": [
    "C28_heat_exchanger",
    "C28_merge",
    "C28_droplet_separator",
    "C28_droplet_outlets",
    "C28_splitter",
    "C28_separator",
    "C28_drum",
    "C28_valve",
    "C28_power_and_heat",
    "C28_fuel_cell",
    "C28_electrolyzer"
   ],
   "note": "reference enthalpies and reaction energy are arbitrary numbers"
  },
  {
   "property": "C29",
   "status": "proved",
   "theorems": [
    "C29_node_mass",
    "C29_node_pressure",
    "C29_merge_fluid",
    "C29_merge_energy",
    "C29_splitter_energy",
    "C29_separator_fluid",
    "C29_separator_energy",
    "C29_droplet_energy",
    "C29_droplet_outlet",
    "C29_drum_mass",
    "C29_drum_energy",
    "C29_equality_rows",
    "C29_pressure_ratio",
    "C29_pressure_difference",
    "C29_power_and_heat",
    "C29_heat_exchanger_heat",
    "C29_heat_exchanger_energy",
    "C29_kA_entry",
    "C29_eff_cold_entry",
    "C29_eff_hot_entry",
    "C29_saturation_entry",
    "C29_pump_eta_entry",
    "C29_turbine_eta_entry",
    "C29_cone_entry",
    "C29_char_map_entry",
    "C29_valve_dp_char_entries",
    "C29_reference",
    "C29_volume_flow_entry",
    "C29_volume_flow_reference_entries",
    "C29_quality_entry",
    "C29_fuel_cell_mass",
    "C29_electrolyzer_mass",
    "C29_fuel_cell_energy",
    "C29_electrolyzer_energy",
    "C29_specific_energy",
    "C29_fuel_cell_efficiency",
    "C29_electrolyzer_efficiency"
   ],
   "note": "numerical entries are C08; bus rows are C40; sharing of unknowns between streams is C68, component variables C69, composition columns C70, filter C71"
  },
  {
   "property": "C30",
   "status": "proved",
   "theorems": [
    "C30_nodes",
    "C30_drum",
    "C30_components",
    "C30_connections",
    "C30_component_variables",
    "C30_reactor_mass"
   ],
   "note": "separator temperature equation is C72"
  },
  {
   "property": "C31",
   "status": "proved",
   "theorems": [
    "C31_node_pressure",
    "C31_merge_fluids",
    "C31_merge_mass",
    "C31_separator_fluids",
    "C31_electrolyzer",
    "C31_fuel_cell"
   ],
   "note": "the failing patterns are C73"
  },
  {
   "property": "C32",
   "status": "proved",
   "theorems": [
    "C32_pressure",
    "C32_power_and_heat",
    "C32_isentropic_efficiency",
    "C32_terminal_differences",
    "C32_effectiveness",
    "C32_effectiveness_max",
    "C32_reactors",
    "C32_kA",
    "C32_simple_kA",
    "C32_zeta"
   ],
   "note": "reported values of satisfied equations, over the reals"
  },
  {
   "property": "C33",
   "status": "proved",
   "theorems": [
    "C33_exchanger_defined",
    "C33_exchanger_mean",
    "C33_exchanger_crossed",
    "C33_mean_unique",
    "C33_simple_above",
    "C33_simple_below",
    "C33_simple_opposite"
   ],
   "note": "all branches of calc_td_log except those of C76"
  },
  {
   "property": "C34",
   "status": "proved",
   "theorems": [
    "C34_zeta_direction",
    "C34_zeta_unique",
    "C34_zeta_monotone",
    "C34_negligible_flow",
    "C34_darcy_direction",
    "C34_darcy_unique"
   ],
   "note": "zeta and Darcy equations over the reals; Hazen-Williams is C78"
  },
  {
   "property": "C35",
   "status": "proved",
   "theorems": [
    "C35_smooth_increasing",
    "C35_smooth_derivative",
    "C35_smooth_unique",
    "C35_rough_unique",
    "C35_factor_positive",
    "C35_factor_well_posed"
   ],
   "note": "friction factor branches and Colebrook residual over the reals"
  },
  {
   "property": "C36",
   "status": "proved",
   "theorems": [
    "C36_elements",
    "C36_species",
    "C36_mass",
    "C36_thermal_input"
   ],
   "note": "stoichiometric and lean combustion; too little air is C84"
  },
  {
   "property": "C37",
   "status": "proved",
   "theorems": [
    "C37_split",
    "C37_turbine",
    "C37_compressor",
    "C37_valve",
    "C37_heat_exchanger",
    "C37_merge",
    "C37_drum",
    "C37_combustion_chamber",
    "C37_entropy_turbomachine",
    "C37_entropy_valve",
    "C37_entropy_heat_exchanger",
    "C37_entropy_merge",
    "C37_entropy_drum",
    "C37_efficiency",
    "C37_terminals"
   ],
   "note": "split into thermal and mechanical exergy, balances of all classes"
  },
  {
   "property": "C38",
   "status": "proved",
   "theorems": [
    "C38_closed",
    "C38_aggregation",
    "C38_accepted"
   ],
   "note": "totals over components and busses"
  },
  {
   "property": "C39",
   "status": "proved",
   "theorems": [
    "C39_molar_fractions",
    "C39_condensation",
    "C39_no_condensation",
    "C39_enthalpy",
    "C39_entropy",
    "C39_ideal_gas",
    "C39_dispatch_pure",
    "C39_dispatch_mixture",
    "C39_ideal",
    "C39_forced_gas",
    "C39_incompressible",
    "C39_viscosity",
    "C39_rules"
   ],
   "note": "mass to molar fractions and back, sums of properties"
  },
  {
   "property": "C40",
   "status": "proved",
   "theorems": [
    "C40_residual",
    "C40_constant_efficiency",
    "C40_component_load",
    "C40_design_point",
    "C40_jacobian",
    "C40_jacobian_central"
   ],
   "note": "bus power is the sum of converted component values"
  },
  {
   "property": "C41",
   "status": "proved",
   "theorems": [
    "C41_export_import"
   ],
   "note": "load means load_network up to the final topology check; lazily defaulted num_in/num_out not tracked"
  },
  {
   "property": "C42",
   "status": "proved",
   "theorems": [
    "C42_connection_flags",
    "C42_component_flags",
    "C42_back_connection",
    "C42_back_component",
    "C42_references",
    "C42_variables"
   ],
   "note": "mass flow: C110; references: C111; values: C112"
  },
  {
   "property": "C43",
   "status": "proved",
   "theorems": [
    "C43_values",
    "C43_keys",
    "C43_raises_exactly_on_conflict"
   ],
   "note": "nested dictionaries with string keys"
  },
  {
   "property": "C44",
   "status": "proved",
   "theorems": [
    "C44_labels_unique",
    "C44_membership",
    "C44_frame",
    "C44_component_once",
    "C44_component_settings",
    "C44_component_frame"
   ],
   "note": "labels immutable; strings passed as numbers not modelled"
  },
  {
   "property": "C45",
   "status": "partial",
   "theorems": [
    "C45_rejected_set_attr_changes_nothing_refuted",
    "C45_rejected_unit_frame_partial"
   ],
   "note": "refuted: units handled before the rejected one stay changed and the displayed ranges become stale"
  },
  {
   "property": "C46",
   "status": "partial",
   "theorems": [
    "C46_fluid_slope_below_step_partial",
    "C46_fluid_affine_exact_refuted",
    "C46_restored_when_raising_refuted"
   ],
   "note": "refuted: below the step width 1e-5 the slope is scaled by (v+d)/(2d), one half at zero; an equation that raises leaves the variable displaced"
  },
  {
   "property": "C47",
   "status": "partial",
   "theorems": [
    "C47_one_specification_refuted",
    "C47_both_only_if_given_partial"
   ],
   "note": "refuted: a reference given after a value (or the reverse) leaves both in force; proved: both are in force only if both were given"
  },
  {
   "property": "C48",
   "status": "partial",
   "theorems": [
    "C48_nan_unsets_refuted"
   ],
   "note": "refuted: nan is a float, so it is stored as a specified value"
  },
  {
   "property": "C49",
   "status": "partial",
   "theorems": [
    "C49_composition_replaced_refuted"
   ],
   "note": "refuted: fluids of the previous composition stay specified"
  },
  {
   "property": "C50",
   "status": "partial",
   "theorems": [
    "C50_accepted_keyword_has_effect_refuted"
   ],
   "note": "refuted: a non-dictionary value for a parameter group is accepted and ignored"
  },
  {
   "property": "C51",
   "status": "partial",
   "theorems": [
    "C51_rejected_add_keeps_tables_in_step_refuted",
    "C51_del_keeps_tables_in_step_refuted",
    "C51_rejected_add_partial"
   ],
   "note": "refuted: a wrong second argument leaves the first connection without components; removal before any check raises KeyError half way; proved: rejected additions lose no connection and list no detached component"
  },
  {
   "property": "C53",
   "status": "partial",
   "theorems": [
    "C53_every_connection_in_a_branch_refuted",
    "C53_every_connection_in_a_branch_partial"
   ],
   "note": "refuted: a separate closed loop without CycleCloser is accepted but in no branch; proved for networks without such loops"
  },
  {
   "property": "C54",
   "status": "partial",
   "theorems": [
    "C54_bus_leaves_other_results_refuted",
    "C54_bus_leaves_other_results_partial"
   ],
   "note": "refuted: a bus labelled like a component class replaces and deletes that class results table; proved for all other tables"
  },
  {
   "property": "C55",
   "status": "partial",
   "theorems": [
    "C55_port_order_refuted"
   ],
   "note": "refuted: port names are sorted as strings, in10 before in2"
  },
  {
   "property": "C56",
   "status": "partial",
   "theorems": [
    "C56_raising_solve_keeps_specifications_refuted",
    "C56_solver_exception_refuted"
   ],
   "note": "refuted: a solve that raises leaves the branches already reduced aliased, a later correct input is rejected"
  },
  {
   "property": "C57",
   "status": "partial",
   "theorems": [
    "C57_fixed_composition_sums_to_one_refuted",
    "C57_fixed_composition_sums_to_one_partial"
   ],
   "note": "refuted: all fluids fixed with a total below one are accepted; proved if a fraction is open or the total is one"
  },
  {
   "property": "C58",
   "status": "partial",
   "theorems": [
    "C58_solve_keeps_fluid_specifications_refuted",
    "C58_specifications_independent_refuted",
    "C58_starting_values_refuted",
    "C58_solve_keeps_fluid_specifications_partial"
   ],
   "note": "refuted: the fraction of a single fluid is overwritten by one, fraction dictionaries stay shared after a solve, starting values are dropped; proved: specifications kept for two fluids or more"
  },
  {
   "property": "C59",
   "status": "partial",
   "theorems": [
    "C59_mixing_rule_refuted",
    "C59_engine_refuted"
   ],
   "note": "refuted: the default mixing rule written by the first solve conflicts with a later specification; wrappers made by the first solve are kept"
  },
  {
   "property": "C60",
   "status": "proved",
   "theorems": [
    "C60_presolve_keeps_balance",
    "C60_network_balance",
    "C60_asked",
    "C60_network_asked"
   ],
   "note": "counts per branch; component equations are given numbers"
  },
  {
   "property": "C61",
   "status": "partial",
   "theorems": [
    "C61_equation_without_unknown_lost_refuted",
    "C61_equation_kept_partial"
   ],
   "note": "refuted: the row counter only advances for objects with Jacobian entries, the residual of an equation without unknowns is overwritten by the next; proved if every object has an unknown"
  },
  {
   "property": "C62",
   "status": "partial",
   "theorems": [
    "C62_single_iteration_refuted",
    "C62_two_small_residuals_partial"
   ],
   "note": "refuted for min_iter = 1; proved for min_iter of at least two"
  },
  {
   "property": "C63",
   "status": "partial",
   "theorems": [
    "C63_reported_values_refuted",
    "C63_residual_before_last_update_partial"
   ],
   "note": "refuted: the residual is not evaluated after the last update, x^2 + 1e-8 = 0 is reported converged with default settings; proved: the residual before the last update is small"
  },
  {
   "property": "C64",
   "status": "proved",
   "theorems": [
    "C64_no_abort_while_falling",
    "C64_abort_condition",
    "C64_standstill_stopped"
   ],
   "note": "the Newton step is an arbitrary function"
  },
  {
   "property": "C65",
   "status": "partial",
   "theorems": [
    "C65_network_range_refuted",
    "C65_late_iteration_refuted"
   ],
   "note": "refuted: pure fluids use the limits of the fluid, mixtures are only checked in the first four iterations; the true part is C25_mixture_in_range"
  },
  {
   "property": "C66",
   "status": "partial",
   "theorems": [
    "C66_negative_upper_limit_refuted",
    "C66_two_phase_refuted",
    "C66_enthalpy_partial",
    "C66_pressure_partial",
    "C66_pure_pressure_partial",
    "C66_limits_partial",
    "C66_search_ends"
   ],
   "note": "refuted: negative limits are scaled in the wrong direction; proved for a non negative upper limit and for pressures"
  },
  {
   "property": "C67",
   "status": "partial",
   "theorems": [
    "C67_specified_fraction_refuted",
    "C67_all_zero_refuted",
    "C67_new_sum_partial"
   ],
   "note": "refuted: specified fractions are counted in the total but not scaled; all variable fractions zero raises ZeroDivisionError; proved: formula of the new sum"
  },
  {
   "property": "C68",
   "status": "partial",
   "theorems": [
    "C68_heat_exchanger_refuted",
    "C68_heat_exchanger_partial",
    "C68_merge_refuted"
   ],
   "note": "refuted: the later assignment overwrites the earlier one; proved: formula of the entry"
  },
  {
   "property": "C69",
   "status": "partial",
   "theorems": [
    "C69_pump_efficiency_refuted",
    "C69_heat_refuted",
    "C69_fuel_cell_efficiency_refuted",
    "C69_pressure_ratio_refuted",
    "C69_outlet_index_refuted",
    "C69_temperature_difference_refuted",
    "C69_heat_transfer_refuted",
    "C69_moving_boundary_refuted",
    "C69_air_ratio_refuted",
    "C69_combustion_efficiency_refuted",
    "C69_wet_expansion_partial"
   ],
   "note": "refuted: temperature differences, kA, UA, air ratio, combustion efficiency, pump/compressor eta_s, heat of a heat exchanger, fuel cell eta have no column; pr1/pr2 as variable raises AttributeError"
  },
  {
   "property": "C70",
   "status": "partial",
   "theorems": [
    "C70_fluid_balance_refuted",
    "C70_fluid_balance_partial",
    "C70_temperature_reference_refuted",
    "C70_temperature_reference_partial",
    "C70_temperature_filtered_partial"
   ],
   "note": "refuted: fluid balance entry is minus the fraction instead of -1, temperature reference lacks the factor; partial: what the entries of temperature references are"
  },
  {
   "property": "C71",
   "status": "partial",
   "theorems": [
    "C71_stale_entry_refuted"
   ],
   "note": "refuted: entries of filtered unknowns are stale"
  },
  {
   "property": "C72",
   "status": "partial",
   "theorems": [
    "C72_separator_refuted",
    "C72_separator_partial"
   ],
   "note": "refuted: outlet entries are not guarded; proved if outlet pressure and enthalpy are unknowns"
  },
  {
   "property": "C73",
   "status": "partial",
   "theorems": [
    "C73_merge_refuted",
    "C73_fuel_cell_refuted",
    "C73_fuel_cell_count_refuted"
   ],
   "note": "refuted: merge with one specified of three fluids; fuel cell with specified oxygen flow raises IndexError; exact conditions are C31"
  },
  {
   "property": "C74",
   "status": "partial",
   "theorems": [
    "C74_electrolyzer_refuted",
    "C74_separator_refuted"
   ],
   "note": "refuted: equations between specified flows are dropped; true part is C27"
  },
  {
   "property": "C75",
   "status": "partial",
   "theorems": [
    "C75_zeta_reversed_refuted",
    "C75_zeta_reversed_partial",
    "C75_zeta_small_flow_refuted",
    "C75_kA_nan_refuted"
   ],
   "note": "refuted: reversed flow reports -zeta, negligible flow 0, crossed temperatures nan; true part is C32"
  },
  {
   "property": "C76",
   "status": "partial",
   "theorems": [
    "C76_condenser_refuted",
    "C76_condenser_partial",
    "C76_simple_refuted",
    "C76_simple_inlet_refuted"
   ],
   "note": "refuted: condenser with both temperatures of a crossed end specified raises ValueError; simple exchanger with a port at ambient temperature raises; true part proved as partial and in C33"
  },
  {
   "property": "C77",
   "status": "partial",
   "theorems": [
    "C77_exchanger_refuted",
    "C77_exchanger_lower_always",
    "C77_simple_refuted",
    "C77_simple_partial"
   ],
   "note": "refuted: zero terminal difference raises, ambient temperature between inlet and outlet raises ValueError"
  },
  {
   "property": "C78",
   "status": "partial",
   "theorems": [
    "C78_direction_refuted",
    "C78_two_solutions_partial",
    "C78_reversed_refuted",
    "C78_reversed_partial"
   ],
   "note": "refuted: two solutions for forward flow, none for reversed flow"
  },
  {
   "property": "C79",
   "status": "partial",
   "theorems": [
    "C79_power_kept_refuted",
    "C79_power_kept_partial"
   ],
   "note": "refuted: the sum of the contributions replaces the specified value; proved: it changes by exactly the residual"
  },
  {
   "property": "C80",
   "status": "partial",
   "theorems": [
    "C80_bus_load_refuted"
   ],
   "note": "refuted: the derivative lacks the component value, the search oscillates and stops after twelve steps"
  },
  {
   "property": "C81",
   "status": "partial",
   "theorems": [
    "C81_electrolyzer_refuted",
    "C81_engine_refuted"
   ],
   "note": "refuted: electrolyser Q counts the outlet enthalpy twice, engine Q counts a shared mass flow twice; true part is C40"
  },
  {
   "property": "C82",
   "status": "partial",
   "theorems": [
    "C82_second_run_refuted",
    "C82_second_run_partial",
    "C82_after_exception_refuted"
   ],
   "note": "refuted: columns of earlier runs persist (IndexError), entries before an exception are added again; proved harmless if inside the matrix and zero"
  },
  {
   "property": "C83",
   "status": "partial",
   "theorems": [
    "C83_any_component_refuted",
    "C83_reported_zero_partial"
   ],
   "note": "refuted: components without bus_deriv raise AttributeError"
  },
  {
   "property": "C84",
   "status": "partial",
   "theorems": [
    "C84_fuel_rich_refuted",
    "C84_fuel_rich_partial",
    "C84_negative_refuted"
   ],
   "note": "refuted: methane with half the oxygen loses half of the carbon, hydrogen yields a negative carbon dioxide flow; partial: exact deficits"
  },
  {
   "property": "C85",
   "status": "partial",
   "theorems": [
    "C85_energy_columns_refuted",
    "C85_mass_columns_partial"
   ],
   "note": "refuted: no columns for mass fractions although the thermal input depends on them"
  },
  {
   "property": "C86",
   "status": "proved",
   "theorems": [
    "C86_engine_shares",
    "C86_engine_reported",
    "C86_diabatic_reported",
    "C86_load"
   ],
   "note": "loads, shares and characteristic lines of the engine"
  },
  {
   "property": "C87",
   "status": "partial",
   "theorems": [
    "C87_aliases_refuted",
    "C87_aliases_partial",
    "C87_accepted_partial",
    "C87_rejected_partial",
    "C87_complete_partial"
   ],
   "note": "refuted: oxygen under an alternative name is accepted, then KeyError; partial: literal names"
  },
  {
   "property": "C88",
   "status": "proved",
   "theorems": [
    "C88_checks_frame",
    "C88_checks_normalised",
    "C88_fractions"
   ],
   "note": "frame of the value checks; fractions in the unit interval"
  },
  {
   "property": "C89",
   "status": "partial",
   "theorems": [
    "C89_normalised_refuted"
   ],
   "note": "refuted: specified fractions count in the sum but are not rescaled; true part is C88"
  },
  {
   "property": "C90",
   "status": "partial",
   "theorems": [
    "C90_unbound_refuted",
    "C90_unbound_partial"
   ],
   "note": "refuted: new fuel connection at the second inlet beside an air connection with good starting values; partial: exact condition"
  },
  {
   "property": "C91",
   "status": "proved",
   "theorems": [
    "C91_ti_row"
   ],
   "note": "derivatives of thermal input"
  },
  {
   "property": "C92",
   "status": "proved",
   "theorems": [
    "C92_heating_value",
    "C92_heating_value_positive"
   ],
   "note": "over the table of formation enthalpies in the code"
  },
  {
   "property": "C93",
   "status": "partial",
   "theorems": [
    "C93_cooling_refuted",
    "C93_heating_refuted",
    "C93_pressure_refuted",
    "C93_simple_partial"
   ],
   "note": "refuted: negative for cooling below and heating across the ambient temperature, pressure loss ignored for dissipative heating below it; partial: the consistent cases"
  },
  {
   "property": "C94",
   "status": "partial",
   "theorems": [
    "C94_reported_refuted",
    "C94_ambient_merge_partial"
   ],
   "note": "refuted: nan for the cases listed, among them every merge at ambient temperature; exact conditions are C37"
  },
  {
   "property": "C95",
   "status": "partial",
   "theorems": [
    "C95_electrolyzer_refuted"
   ],
   "note": "refuted: the exergy of the cooling water is added at inlet and outlet"
  },
  {
   "property": "C96",
   "status": "partial",
   "theorems": [
    "C96_engine_heat_refuted",
    "C96_engine_mechanical_refuted",
    "C96_engine_partial",
    "C96_parts_partial"
   ],
   "note": "refuted: heat and power enter with the wrong sign"
  },
  {
   "property": "C97",
   "status": "partial",
   "theorems": [
    "C97_balances_always",
    "C97_balances_refuted",
    "C97_meant_partial",
    "C97_single_partial"
   ],
   "note": "refuted: TypeError, AttributeError and KeyError in every case but engines with single fluids"
  },
  {
   "property": "C98",
   "status": "partial",
   "theorems": [
    "C98_groups_partial",
    "C98_groups_refuted"
   ],
   "note": "refuted: the bus loss of a source or sink belongs to no group; partial: true if no such component has a lossy bus"
  },
  {
   "property": "C99",
   "status": "partial",
   "theorems": [
    "C99_base_refuted"
   ],
   "note": "refuted: IndexError for a source with base component and a sink with base bus"
  },
  {
   "property": "C100",
   "status": "partial",
   "theorems": [
    "C100_message_partial",
    "C100_message_refuted"
   ],
   "note": "refuted: silent nan for a dissipative simple heat exchanger on a product bus; partial: exact if the totals are numbers"
  },
  {
   "property": "C101",
   "status": "partial",
   "theorems": [
    "C101_categories_refuted",
    "C101_nan_shares_refuted"
   ],
   "note": "refuted: ValueError for two categories between the same groups, also for components with nan shares"
  },
  {
   "property": "C102",
   "status": "proved",
   "theorems": [
    "C102_roundtrip",
    "C102_range"
   ],
   "note": "constant heat capacities; other fluids are C103"
  },
  {
   "property": "C103",
   "status": "partial",
   "theorems": [
    "C103_range_refuted",
    "C103_range_partial"
   ],
   "note": "refuted: the upper limit is doubled; partial: within twice the upper end of the common range"
  },
  {
   "property": "C104",
   "status": "partial",
   "theorems": [
    "C104_volume_refuted",
    "C104_volume_partial"
   ],
   "note": "refuted: densities are averaged by mass, the volume is too small by orders of magnitude; partial: the formula computed"
  },
  {
   "property": "C105",
   "status": "partial",
   "theorems": [
    "C105_names_refuted",
    "C105_names_partial"
   ],
   "note": "refuted: forced-gas recognises water only as H2O; partial: the rule ideal"
  },
  {
   "property": "C106",
   "status": "partial",
   "theorems": [
    "C106_rules_refuted",
    "C106_rules_partial"
   ],
   "note": "refuted: forced-gas is missing in every other table; partial: which rule serves which property"
  },
  {
   "property": "C107",
   "status": "partial",
   "theorems": [
    "C107_restored_partial",
    "C107_restored_refuted",
    "C107_quotient_partial"
   ],
   "note": "refuted: the fraction stays shifted when the property function raises; partial: unchanged when it returns, the slope of affine functions"
  },
  {
   "property": "C108",
   "status": "partial",
   "theorems": [
    "C108_start_refuted",
    "C108_start_partial",
    "C108_quotient_partial"
   ],
   "note": "refuted: derivatives of the volume pass a volume; partial: those of the temperature pass temperatures"
  },
  {
   "property": "C109",
   "status": "partial",
   "theorems": [
    "C109_iapws_refuted",
    "C109_monotone_refuted",
    "C109_incompressible_always",
    "C109_limit_partial"
   ],
   "note": "refuted: iapws divides the temperature by 1e6, saturation temperature drops at the critical pressure, TypeError for incompressible fluids; partial: the pressure limit"
  },
  {
   "property": "C110",
   "status": "partial",
   "theorems": [
    "C110_mass_flow_refuted"
   ],
   "note": "refuted: the specification moves to the first connection of the branch because the container is shared while the mode is switched"
  },
  {
   "property": "C111",
   "status": "partial",
   "theorems": [
    "C111_reference_refuted"
   ],
   "note": "refuted: the property itself is specified instead of the reference"
  },
  {
   "property": "C112",
   "status": "partial",
   "theorems": [
    "C112_values_refuted",
    "C112_values_partial"
   ],
   "note": "refuted: the offdesign result becomes the specification; partial: which values there are"
  },
  {
   "property": "C113",
   "status": "proved",
   "theorems": [
    "C113_design_values"
   ],
   "note": "order of paths of network, component and connection"
  },
  {
   "property": "C114",
   "status": "partial",
   "theorems": [
    "C114_failed_refuted",
    "C114_local_refuted",
    "C114_missing_refuted",
    "C114_mass_flow_refuted"
   ],
   "note": "refuted: design values of another path after a refused calculation; nan after local_design was switched off and when the mass flow specification moves in its branch; old values for components missing in the tables"
  },
  {
   "property": "C115",
   "status": "partial",
   "theorems": [
    "C115_local_design_refuted",
    "C115_local_offdesign_off_refuted",
    "C115_connection_value_refuted",
    "C115_component_path_refuted"
   ],
   "note": "refuted: local modes switched after a calculation are ignored; local_offdesign connections do not take the design value; local_offdesign components without path have no value"
  },
  {
   "property": "C116",
   "status": "partial",
   "theorems": [
    "C116_reference_refuted"
   ],
   "note": "refuted: AttributeError for references in the offdesign list"
  },
  {
   "property": "C117",
   "status": "proved",
   "theorems": [
    "C117_local_offdesign_connection",
    "C117_local_offdesign_component",
    "C117_local_design_connection",
    "C117_local_design_component"
   ],
   "note": "local_design and local_offdesign"
  },
  {
   "property": "C118",
   "status": "partial",
   "theorems": [
    "C118_local_offdesign_refuted",
    "C118_reference_activated_refuted",
    "C118_fluid_start_refuted",
    "C118_units_refuted",
    "C118_bus_refuted",
    "C118_group_refuted",
    "C118_user_equations_refuted"
   ],
   "note": "refuted: each of the listed items is lost or changed; C41 proves the rest is kept"
  },
  {
   "property": "C119",
   "status": "partial",
   "theorems": [
    "C119_set_fluid_after_import_refuted",
    "C119_set_fluid_always_fails",
    "C119_set_fluid_partial",
    "C119_missing_attribute"
   ],
   "note": "refuted: AttributeError for every mass fraction on every connection of a loaded network, as is_set becomes a list"
  },
  {
   "property": "C120",
   "status": "partial",
   "theorems": [
    "C120_no_connection_refuted",
    "C120_label_P_refuted",
    "C120_foreign_bus_refuted",
    "C120_unregistered_refuted",
    "C120_line_for_map_refuted"
   ],
   "note": "refuted: no connections; bus component labelled P; bus component outside the network; unregistered class; line in place of a map"
  },
  {
   "property": "C121",
   "status": "partial",
   "theorems": [
    "C121_stale_class_refuted",
    "C121_stale_busses_refuted",
    "C121_save_over_export_refuted"
   ],
   "note": "refuted: component files of other classes and busses.json stay; save overwrites busses.json; C41 proves the law without leftovers"
  },
  {
   "property": "C122",
   "status": "proved",
   "theorems": [
    "C122_connection_keywords",
    "C122_label_protected",
    "C122_component_keywords",
    "C122_component_fields",
    "C122_component_design_path"
   ],
   "note": "set_attr of all objects"
  },
  {
   "property": "C123",
   "status": "partial",
   "theorems": [
    "C123_rejected_call_changes_nothing_refuted",
    "C123_rejected_reference_refuted",
    "C123_keywords_before_partial"
   ],
   "note": "refuted: keywords before the rejected one stay in force; a number for a reference raises but flags the reference as specified without an object"
  },
  {
   "property": "C124",
   "status": "proved",
   "theorems": [
    "C124_accounted",
    "C124_reported",
    "C124_balance"
   ],
   "note": "without references of pressure or enthalpy at the connection (C126); difference to the boiling temperature in C125"
  },
  {
   "property": "C125",
   "status": "partial",
   "theorems": [
    "C125_unit_refuted",
    "C125_offdesign_refuted",
    "C125_accounted_partial"
   ],
   "note": "refuted: the number typed is used in place of the SI value: wrong in F and R, ValueError in offdesign mode; proved for K and C in design mode"
  },
  {
   "property": "C126",
   "status": "partial",
   "theorems": [
    "C126_reference_refuted"
   ],
   "note": "refuted: the start value of a referenced enthalpy overwrites the presolved enthalpy, the temperature is lost"
  },
  {
   "property": "C127",
   "status": "proved",
   "theorems": [
    "C127_reported"
   ],
   "note": "mass flow, pressure and enthalpy in all units"
  },
  {
   "property": "C128",
   "status": "partial",
   "theorems": [
    "C128_file_units_refuted"
   ],
   "note": "refuted: the unit of the file becomes the unit of the container; C127 proves the law without a file"
  },
  {
   "property": "C129",
   "status": "proved",
   "theorems": [
    "C129_user_value",
    "C129_proposed",
    "C129_restart"
   ],
   "note": "enthalpies only if no temperature, vapour content, boiling point difference or phase is specified"
  },
  {
   "property": "C130",
   "status": "partial",
   "theorems": [
    "C130_unit_refuted",
    "C130_range_partial"
   ],
   "note": "refuted: the random number is taken in the mass flow unit of the network; proved for kg/s"
  },
  {
   "property": "C131",
   "status": "partial",
   "theorems": [
    "C131_vapour_refuted",
    "C131_liquid_refuted",
    "C131_vapour_partial",
    "C131_liquid_partial"
   ],
   "note": "refuted for negative saturation enthalpies; proved for nonnegative ones"
  },
  {
   "property": "C132",
   "status": "partial",
   "theorems": [
    "C132_stale_refuted",
    "C132_lost_refuted",
    "C132_mixture_refuted",
    "C132_reported_partial"
   ],
   "note": "refuted: Td_bp of an earlier calculation kept above the critical pressure, specified x overwritten with nan, x and phase of an earlier pure fluid kept for mixtures; the rest proved"
  },
  {
   "property": "C133",
   "status": "partial",
   "theorems": [
    "C133_refuted",
    "C133_at_most_three_partial"
   ],
   "note": "refuted: p, T, x accepted and not satisfied; proved that at most three properties are specified"
  },
  {
   "property": "C134",
   "status": "partial",
   "theorems": [
    "C134_units_refuted"
   ],
   "note": "refuted: starting values are kept in the old unit and read in the new one; C129_restart proves it for the same units"
  },
  {
   "property": "C135",
   "status": "partial",
   "theorems": [
    "C135_engine_partial",
    "C135_conflict_refuted",
    "C135_not_propagated_refuted"
   ],
   "note": "refuted: the last of several engines wins silently; an engine given where the fraction is a starting value is not propagated; proved for engines given with a fraction and agreeing"
  },
  {
   "property": "C136",
   "status": "proved",
   "theorems": [
    "C136_decision_variables"
   ],
   "note": "the user's model and the algorithm are arbitrary; the model does not write to the dictionary it is given"
  },
  {
   "property": "C137",
   "status": "proved",
   "theorems": [
    "C137_constraints"
   ],
   "note": "parameters and objective of the model are arbitrary functions of its state that may raise"
  },
  {
   "property": "C138",
   "status": "partial",
   "theorems": [
    "C138_valid_refuted",
    "C138_valid_partial"
   ],
   "note": "refuted: an individual exactly on a limit is reported as not valid; proved: valid means all entries below zero"
  },
  {
   "property": "C139",
   "status": "partial",
   "theorems": [
    "C139_variables_refuted",
    "C139_names_refuted"
   ],
   "note": "refuted: input_dict is a shallow copy, so evaluations overwrite the bounds; labels with a dash give equal names"
  },
  {
   "property": "C140",
   "status": "proved",
   "theorems": [
    "C140_run"
   ],
   "note": "populations keep the number of individuals given; at least one generation"
  },
  {
   "property": "C141",
   "status": "proved",
   "theorems": [
    "C141_sections",
    "C141_mismatch"
   ],
   "note": "fluid properties are arbitrary functions that may raise; saturated liquid has no larger enthalpy than saturated gas; phase changes closer than 1e-6 to an end count as the end"
  },
  {
   "property": "C142",
   "status": "proved",
   "theorems": [
    "C142_pinch"
   ],
   "note": "temperatures at the pressure of the inlets, as in the code"
  },
  {
   "property": "C143",
   "status": "partial",
   "theorems": [
    "C143_reversed_refuted",
    "C143_smallest_partial",
    "C143_smallest_refuted"
   ],
   "note": "refuted: the difference may be smaller inside a section; with reversed heat flow the difference at an end may be smaller; proved if within each section no difference is smaller than at both ends"
  },
  {
   "property": "C144",
   "status": "proved",
   "theorems": [
    "C144_UA"
   ],
   "note": "uses the mean at the end if the differences agree to 6 digits, as in the code"
  },
  {
   "property": "C145",
   "status": "partial",
   "theorems": [
    "C145_cross_refuted"
   ],
   "note": "refuted: absolute values of the differences are used, so a crossing yields a positive UA"
  },
  {
   "property": "C146",
   "status": "partial",
   "theorems": [
    "C146_no_flow_always",
    "C146_more_flow_refuted",
    "C146_same_regime_partial"
   ],
   "note": "refuted: the friction factor jumps up at the Reynolds number 2320, so some pressure losses have no flow, and down at 10000; proved within one regime"
  },
  {
   "property": "C147",
   "status": "proved",
   "theorems": [
    "C147_collector",
    "C147_trough",
    "C147_entry"
   ],
   "note": "temperatures and enthalpies as given by the connections; entry of the mass flow only, the others are numerical"
  },
  {
   "property": "C148",
   "status": "partial",
   "theorems": [
    "C148_grazing_refuted",
    "C148_cold_refuted",
    "C148_more_sun_partial",
    "C148_cold_partial"
   ],
   "note": "refuted: the incidence angle modifier may become negative within the limits, quadratic losses count as losses below ambient temperature; proved without these"
  },
  {
   "property": "C149",
   "status": "proved",
   "theorems": [
    "C149_expansion",
    "C149_wet_worse",
    "C149_saturated"
   ],
   "note": "root search of scipy and fluid properties are oracles"
  },
  {
   "property": "C150",
   "status": "partial",
   "theorems": [
    "C150_negative_refuted",
    "C150_hot_refuted",
    "C150_moderate_partial"
   ],
   "note": "refuted: alpha times wetness above 1 reverses the sign; supercritical gas of CoolProp is no recognised phase, the search for the saturation point raises ValueError; proved for moderate wetness"
  },
  {
   "property": "C151",
   "status": "partial",
   "theorems": [
    "C151_shared_refuted",
    "C151_own_partial"
   ],
   "note": "refuted: the default of params is one dictionary shared by all equations; proved for equations made with dictionaries of their own"
  },
  {
   "property": "C152",
   "status": "partial",
   "theorems": [
    "C152_name_refuted",
    "C152_other_names_partial",
    "C152_named_partial"
   ],
   "note": "refuted: numeric_deriv passes the equation by the keyword ude, other parameter names raise TypeError; proved for that name"
  },
  {
   "property": "C153",
   "status": "proved",
   "theorems": [
    "C153_made",
    "C153_rejected",
    "C153_remapped",
    "C153_unknown",
    "C153_kept",
    "C153_texts"
   ],
   "note": "connections by label and object identity; LaTeX texts by value"
  },
  {
   "property": "C52",
   "status": "proved",
   "theorems": [
    "C52_branches",
    "C52_merged"
   ],
   "note": "order of Python sets is any order; recursion limit above the number of connections"
  },
  {
   "property": "C154",
   "status": "partial",
   "theorems": [
    "C154_disjoint_refuted",
    "C154_apart_partial"
   ],
   "note": "refuted: the loop over other branches stops after one merge, a branch that overlaps two groups keeps one of them apart; proved for fluids that never meet"
  },
  {
   "property": "C155",
   "status": "partial",
   "theorems": [
    "C155_engine_refuted"
   ],
   "note": "refuted: an engine already passed on a cooling side is not passed again on the combustion side"
  },
  {
   "property": "C156",
   "status": "proved",
   "theorems": [
    "C156_relative",
    "C156_absolute",
    "C156_design",
    "C156_turbine_design",
    "C156_turbine_off_design",
    "C156_pump_design",
    "C156_pump_off_design",
    "C156_exchanger_design",
    "C156_simple_exchanger_design",
    "C156_package_lines"
   ],
   "note": "lines by their points, fluid properties arbitrary functions; the shape of lines by CharModel"
  },
  {
   "property": "C157",
   "status": "proved",
   "theorems": [
    "C157_resistances",
    "C157_between",
    "C157_simple",
    "C157_package_lines"
   ],
   "note": "positive lines; the lines of the package do not extrapolate and are positive everywhere"
  },
  {
   "property": "C158",
   "status": "partial",
   "theorems": [
    "C158_flow_refuted",
    "C158_checked_partial"
   ],
   "note": "refuted: for an absolute expression of an unknown name the pump flow characteristic is evaluated at False, that is 0; proved for the checked equations"
  },
  {
   "property": "C159",
   "status": "partial",
   "theorems": [
    "C159_zero_refuted",
    "C159_nonzero_partial"
   ],
   "note": "refuted: the test for a missing expression is \"not expr\", so that zero raises ValueError; proved for nonzero expressions"
  },
  {
   "property": "C160",
   "status": "partial",
   "theorems": [
    "C160_turbine_refuted",
    "C160_default_partial"
   ],
   "note": "refuted: the turbine asks for the default expression always; proved for the default"
  },
  {
   "property": "C161",
   "status": "proved",
   "theorems": [
    "C161_reported",
    "C161_total"
   ],
   "note": "values that are nan are never outside"
  },
  {
   "property": "C162",
   "status": "partial",
   "theorems": [
    "C162_message_refuted",
    "C162_single_refuted",
    "C162_range_partial"
   ],
   "note": "refuted: the message names the second point, a line of one point raises IndexError; proved that warnings are given exactly outside for lines of two points"
  },
  {
   "property": "C163",
   "status": "partial",
   "theorems": [
    "C163_inside_partial",
    "C163_outside_partial",
    "C163_changed_refuted",
    "C163_single_refuted"
   ],
   "note": "refuted: outside the range the check overwrites the map, a map of one row warns inside; proved unchanged inside"
  },
  {
   "property": "C164",
   "status": "partial",
   "theorems": [
    "C164_zero_refuted"
   ],
   "note": "refuted: a line with value zero raises ZeroDivisionError"
  },
  {
   "property": "C165",
   "status": "proved",
   "theorems": [
    "C165_ellipse",
    "C165_design",
    "C165_monotone"
   ],
   "note": "reals; square root of the stdlib"
  },
  {
   "property": "C166",
   "status": "partial",
   "theorems": [
    "C166_reverse_refuted"
   ],
   "note": "refuted: the absolute value of the pressure term gives a positive flow against the pressure"
  },
  {
   "property": "C167",
   "status": "partial",
   "theorems": [
    "C167_documentation_refuted",
    "C167_documentation_partial"
   ],
   "note": "refuted: specific volumes are the other way round in documentation and report; proved where the volume is that of the design state"
  },
  {
   "property": "C168",
   "status": "proved",
   "theorems": [
    "C168_terminates",
    "C168_flows",
    "C168_nodes",
    "C168_gone",
    "C168_closed"
   ],
   "note": "row order of a sum of tables is not modelled; recursion depth bounded by the number of groups"
  },
  {
   "property": "C169",
   "status": "proved",
   "theorems": [
    "C169_links",
    "C169_colour",
    "C169_default_colour",
    "C169_missing",
    "C169_total"
   ],
   "note": "for analyses whose connections end at components of the network"
  },
  {
   "property": "C170",
   "status": "partial",
   "theorems": [
    "C170_threshold_refuted",
    "C170_threshold_partial"
   ],
   "note": "refuted: the threshold is applied to the sum of the three columns, a small column beside a large one is displayed; proved for the sum"
  },
  {
   "property": "C171",
   "status": "partial",
   "theorems": [
    "C171_negative_refuted"
   ],
   "note": "refuted: negative flows pass the threshold but only positive cells give links"
  },
  {
   "property": "C172",
   "status": "partial",
   "theorems": [
    "C172_aggregate_refuted",
    "C172_ignored"
   ],
   "note": "refuted: disaggregate_flows is not used, flows are always separate by column"
  },
  {
   "property": "C173",
   "status": "partial",
   "theorems": [
    "C173_self_refuted"
   ],
   "note": "refuted: a circuit of two groups leaves a link from a group to itself"
  },
  {
   "property": "C174",
   "status": "proved",
   "theorems": [
    "C174_pressure_ratio",
    "C174_pressure_drop",
    "C174_pump_efficiency",
    "C174_turbine_efficiency",
    "C174_map_pressure",
    "C174_valve",
    "C174_reference",
    "C174_temperature_reference",
    "C174_volume_flow",
    "C174_volume_reference",
    "C174_quality",
    "C174_saturation",
    "C174_kA",
    "C174_effectiveness_cold",
    "C174_effectiveness_hot",
    "C174_fractions",
    "C174_fuel_cell",
    "C174_electrolyzer",
    "C174_specific_energy"
   ],
   "note": "meaning of a zero residual for every specified parameter modelled in EqnModel"
  },
  {
   "property": "C175",
   "status": "proved",
   "theorems": [
    "C175_bus_nodes"
   ],
   "note": "node balances of busses and their totals in the final tables"
  },
  {
   "property": "C176",
   "status": "proved",
   "theorems": [
    "C176_group_flows"
   ],
   "note": "rows between component groups"
  },
  {
   "property": "C177",
   "status": "proved",
   "theorems": [
    "C177_outlets",
    "C177_inlets",
    "C177_start",
    "C177_separator_outlets"
   ],
   "note": "method lookup by name through the classes; values before references and phases are applied"
  },
  {
   "property": "C178",
   "status": "partial",
   "theorems": [
    "C178_turbomachine_outlets_refuted",
    "C178_turbomachine_outlets_partial",
    "C178_exchanger_pressures_refuted",
    "C178_exchanger_proposals_partial",
    "C178_separator_outlets_refuted"
   ],
   "note": "refuted: initialise_Source of turbomachines is never called, heat exchangers propose 50 bar instead of the documented 4 bar, the documentation of separators exchanges the outlets; partial theorems say what is used"
  },
  {
   "property": "C179",
   "status": "proved",
   "theorems": [
    "C179_added",
    "C179_components",
    "C179_as_connections"
   ],
   "note": "create_comps and create_conns are user code: a subsystem is the dictionary of connections they leave"
  },
  {
   "property": "C180",
   "status": "proved",
   "theorems": [
    "C180_component_labels",
    "C180_subsystem_labels",
    "C180_other_objects",
    "C180_connection_labels",
    "C180_default_labels",
    "C180_default_labels_unique"
   ],
   "note": "label checks and default labels"
  },
  {
   "property": "C181",
   "status": "partial",
   "theorems": [
    "C181_subsystem_commas_refuted",
    "C181_default_labels_refuted"
   ],
   "note": "refuted: commas in subsystem labels, colons in component labels"
  },
  {
   "property": "C182",
   "status": "proved",
   "theorems": [
    "C182_branch",
    "C182_history"
   ],
   "note": "mass flow sharing, its reset and the reported values"
  },
  {
   "property": "C183",
   "status": "proved",
   "theorems": [
    "C183_load",
    "C183_export"
   ],
   "note": "soundness of reading and writing for all files"
  },
  {
   "property": "C184",
   "status": "proved",
   "theorems": [
    "C184_pure",
    "C184_flow"
   ],
   "note": "single fluids and exergy flow"
  },
  {
   "property": "C185",
   "status": "proved",
   "theorems": [
    "C185_gas",
    "C185_condensed",
    "C185_mixing",
    "C185_complete"
   ],
   "note": "formula with and without condensation; the logarithm is a parameter"
  },
  {
   "property": "C186",
   "status": "partial",
   "theorems": [
    "C186_table_refuted",
    "C186_missing_refuted"
   ],
   "note": "refuted: rows of the delivered tables lead to TypeError"
  },
  {
   "property": "C187",
   "status": "partial",
   "theorems": [
    "C187_trace_refuted",
    "C187_negative_refuted"
   ],
   "note": "refuted: traces of fluids without value and tiny negative fractions raise"
  },
  {
   "property": "C188",
   "status": "proved",
   "theorems": [
    "C188_ph",
    "C188_isentropic",
    "C188_single"
   ],
   "note": "constant heat capacities, rules ideal and incompressible"
  },
  {
   "property": "C189",
   "status": "proved",
   "theorems": [
    "C189_zeta",
    "C189_darcy",
    "C189_hw",
    "C189_ttd_u",
    "C189_cond_ttd_u",
    "C189_ttd_l",
    "C189_ttd_min",
    "C189_eff_cold",
    "C189_eff_hot",
    "C189_eff_max",
    "C189_kA",
    "C189_kA_char",
    "C189_cond_kA",
    "C189_cond_kA_char",
    "C189_kA_group",
    "C189_kA_char_group",
    "C189_solar",
    "C189_trough",
    "C189_valve",
    "C189_pump",
    "C189_turbine",
    "C189_pump_char",
    "C189_turbine_char",
    "C189_pump_flow",
    "C189_map_pr",
    "C189_map_eta",
    "C189_cone",
    "C189_wet",
    "C189_UA",
    "C189_td_pinch",
    "C189_fc_heat",
    "C189_el_heat",
    "C189_el_pressure",
    "C189_fc_pressure",
    "C189_gas_T",
    "C189_el_char",
    "C189_comb_pressure",
    "C189_comb_mass",
    "C189_stoich",
    "C189_lambda",
    "C189_comb",
    "C189_engine",
    "C189_engine_Q",
    "C189_tiP",
    "C189_Qchar",
    "C189_Qloss",
    "C189_T",
    "C189_vol",
    "C189_superheating"
   ],
   "note": "45 equations; numerical properties are arbitrary functions"
  },
  {
   "property": "C190",
   "status": "partial",
   "theorems": [
    "C190_temperature_refuted",
    "C190_pressure_loss_refuted",
    "C190_efficiency_refuted",
    "C190_volumetric_flow_refuted"
   ],
   "note": "refuted: no entries for mass fractions in rows of temperature differences, pressure losses, efficiencies, volumetric flow"
  },
  {
   "property": "C191",
   "status": "partial",
   "theorems": [
    "C191_valve_refuted",
    "C191_electrolyser_refuted"
   ],
   "note": "refuted: valve over pressure ratio, electrolyser over inlet mass flow; default arguments in C189"
  },
  {
   "property": "C192",
   "status": "partial",
   "theorems": [
    "C192_engine_refuted"
   ],
   "note": "refuted: the dependence of the reference enthalpy on the composition is left out; mass flows, pressures, enthalpies in C189"
  },
  {
   "property": "C193",
   "status": "proved",
   "theorems": [
    "C193_plant_mass",
    "C193_without_closer",
    "C193_reported",
    "C193_single_closer"
   ],
   "note": "any number of components; pressure and optional equations are not needed"
  },
  {
   "property": "C194",
   "status": "proved",
   "theorems": [
    "C194_plant_energy",
    "C194_without_closer",
    "C194_cycle"
   ],
   "note": "fuel cells excluded, separators with ideal mixing"
  },
  {
   "property": "C195",
   "status": "proved",
   "theorems": [
    "C195_plant_species"
   ],
   "note": "drums with one composition, see C197"
  },
  {
   "property": "C196",
   "status": "partial",
   "theorems": [
    "C196_cycle_closer_refuted",
    "C196_any_imbalance"
   ],
   "note": "refuted: every imbalance is possible; bounded by the report in C193"
  },
  {
   "property": "C197",
   "status": "partial",
   "theorems": [
    "C197_drum_species_refuted"
   ],
   "note": "refuted: two sources with different fluids"
  },
  {
   "property": "C198",
   "status": "partial",
   "theorems": [
    "C198_fuel_cell_refuted",
    "C198_fuel_cell_excess",
    "C198_positive_power_partial"
   ],
   "note": "refuted: the power enters the balance with the wrong sign; the exact excess is proved"
  },
  {
   "property": "C199",
   "status": "proved",
   "theorems": [
    "C199_fluid_deviation",
    "C199_total",
    "C199_unknown_fluid",
    "C199_covers"
   ],
   "note": ""
  },
  {
   "property": "C200",
   "status": "proved",
   "theorems": [
    "C200_zeta",
    "C200_small_flow",
    "C200_darcy",
    "C200_hazen_williams",
    "C200_valve",
    "C200_pump_flow",
    "C200_terminal_differences",
    "C200_effectiveness",
    "C200_kA",
    "C200_kA_char",
    "C200_kA_group",
    "C200_kA_char_group",
    "C200_solar",
    "C200_trough",
    "C200_pump",
    "C200_turbine",
    "C200_pump_char",
    "C200_turbine_char",
    "C200_compressor_map",
    "C200_cone",
    "C200_heat",
    "C200_gases",
    "C200_electrolyzer_char",
    "C200_lambda",
    "C200_thermal_input",
    "C200_engine",
    "C200_connection"
   ],
   "note": "equations of JacModel, both directions"
  },
  {
   "property": "C201",
   "status": "proved",
   "theorems": [
    "C201_range",
    "C201_complete",
    "C201_antitone",
    "C201_start"
   ],
   "note": "the norm is a real number; nan in C202"
  },
  {
   "property": "C202",
   "status": "partial",
   "theorems": [
    "C202_nan_refuted"
   ],
   "note": "refuted: nan leads to -1"
  },
  {
   "property": "C203",
   "status": "proved",
   "theorems": [
    "C203_component",
    "C203_colours",
    "C203_connection",
    "C203_bus",
    "C203_bus_hidden",
    "C203_prints"
   ],
   "note": "contents of the tables; layout and number format are not modelled; components labelled total in C205"
  },
  {
   "property": "C204",
   "status": "partial",
   "theorems": [
    "C204_unsolved_refuted",
    "C204_errors_partial",
    "C204_unsolved_partial"
   ],
   "note": "refuted: KeyError or AttributeError, never TESPyNetworkError"
  },
  {
   "property": "C205",
   "status": "partial",
   "theorems": [
    "C205_bus_refuted"
   ],
   "note": "refuted: component labelled total"
  },
  {
   "property": "C206",
   "status": "proved",
   "theorems": [
    "C206_sum",
    "C206_defined",
    "C206_signs",
    "C206_mean",
    "C206_exchanger_sum",
    "C206_exchanger",
    "C206_throttle",
    "C206_machine"
   ],
   "note": "fluids with a differentiable entropy function"
  },
  {
   "property": "C207",
   "status": "partial",
   "theorems": [
    "C207_adiabatic_refuted",
    "C207_adiabatic",
    "C207_no_flow"
   ],
   "note": "refuted: ZeroDivisionError for adiabatic pipes and exchangers without flow"
  },
  {
   "property": "C208",
   "status": "proved",
   "theorems": [
    "C208_history"
   ],
   "note": "any library as oracle, also what the object holds after an exception"
  },
  {
   "property": "C209",
   "status": "proved",
   "theorems": [
    "C209_engines"
   ],
   "note": "libraries as oracles related by their units"
  },
  {
   "property": "C210",
   "status": "partial",
   "theorems": [
    "C210_p_sat_refuted",
    "C210_p_sat_partial",
    "C210_phases_always"
   ],
   "note": "refuted: temperature divided by 1e6 for the saturation pressure; other names and vapour fractions in other phases"
  },
  {
   "property": "C211",
   "status": "partial",
   "theorems": [
    "C211_missing_refuted",
    "C211_x_always",
    "C211_Td_bp_always",
    "C211_offered_partial",
    "C211_refusal_partial",
    "C211_reported_partial",
    "C211_unknown_partial",
    "C211_x_partial",
    "C211_Td_bp_partial",
    "C211_full_partial"
   ],
   "note": "refuted: AttributeError for the enthalpy of a vapour fraction, nan residual for Td_bp; proved what is offered and reported"
  },
  {
   "property": "C212",
   "status": "proved",
   "theorems": [
    "C212_plain",
    "C212_fraction",
    "C212_several",
    "C212_iapws",
    "C212_iapws_rejected"
   ],
   "note": ""
  },
  {
   "property": "C213",
   "status": "partial",
   "theorems": [
    "C213_mixtures_always",
    "C213_mixtures_refuted",
    "C213_single_partial"
   ],
   "note": "refuted: the derivatives are called without mixing rule, KeyError for every mixture; proved for single fluids"
  },
  {
   "property": "C214",
   "status": "proved",
   "theorems": [
    "C214_figures",
    "C214_rows"
   ],
   "note": ""
  },
  {
   "property": "C215",
   "status": "proved",
   "theorems": [
    "C215_specified",
    "C215_bold",
    "C215_inputs",
    "C215_equations",
    "C215_selected",
    "C215_components",
    "C215_component_inputs",
    "C215_component_results",
    "C215_marks"
   ],
   "note": "which values are shown and how they are marked; texts, units and parameter groups not modelled"
  },
  {
   "property": "C216",
   "status": "partial",
   "theorems": [
    "C216_references_refuted",
    "C216_all_partial"
   ],
   "note": "refuted: the container of references has no attribute val, AttributeError whenever a reference is set"
  },
  {
   "property": "C217",
   "status": "partial",
   "theorems": [
    "C217_folder_refuted",
    "C217_component_partial",
    "C217_others_partial"
   ],
   "note": "refuted: separator missing for busses, user defined equations and mandatory constraints; proved for component characteristics"
  },
  {
   "property": "C218",
   "status": "partial",
   "theorems": [
    "C218_selection_refuted",
    "C218_columns_partial",
    "C218_untold_partial"
   ],
   "note": "refuted: columns do not depend on the selection, specified parameters without equation text are left out"
  },
  {
   "property": "C219",
   "status": "proved",
   "theorems": [
    "C219_row",
    "C219_columns",
    "C219_meaning"
   ],
   "note": "bus value an arbitrary function of the component value, fractions at least a step away from 0 and 1; electrolyzer heat and shared branches are in C81"
  },
  {
   "property": "C220",
   "status": "proved",
   "theorems": [
    "C220_lines",
    "C220_drum",
    "C220_inlets",
    "C220_outlets",
    "C220_keys",
    "C220_index",
    "C220_valve",
    "C220_nodes",
    "C220_nothing",
    "C220_classes"
   ],
   "note": ""
  },
  {
   "property": "C221",
   "status": "proved",
   "theorems": [
    "C221_log",
    "C221_messages",
    "C221_exception",
    "C221_progress",
    "C221_levels",
    "C221_numbers"
   ],
   "note": "stack frames by name; logging package modelled as levels and handlers"
  },
  {
   "property": "C222",
   "status": "partial",
   "theorems": [
    "C222_one_limit_refuted",
    "C222_extra_refuted"
   ],
   "note": "refuted: a single limit leaves the other one missing, the dictionary of the caller is changed"
  },
  {
   "property": "C223",
   "status": "partial",
   "theorems": [
    "C223_warning_partial",
    "C223_category_refuted",
    "C223_place_always"
   ],
   "note": "refuted: every warning is labelled FutureWarning and its file is ignored; proved that the text arrives"
  },
  {
   "property": "C224",
   "status": "proved",
   "theorems": [
    "C224_setup",
    "C224_succeeds",
    "C224_announces",
    "C224_defaults",
    "C224_rotation",
    "C224_rotation_default",
    "C224_version",
    "C224_version_packed",
    "C224_version_installed"
   ],
   "note": "directories above the given one are not followed"
  },
  {
   "property": "C225",
   "status": "partial",
   "theorems": [
    "C225_date_refuted",
    "C225_twice_refuted",
    "C225_home_refuted",
    "C225_submodule_always"
   ],
   "note": "refuted: date format None instead of the documented one, handlers accumulate, home directory touched, NotADirectoryError if .git is a file"
  },
  {
   "property": "C226",
   "status": "proved",
   "theorems": [
    "C226_all",
    "C226_unit",
    "C226_custom",
    "C226_custom_file",
    "C226_custom_name"
   ],
   "note": ""
  },
  {
   "property": "C227",
   "status": "partial",
   "theorems": [
    "C227_map_refuted",
    "C227_map_always",
    "C227_tables",
    "C227_subclass_refuted"
   ],
   "note": "refuted: a line is installed for a map without default; steam turbines, moving boundary heat exchangers, solar collectors and parabolic troughs have no defaults"
  },
  {
   "property": "C228",
   "status": "proved",
   "theorems": [
    "C228_compressor_p",
    "C228_compressor_h",
    "C228_turbine_p",
    "C228_turbine_h",
    "C228_pump_p",
    "C228_pump_h",
    "C228_compressor_keeps",
    "C228_turbine_keeps",
    "C228_pump_keeps",
    "C228_pump_range"
   ],
   "note": ""
  },
  {
   "property": "C229",
   "status": "partial",
   "theorems": [
    "C229_compressor_refuted",
    "C229_turbine_refuted",
    "C229_turbine_inlet_refuted",
    "C229_pump_outlet_refuted",
    "C229_pump_flow_refuted"
   ],
   "note": "refuted by negative enthalpies, a turbine with known outlet pressure, a pump with known inlet pressure, and by a volume flow between the first two points of the characteristic"
  },
  {
   "property": "C230",
   "status": "proved",
   "theorems": [
    "C230_sound",
    "C230_complete",
    "C230_solve",
    "C230_after_change",
    "C230_repeated"
   ],
   "note": "creation of branches is a parameter"
  },
  {
   "property": "C231",
   "status": "partial",
   "theorems": [
    "C231_failed_deletion_refuted"
   ],
   "note": "refuted: del_conns only clears the flag at its end, so a deletion that raises in the middle leaves it set"
  },
  {
   "property": "C232",
   "status": "proved",
   "theorems": [
    "C232_pressure_drop",
    "C232_flow",
    "C232_turbine",
    "C232_pump",
    "C232_exchanger"
   ],
   "note": ""
  },
  {
   "property": "C233",
   "status": "proved",
   "theorems": [
    "C233_node_mass",
    "C233_node_pressure",
    "C233_merge_fluid",
    "C233_merge_energy",
    "C233_droplet",
    "C233_outlets",
    "C233_splitter",
    "C233_separator_T",
    "C233_pressures",
    "C233_enthalpies",
    "C233_ratio",
    "C233_zeta",
    "C233_power",
    "C233_hx_energy",
    "C233_kA",
    "C233_kA_condenser",
    "C233_ttd",
    "C233_saturation",
    "C233_collector",
    "C233_trough",
    "C233_eta_s",
    "C233_reactors",
    "C233_fc_energy",
    "C233_el_mass",
    "C233_pressures_comb",
    "C233_pressures_reactor",
    "C233_gas_T",
    "C233_el_char",
    "C233_connections",
    "C233_quality",
    "C233_balance",
    "C233_comb_mass",
    "C233_ti",
    "C233_comb_energy",
    "C233_stoichiometry",
    "C233_engine_energy",
    "C233_engine_chars",
    "C233_expression",
    "C233_chars",
    "C233_turbine_char",
    "C233_kA_char",
    "C233_bus"
   ],
   "note": "the meaning of the printed LaTeX code is transcribed by hand"
  },
  {
   "property": "C234",
   "status": "partial",
   "theorems": [
    "C234_separator_refuted",
    "C234_separator_partial",
    "C234_darcy_refuted",
    "C234_darcy_partial",
    "C234_hw_refuted",
    "C234_hw_backward",
    "C234_hw_backward_printed",
    "C234_hw_partial",
    "C234_simple_kA_refuted",
    "C234_simple_kA_partial",
    "C234_cone_refuted",
    "C234_cone_partial",
    "C234_fc_mass_refuted",
    "C234_fc_mass_partial",
    "C234_el_energy_refuted",
    "C234_el_energy_partial",
    "C234_ref_refuted",
    "C234_ref_partial",
    "C234_engine_Q_refuted",
    "C234_engine_Q_partial",
    "C234_Td_bp_refuted",
    "C234_Td_bp_partial",
    "C234_lambda_refuted",
    "C234_lambda_partial",
    "C234_rich_refuted"
   ],
   "note": "refuted for each of them with a state that solves the equation and violates the printed one; partial theorems say when both agree"
  },
  {
   "property": "C235",
   "status": "partial",
   "theorems": [
    "C235_component_refuted",
    "C235_component_partial",
    "C235_empty_always",
    "C235_partial"
   ],
   "note": "refuted: classes without bus_func_doc raise AttributeError, a bus without components KeyError if results are included; all other busses are printed with the expression of bus_func"
  },
  {
   "property": "C236",
   "status": "proved",
   "theorems": [
    "C236_increments",
    "C236_fixed_point",
    "C236_singular",
    "C236_linear",
    "C236_linear_system",
    "C236_mass"
   ],
   "note": ""
  },
  {
   "property": "C237",
   "status": "partial",
   "theorems": [
    "C237_refuted",
    "C237_partial"
   ],
   "note": "refuted: pressures that would fall by more than half are relaxed one by one, so equal pressures become different; holds if no pressure falls by more than half"
  },
  {
   "property": "C238",
   "status": "proved",
   "theorems": [
    "C238_total",
    "C238_groups",
    "C238_nan"
   ],
   "note": ""
  },
  {
   "property": "C239",
   "status": "proved",
   "theorems": [
    "C239_prepares",
    "C239_rows",
    "C239_pairs"
   ],
   "note": ""
  },
  {
   "property": "C240",
   "status": "partial",
   "theorems": [
    "C240_refuted",
    "C240_ignored_always",
    "C240_partial",
    "C240_covered_partial"
   ],
   "note": "refuted: td_log of heat exchangers, U and A of the moving boundary heat exchanger, Q_loss of collectors and the diabatic combustion chamber, deviations of the cycle closer are accepted without effect; every parameter with an equation adds it"
  },
  {
   "property": "C241",
   "status": "partial",
   "theorems": [
    "C241_refuted",
    "C241_unwritten_always",
    "C241_singular_always",
    "C241_ratio_always",
    "C241_partial",
    "C241_only_partial"
   ],
   "note": "refuted: most parameters (eta_s, kA, ttd_u, eta, ...) are accepted as unknown but no equation writes to their column, so the Jacobian is singular in every iteration; pr1 and pr2 raise AttributeError; holds for the listed parameters"
  },
  {
   "property": "C242",
   "status": "partial",
   "theorems": [
    "C242_refuted",
    "C242_outside_always",
    "C242_partial",
    "C242_ordered_partial"
   ],
   "note": "refuted: the default 1 of P and e of a fuel cell, P of turbines, Q of heat exchangers is above the upper limit 0; all other defaults are within the limits"
  },
  {
   "property": "C243",
   "status": "proved",
   "theorems": [
    "C243_engine",
    "C243_reactor",
    "C243_again"
   ],
   "note": ""
  },
  {
   "property": "C244",
   "status": "proved",
   "theorems": [
    "C244_energy"
   ],
   "note": ""
  },
  {
   "property": "C245",
   "status": "partial",
   "theorems": [
    "C245_refuted",
    "C245_missing_always"
   ],
   "note": "refuted: the reactors look up the fluid H2, any other name of hydrogen gives KeyError"
  },
  {
   "property": "C246",
   "status": "proved",
   "theorems": [
    "C246_switch",
    "C246_value",
    "C246_default"
   ],
   "note": ""
  },
  {
   "property": "C247",
   "status": "partial",
   "theorems": [
    "C247_refuted"
   ],
   "note": "refuted: None resets the flag but not the value, so a condenser with subcooling=True and then subcooling=None has no saturated outlet"
  },
  {
   "property": "C248",
   "status": "proved",
   "theorems": [
    "C248_steam"
   ],
   "note": ""
  },
  {
   "property": "C249",
   "status": "proved",
   "theorems": [
    "C249_load"
   ],
   "note": ""
  },
  {
   "property": "C250",
   "status": "proved",
   "theorems": [
    "C250_cells",
    "C250_power"
   ],
   "note": "that calc_parameters succeeds is C77; offdesign parameters are C42"
  },
  {
   "property": "C251",
   "status": "partial",
   "theorems": [
    "C251_refuted",
    "C251_overwritten_always",
    "C251_partial",
    "C251_inputs_partial"
   ],
   "note": "refuted: results are written whenever the loop ends without singularity or stagnation, also without convergence, and calc_parameters replaces the values of specified parameters; pure results such as td_log are replaced in every calculation; proved for converged calculations and for parameters that enter groups only"
  },
  {
   "property": "C252",
   "status": "partial",
   "theorems": [
    "C252_refuted",
    "C252_stale_always"
   ],
   "note": "refuted: solve returns before the results are written if the Jacobian is singular or there is no progress, and the tables of the last calculation stay; C250 is the proved part"
  },
  {
   "property": "C253",
   "status": "proved",
   "theorems": [
    "C253_system",
    "C253_results",
    "C253_history"
   ],
   "note": "without a file of starting values; the solver returns the same numbers for the same system"
  },
  {
   "property": "C254",
   "status": "partial",
   "theorems": [
    "C254_boiling_refuted",
    "C254_flow_refuted"
   ],
   "note": "refuted: the presolver adds the number entered for Td_bp to the boiling temperature whatever its unit, the random mass flow is taken in the unit of the network; C253 is the proved part"
  },
  {
   "property": "C255",
   "status": "proved",
   "theorems": [
    "C255_system",
    "C255_history",
    "C255_kept",
    "C255_fixed"
   ],
   "note": "without a file of starting values; the solution is any numbers the solver returns; connections referred to by a reference difference are excluded in C255_fixed"
  },
  {
   "property": "C256",
   "status": "partial",
   "theorems": [
    "C256_temperature_refuted",
    "C256_flow_refuted"
   ],
   "note": "refuted: temperature and volumetric flow are written over with the values of the last iteration also if it did not converge, and the next calculation solves for them; C255 is the proved part"
  },
  {
   "property": "C257",
   "status": "proved",
   "theorems": [
    "C257_results",
    "C257_foreign",
    "C257_incomplete",
    "C257_specifications"
   ],
   "note": "rows and flags of specification, the numbers in the rows are C250"
  },
  {
   "property": "C258",
   "status": "partial",
   "theorems": [
    "C258_report_partial",
    "C258_listed_refuted",
    "C258_written_refuted",
    "C258_written_always",
    "C258_figures_refuted"
   ],
   "note": "refuted: rows of specifications stay when a component is removed, so the report lists it or raises AttributeError; nan counts as true, so every component of the class has the figure of a characteristic one of them uses; partial: without removals, figures for at least the specified characteristics"
  },
  {
   "property": "C259",
   "status": "proved",
   "theorems": [
    "C259_printed"
   ],
   "note": "the order of rows with equal exergy destruction is not promised by pandas and not part of the claim"
  },
  {
   "property": "C260",
   "status": "partial",
   "theorems": [
    "C260_small_refuted"
   ],
   "note": "refuted: there is no such threshold in the method"
  },
  {
   "property": "C261",
   "status": "proved",
   "theorems": [
    "C261_order",
    "C261_results",
    "C261_system"
   ],
   "note": "the solver finds the same numbers for the same system; every connection owns its mass flow container as in StateModel"
  },
  {
   "property": "C262",
   "status": "partial",
   "theorems": [
    "C262_start_refuted",
    "C262_raise_refuted"
   ],
   "note": "refuted: references are initialised in one pass over the connections, so a reference to a reference takes the old value if it comes first; C261 is the proved part"
  },
  {
   "property": "C263",
   "status": "proved",
   "theorems": [
    "C263_references",
    "C263_shared"
   ],
   "note": "names of files relative to the folder of the report (C217); networks with references of connections get no report (C216)"
  },
  {
   "property": "C264",
   "status": "proved",
   "theorems": [
    "C264_equations",
    "C264_figures"
   ],
   "note": "names of the network as the code builds labels and files from them"
  },
  {
   "property": "C265",
   "status": "partial",
   "theorems": [
    "C265_totals_refuted",
    "C265_spaces_refuted",
    "C265_busses_refuted",
    "C265_equation_refuted"
   ],
   "note": "refuted: equations of totals of busses share a label, spaces become underscores in file names, characteristics of busses are named by component, lines and maps of equations share labels; C264 is the proved part"
  },
  {
   "property": "C266",
   "status": "proved",
   "theorems": [
    "C266_units",
    "C266_apart"
   ],
   "note": "the unit of temperature differences is the one of temperatures; results by connection and property, exceptions of set_attr are caught by the user"
  },
  {
   "property": "C267",
   "status": "partial",
   "theorems": [
    "C267_changed_refuted",
    "C267_file_refuted",
    "C267_percent_refuted",
    "C267_ampersand_refuted",
    "C267_label_refuted",
    "C267_row_partial",
    "C267_header_partial"
   ],
   "note": "refuted: units changed after the calculation appear in the header, connections keep the units of a file of starting values while the header names those of the network, percent signs of units and labels start a comment and ampersands of labels add columns since nothing but underscores is escaped; proved: rows of labels without backslash, percent sign and ampersand, headers with other supported units"
  },
  {
   "property": "C268",
   "status": "proved",
   "theorems": [
    "C268_ambient",
    "C268_units"
   ],
   "note": "increments of the solver are arbitrary; exceptions of set_attr are caught by the user"
  },
  {
   "property": "C269",
   "status": "partial",
   "theorems": [
    "C269_variable_refuted",
    "C269_constant_always"
   ],
   "note": "refuted: the SI value is set before the first iteration only and increments go to the other value; the derivative is left out as well; proved: the ambient temperature is the same in all iterations"
  },
  {
   "property": "C270",
   "status": "proved",
   "theorems": [
    "C270_composition",
    "C270_outlet",
    "C270_inlets",
    "C270_fuel"
   ],
   "note": "one check of one chamber; the name of each gas is unique and inlets and outlet have compositions and mass flows of their own"
  },
  {
   "property": "C271",
   "status": "partial",
   "theorems": [
    "C271_order_refuted",
    "C271_order_always",
    "C271_range_refuted"
   ],
   "note": "refuted: the search for the fuel forgets a fuel found at the first inlet, and the division by the sum moves fractions out of the range"
  },
  {
   "property": "C272",
   "status": "proved",
   "theorems": [
    "C272_given_is_marked",
    "C272_mass_flow",
    "C272_fluid"
   ],
   "note": "one group of fluids; mass flows switched between design and offdesign mode are not considered; flags of other properties are those in force when the tables are written"
  },
  {
   "property": "C273",
   "status": "partial",
   "theorems": [
    "C273_mass_flow_refuted",
    "C273_fluid_refuted"
   ],
   "note": "refuted: mass flow and composition are looked up while their containers are shared in the branch, so all connections of a branch are marked, also fluids that are completed automatically"
  },
  {
   "property": "C274",
   "status": "proved",
   "theorems": [
    "C274_first_connection",
    "C274_values_stay"
   ],
   "note": "one group of fluids; compositions of new connections are stored separately"
  },
  {
   "property": "C275",
   "status": "partial",
   "theorems": [
    "C275_other_connection_refuted",
    "C275_later_refuted",
    "C275_later_always",
    "C275_new_fluid_refuted"
   ],
   "note": "refuted: only the container of the first connection of a branch is used, values of an earlier calculation have priority, and the list of fluids is made of val where val0 is meant (network.py 937)"
  }
 ]
}
