(** Jacobian rows against their residuals: C189. *)
From Coq Require Import Reals List String Bool Lra.
From Verif Require Import Base ReportModel SolarModel ConeModel EqnModel JacModel EqnSpec JacSpec JacWitness JacProofs JacProofs2 JacProofs3.
Import ListNotations.
Open Scope R_scope.

(** C189 – pressure loss by zeta: every unknown mass flow, pressure, enthalpy and parameter has an entry that is the derivative or the difference quotient, or does not occur. *)
Theorem C189_zeta : forall isv filt P ds i o zeta e, has_column isv zeta ->
  row_matches no_fraction isv filt ds (zeta_func P i o zeta) (zeta_deriv isv filt P ds i o zeta e) e.
Proof. exact zeta_matches. Qed.
Print Assumptions C189_zeta.

(** C189 – pressure loss by Darcy-Weisbach: every unknown mass flow, pressure, enthalpy and parameter has an entry that is the derivative or the difference quotient, or does not occur. *)
Theorem C189_darcy : forall isv filt P ds i o L D ks e,
  has_column isv L -> has_column isv D -> has_column isv ks ->
  row_matches no_fraction isv filt ds (darcy_func P i o L D ks) (darcy_deriv isv filt P ds i o L D ks e) e.
Proof. exact darcy_matches. Qed.
Print Assumptions C189_darcy.

(** C189 – pressure loss by Hazen-Williams: every unknown mass flow, pressure, enthalpy and parameter has an entry that is the derivative or the difference quotient, or does not occur. *)
Theorem C189_hw : forall isv filt P ds i o L D ks e,
  has_column isv L -> has_column isv D -> has_column isv ks ->
  row_matches no_fraction isv filt ds (hw_func P i o L D ks) (hw_deriv isv filt P ds i o L D ks e) e.
Proof. exact hw_matches. Qed.
Print Assumptions C189_hw.

(** C189 – upper temperature difference of heat exchangers: every unknown mass flow, pressure, enthalpy and parameter has an entry that is the derivative or the difference quotient, or does not occur. *)
Theorem C189_ttd_u : forall isv filt P ds i1 o2 t e, fixed t ->
  row_matches no_fraction isv filt ds (ttd_u_func P i1 o2 t) (ttd_u_deriv isv filt P i1 o2 t e) e.
Proof. exact ttd_u_matches. Qed.
Print Assumptions C189_ttd_u.

(** C189 – upper temperature difference of condensers: every unknown mass flow, pressure, enthalpy and parameter has an entry that is the derivative or the difference quotient, or does not occur. *)
Theorem C189_cond_ttd_u : forall isv filt P ds i1 o2 t e, fixed t ->
  row_matches no_fraction isv filt ds (cond_ttd_u_func P i1 o2 t) (cond_ttd_u_deriv isv filt P i1 o2 t e) e.
Proof. exact cond_ttd_u_matches. Qed.
Print Assumptions C189_cond_ttd_u.

(** C189 – lower temperature difference: every unknown mass flow, pressure, enthalpy and parameter has an entry that is the derivative or the difference quotient, or does not occur. *)
Theorem C189_ttd_l : forall isv filt P ds i2 o1 t e, fixed t ->
  row_matches no_fraction isv filt ds (ttd_l_func P i2 o1 t) (ttd_l_deriv isv filt P i2 o1 t e) e.
Proof. exact ttd_l_matches. Qed.
Print Assumptions C189_ttd_l.

(** C189 – minimal temperature difference: every unknown mass flow, pressure, enthalpy and parameter has an entry that is the derivative or the difference quotient, or does not occur. *)
Theorem C189_ttd_min : forall isv filt P ds i1 i2 o1 o2 t e, fixed t ->
  row_matches no_fraction isv filt ds (ttd_min_func P i1 i2 o1 o2 t) (ttd_min_deriv isv filt P i1 i2 o1 o2 t e) e.
Proof. exact ttd_min_matches. Qed.
Print Assumptions C189_ttd_min.

(** C189 – effectiveness of the cold side: every unknown mass flow, pressure, enthalpy and parameter has an entry that is the derivative or the difference quotient, or does not occur. *)
Theorem C189_eff_cold : forall isv filt P ds i1 i2 o2 t e, fixed t -> cid i2 <> cid i1 -> cid i2 <> cid o2 ->
  row_matches no_fraction isv filt ds (eff_cold_func P i1 i2 o2 t) (eff_cold_deriv isv filt P i1 i2 o2 t e) e.
Proof. exact eff_cold_matches. Qed.
Print Assumptions C189_eff_cold.

(** C189 – effectiveness of the hot side: every unknown mass flow, pressure, enthalpy and parameter has an entry that is the derivative or the difference quotient, or does not occur. *)
Theorem C189_eff_hot : forall isv filt P ds i1 i2 o1 t e, fixed t -> cid i1 <> cid i2 -> cid i1 <> cid o1 ->
  row_matches no_fraction isv filt ds (eff_hot_func P i1 i2 o1 t) (eff_hot_deriv isv filt P i1 i2 o1 t e) e.
Proof. exact eff_hot_matches. Qed.
Print Assumptions C189_eff_hot.

(** C189 – maximal effectiveness: every unknown mass flow, pressure, enthalpy and parameter has an entry that is the derivative or the difference quotient, or does not occur. *)
Theorem C189_eff_max : forall isv filt P ds i1 i2 o1 o2 t e, fixed t ->
  row_matches no_fraction isv filt ds (eff_max_func P i1 i2 o1 o2 t) (eff_max_deriv isv filt P i1 i2 o1 o2 t e) e.
Proof. exact eff_max_matches. Qed.
Print Assumptions C189_eff_max.

(** C189 – heat transfer coefficient of heat exchangers: every unknown mass flow, pressure, enthalpy and parameter has an entry that is the derivative or the difference quotient, or does not occur. *)
Theorem C189_kA : forall isv filt P ds i1 i2 o1 o2 kA e, fixed kA ->
  row_matches no_fraction isv filt ds (kA_func P i1 i2 o1 o2 kA) (kA_deriv isv P i1 i2 o1 o2 kA e) e.
Proof. exact kA_matches. Qed.
Print Assumptions C189_kA.

(** C189 – characteristics of heat exchangers: every unknown mass flow, pressure, enthalpy and parameter has an entry that is the derivative or the difference quotient, or does not occur. *)
Theorem C189_kA_char : forall isv filt P ds i1 i2 o1 o2 k1 k2 d1 d2 kA e, cm o1 = cm i1 -> cm o2 = cm i2 ->
  row_matches no_fraction isv filt ds (kA_char_func P i1 i2 o1 o2 k1 k2 d1 d2 kA)
    (kA_char_deriv isv P i1 i2 o1 o2 k1 k2 d1 d2 kA e) e.
Proof. exact kA_char_matches. Qed.
Print Assumptions C189_kA_char.

(** C189 – heat transfer coefficient of condensers: every unknown mass flow, pressure, enthalpy and parameter has an entry that is the derivative or the difference quotient, or does not occur. *)
Theorem C189_cond_kA : forall isv filt P ds b1 b2 b3 b4 i1 i2 o1 o2 kA e, fixed kA ->
  row_matches no_fraction isv filt ds (cond_kA_func P b1 b2 b3 b4 i1 i2 o1 o2 kA)
    (cond_kA_deriv isv P b1 b2 b3 b4 i1 i2 o1 o2 kA e) e.
Proof. exact cond_kA_matches. Qed.
Print Assumptions C189_cond_kA.

(** C189 – characteristics of condensers: every unknown mass flow, pressure, enthalpy and parameter has an entry that is the derivative or the difference quotient, or does not occur. *)
Theorem C189_cond_kA_char : forall isv filt P ds b1 b2 b3 b4 i1 i2 o1 o2 k1 k2 d1 d2 kA e, cm o1 = cm i1 -> cm o2 = cm i2 ->
  row_matches no_fraction isv filt ds (cond_kA_char_func P b1 b2 b3 b4 i1 i2 o1 o2 k1 k2 d1 d2 kA)
    (cond_kA_char_deriv isv P b1 b2 b3 b4 i1 i2 o1 o2 k1 k2 d1 d2 kA e) e.
Proof. exact cond_kA_char_matches. Qed.
Print Assumptions C189_cond_kA_char.

(** C189 – heat transfer coefficient of simple heat exchangers: every unknown mass flow, pressure, enthalpy and parameter has an entry that is the derivative or the difference quotient, or does not occur. *)
Theorem C189_kA_group : forall isv filt P ds i o kA Tamb e, has_column isv kA ->
  row_matches no_fraction isv filt ds (kA_group_func P i o kA Tamb) (kA_group_deriv isv filt P ds i o kA Tamb e) e.
Proof. exact kA_group_matches. Qed.
Print Assumptions C189_kA_group.

(** C189 – characteristic of simple heat exchangers: every unknown mass flow, pressure, enthalpy and parameter has an entry that is the derivative or the difference quotient, or does not occur. *)
Theorem C189_kA_char_group : forall isv filt P ds i o k d kA Tamb e, cm o = cm i ->
  row_matches no_fraction isv filt ds (kA_char_group_func P i o k d kA Tamb)
    (kA_char_group_deriv isv filt P i o k d kA Tamb e) e.
Proof. exact kA_char_group_matches. Qed.
Print Assumptions C189_kA_char_group.

(** C189 – solar collector: every unknown mass flow, pressure, enthalpy and parameter has an entry that is the derivative or the difference quotient, or does not occur. *)
Theorem C189_solar : forall isv filt P ds i o E eta lin quad A Tamb e,
  has_column isv E -> has_column isv eta -> has_column isv lin -> has_column isv quad -> has_column isv A ->
  row_matches no_fraction isv filt ds (solar_func P i o E eta lin quad A Tamb)
    (solar_deriv isv filt P ds i o E eta lin quad A Tamb e) e.
Proof. exact solar_matches. Qed.
Print Assumptions C189_solar.

(** C189 – parabolic trough: every unknown mass flow, pressure, enthalpy and parameter has an entry that is the derivative or the difference quotient, or does not occur. *)
Theorem C189_trough : forall isv filt P ds i o E eta aoi doc c1 c2 iam1 iam2 A Tamb e,
  has_column isv E -> has_column isv eta -> has_column isv aoi -> has_column isv doc ->
  has_column isv c1 -> has_column isv c2 -> has_column isv iam1 -> has_column isv iam2 -> has_column isv A ->
  row_matches no_fraction isv filt ds (trough_func P i o E eta aoi doc c1 c2 iam1 iam2 A Tamb)
    (trough_deriv isv filt P ds i o E eta aoi doc c1 c2 iam1 iam2 A Tamb e) e.
Proof. exact trough_matches. Qed.
Print Assumptions C189_trough.

(** C189 – characteristic of the valve for mass flow and volumetric flow: every unknown mass flow, pressure, enthalpy and parameter has an entry that is the derivative or the difference quotient, or does not occur. *)
Theorem C189_valve : forall isv filt P ds i o k d e, k_param k <> Cpr -> cm o = cm i -> cid i <> cid o ->
  row_matches no_fraction isv filt ds (valve_func P i o k d) (valve_deriv isv filt P i o k d e) e.
Proof. exact valve_matches. Qed.
Print Assumptions C189_valve.

(** C189 – isentropic efficiency of pump and compressor: every unknown mass flow, pressure, enthalpy and parameter has an entry that is the derivative or the difference quotient, or does not occur. *)
Theorem C189_pump : forall isv filt P ds i o eta e, fixed eta -> cid i <> cid o ->
  row_matches no_fraction isv filt ds (pump_func P i o eta) (pump_deriv isv filt P i o eta e) e.
Proof. exact pump_matches. Qed.
Print Assumptions C189_pump.

(** C189 – isentropic efficiency of the turbine: every unknown mass flow, pressure, enthalpy and parameter has an entry that is the derivative or the difference quotient, or does not occur. *)
Theorem C189_turbine : forall isv filt P ds i o eta e, fixed eta -> cid i <> cid o ->
  row_matches no_fraction isv filt ds (turbine_func P i o eta) (turbine_deriv isv filt P i o eta e) e.
Proof. exact turbine_matches. Qed.
Print Assumptions C189_turbine.

(** C189 – efficiency characteristic of pump and compressor: every unknown mass flow, pressure, enthalpy and parameter has an entry that is the derivative or the difference quotient, or does not occur. *)
Theorem C189_pump_char : forall isv filt P ds i o k d eta e, cm o = cm i ->
  row_matches no_fraction isv filt ds (pump_char_func P i o k d eta) (pump_char_deriv isv filt P i o k d eta e) e.
Proof. exact pump_char_matches. Qed.
Print Assumptions C189_pump_char.

(** C189 – efficiency characteristic of the turbine: every unknown mass flow, pressure, enthalpy and parameter has an entry that is the derivative or the difference quotient, or does not occur. *)
Theorem C189_turbine_char : forall isv filt P ds i o k d eta e, cm o = cm i ->
  row_matches no_fraction isv filt ds (turbine_char_func P i o k d eta) (turbine_char_deriv isv filt P i o k d eta e) e.
Proof. exact turbine_char_matches. Qed.
Print Assumptions C189_turbine_char.

(** C189 – pressure rise characteristic of the pump: every unknown mass flow, pressure, enthalpy and parameter has an entry that is the derivative or the difference quotient, or does not occur. *)
Theorem C189_pump_flow : forall isv filt P ds i o k d e, cm o = cm i ->
  row_matches no_fraction isv filt ds (pump_flow_func P i o k d) (pump_flow_deriv isv filt P i o k d e) e.
Proof. exact pump_flow_matches. Qed.
Print Assumptions C189_pump_flow.

(** C189 – compressor map, pressure ratio: every unknown mass flow, pressure, enthalpy and parameter has an entry that is the derivative or the difference quotient, or does not occur. *)
Theorem C189_map_pr : forall isv filt P ds g Td pd md prd i o igva e, has_column isv igva -> cid i <> cid o ->
  row_matches no_fraction isv filt ds (map_pr_func P g Td pd md prd i o igva)
    (map_pr_deriv isv filt P ds g Td pd md prd i o igva e) e.
Proof. exact map_pr_matches. Qed.
Print Assumptions C189_map_pr.

(** C189 – compressor map, efficiency: every unknown mass flow, pressure, enthalpy and parameter has an entry that is the derivative or the difference quotient, or does not occur. *)
Theorem C189_map_eta : forall isv filt P ds g Td pd md eta i o igva e, has_column isv igva ->
  row_matches no_fraction isv filt ds (map_eta_func P g Td pd md eta i o igva)
    (map_eta_deriv isv filt P ds g Td pd md eta i o igva e) e.
Proof. exact map_eta_matches. Qed.
Print Assumptions C189_map_eta.

(** C189 – cone law of the turbine: every unknown mass flow, pressure, enthalpy and parameter has an entry that is the derivative or the difference quotient, or does not occur. *)
Theorem C189_cone : forall isv filt P ds d i o e,
  row_matches no_fraction isv filt ds (cone_residual P d i o) (cone_deriv isv filt P d i o e) e.
Proof. exact cone_matches. Qed.
Print Assumptions C189_cone.

(** C189 – steam turbine, wet expansion: every unknown mass flow, pressure, enthalpy and parameter has an entry that is the derivative or the difference quotient, or does not occur. *)
Theorem C189_wet : forall isv filt ds w i o eta alpha e, fixed eta -> fixed alpha ->
  row_matches no_fraction isv filt ds (wet_func w i o eta alpha) (wet_deriv isv filt w i o eta alpha e) e.
Proof. exact wet_matches. Qed.
Print Assumptions C189_wet.

(** C189 – moving boundary heat exchanger, UA: every unknown mass flow, pressure, enthalpy and parameter has an entry that is the derivative or the difference quotient, or does not occur. *)
Theorem C189_UA : forall isv filt ds g l t e, fixed t ->
  row_matches no_fraction isv filt ds (mb_func g l t) (UA_deriv isv g l t e) e.
Proof. exact UA_matches. Qed.
Print Assumptions C189_UA.

(** C189 – moving boundary heat exchanger, pinch: every unknown mass flow, pressure, enthalpy and parameter has an entry that is the derivative or the difference quotient, or does not occur. *)
Theorem C189_td_pinch : forall isv filt ds g l t e, fixed t ->
  row_matches no_fraction isv filt ds (mb_func g l t) (td_pinch_deriv isv filt g l t e) e.
Proof. exact td_pinch_matches. Qed.
Print Assumptions C189_td_pinch.

(** C189 – heat of the fuel cell: every unknown has an entry that is the derivative or the difference quotient, or does not occur. *)
Theorem C189_fc_heat : forall isv filt ds i o Q e, fixed Q -> cid i <> cid o ->
  row_matches any isv filt ds (fc_heat_func i o Q) (heat_deriv isv i o e) e.
Proof. exact fc_heat_matches. Qed.
Print Assumptions C189_fc_heat.

(** C189 – heat of the electrolyser: every unknown has an entry that is the derivative or the difference quotient, or does not occur. *)
Theorem C189_el_heat : forall isv filt ds i o Q e, fixed Q -> cid i <> cid o ->
  row_matches any isv filt ds (el_heat_func i o Q) (heat_deriv isv i o e) e.
Proof. exact el_heat_matches. Qed.
Print Assumptions C189_el_heat.

(** C189 – pressures of the electrolyser: every unknown has an entry that is the derivative or the difference quotient, or does not occur. *)
Theorem C189_el_pressure : forall isv filt ds i o e, cid i <> cid o ->
  row_matches any isv filt ds (reactor_p_func i o) (el_pressure_deriv isv i o) e.
Proof. exact el_pressure_matches. Qed.
Print Assumptions C189_el_pressure.

(** C189 – pressures of the fuel cell: every unknown has an entry that is the derivative or the difference quotient, or does not occur. *)
Theorem C189_fc_pressure : forall isv filt ds o i e, cid i <> cid o ->
  row_matches any isv filt ds (reactor_p_func o i) (fc_pressure_deriv isv o i) e.
Proof. exact fc_pressure_matches. Qed.
Print Assumptions C189_fc_pressure.

(** C189 – equal temperatures of the gases of the electrolyser: every unknown mass flow, pressure, enthalpy and parameter has an entry that is the derivative or the difference quotient, or does not occur. *)
Theorem C189_gas_T : forall isv filt P ds o1 o2 e, cid o1 <> cid o2 ->
  row_matches no_fraction isv filt ds (gas_T_func P o1 o2) (gas_T_deriv isv filt P o1 o2 e) e.
Proof. exact gas_T_matches. Qed.
Print Assumptions C189_gas_T.

(** C189 – efficiency characteristic of the electrolyser over the hydrogen mass flow: every unknown has an entry that is the derivative or the difference quotient, or does not occur. *)
Theorem C189_el_char : forall isv filt P ds i0 o2 k d e0 eta Pw e, k_param k = Cmout -> has_column isv Pw ->
  row_matches any isv filt ds (el_char_func P i0 o2 k d e0 eta Pw) (el_char_deriv isv P i0 o2 k d e0 eta Pw e) e.
Proof. exact el_char_matches. Qed.
Print Assumptions C189_el_char.

(** C189 – pressures of combustion chambers: every unknown has an entry that is the derivative or the difference quotient, or does not occur. *)
Theorem C189_comb_pressure : forall isv filt ds i o e, cid i <> cid o ->
  row_matches any isv filt ds (reactor_p_func i o) (comb_pressure_deriv isv i o) e.
Proof. exact comb_pressure_matches. Qed.
Print Assumptions C189_comb_pressure.

(** C189 – mass balance of combustion chambers: every unknown has an entry that is the derivative or the difference quotient, or does not occur. *)
Theorem C189_comb_mass : forall isv filt ds i1 i2 o e, cm i1 <> cm i2 -> cm i1 <> cm o -> cm i2 <> cm o ->
  row_matches any isv filt ds (comb_mass_func i1 i2 o) (comb_mass_deriv isv i1 i2 o) e.
Proof. exact comb_mass_matches. Qed.
Print Assumptions C189_comb_mass.

(** C189 – stoichiometry of combustion, any fluid: every unknown has an entry that is the derivative or the difference quotient, or does not occur. *)
Theorem C189_stoich : forall isv filt ds s l fl e, inner_fractions e l ->
  row_matches any isv filt ds (stoich_func s l fl) (stoich_deriv isv filt s l fl e) e.
Proof. exact stoich_matches. Qed.
Print Assumptions C189_stoich.

(** C189 – air to fuel ratio: every unknown has an entry that is the derivative or the difference quotient, or does not occur. *)
Theorem C189_lambda : forall isv filt ds M nH nC fuels o2 inl lamb e, fixed lamb ->
  inner_fractions e inl -> (forall c, In c inl -> incl (o2 :: fuels) (ckeys c)) ->
  row_matches any isv filt ds (lambda_func M nH nC fuels o2 inl lamb)
    (lambda_deriv isv filt M nH nC fuels o2 inl lamb e) e.
Proof. exact lambda_matches. Qed.
Print Assumptions C189_lambda.

(** C189 – energy balance of combustion chambers: every unknown mass flow, pressure, enthalpy and parameter has an entry that is the derivative or the difference quotient, or does not occur. *)
Theorem C189_comb : forall isv filt P ds lhv fuels i1 i2 o eta e, fixed eta ->
  cid i1 <> cid i2 -> cid i1 <> cid o -> cid i2 <> cid o ->
  row_matches no_fraction isv filt ds (comb_energy P lhv fuels [i1; i2] [o] eta)
    (comb_energy_deriv isv filt P lhv fuels [i1; i2] o eta e) e.
Proof. exact comb_matches. Qed.
Print Assumptions C189_comb.

(** C189 – energy balance of the combustion engine: every unknown mass flow, pressure, enthalpy and parameter has an entry that is the derivative or the difference quotient, or does not occur. *)
Theorem C189_engine : forall isv filt P ds lhv fuels i1 i2 o1 o2 i3 i4 o Pw Ql e,
  has_column isv Pw -> has_column isv Ql -> (forall v, Pw = PVar v -> Ql <> PVar v) ->
  cm o1 = cm i1 -> cm o2 = cm i2 -> NoDup [cm i1; cm i2; cm i3; cm i4; cm o] ->
  NoDup [cid i1; cid i2; cid i3; cid i4; cid o1; cid o2; cid o] ->
  row_matches no_fraction isv filt ds (engine_energy P lhv fuels i1 i2 o1 o2 [i3; i4] o Pw Ql)
    (engine_energy_deriv isv filt P lhv fuels i1 i2 o1 o2 [i3; i4] o Pw Ql e) e.
Proof. exact engine_matches. Qed.
Print Assumptions C189_engine.

(** C189 – heat of the cooling loops: every unknown has an entry that is the derivative or the difference quotient, or does not occur. *)
Theorem C189_engine_Q : forall isv filt ds i o Q e, fixed Q -> cid i <> cid o ->
  row_matches any isv filt ds (engine_Q_func i o Q) (engine_Q_deriv isv filt i o e) e.
Proof. exact engine_Q_matches. Qed.
Print Assumptions C189_engine_Q.

(** C189 – power characteristic of the engine: every unknown has an entry that is the derivative or the difference quotient, or does not occur. *)
Theorem C189_tiP : forall isv filt ds lhv fuels inl o Pd gP Pw e, has_column isv Pw ->
  inner_of fuels e (inl ++ [o]) ->
  row_matches any isv filt ds (tiP_func lhv fuels inl o Pd gP Pw)
    (tiP_deriv isv filt ds lhv fuels inl o Pd gP Pw e) e.
Proof. exact tiP_matches. Qed.
Print Assumptions C189_tiP.

(** C189 – heat characteristics of the engine: every unknown has an entry that is the derivative or the difference quotient, or does not occur. *)
Theorem C189_Qchar : forall isv filt ds lhv fuels iw ow inl o Pd gQ gP Pw e, has_column isv Pw ->
  inner_of fuels e (inl ++ [o]) ->
  row_matches any isv filt ds (Qchar_func lhv fuels iw ow inl o Pd gQ gP Pw)
    (Qchar_deriv isv filt ds lhv fuels iw ow inl o Pd gQ gP Pw e) e.
Proof. exact Qchar_matches. Qed.
Print Assumptions C189_Qchar.

(** C189 – loss characteristic of the engine: every unknown has an entry that is the derivative or the difference quotient, or does not occur. *)
Theorem C189_Qloss : forall isv filt ds lhv fuels inl o Pd gQ gP Pw Ql e, has_column isv Pw -> has_column isv Ql ->
  inner_of fuels e (inl ++ [o]) ->
  row_matches any isv filt ds (Qloss_func lhv fuels inl o Pd gQ gP Pw Ql)
    (Qloss_deriv isv filt ds lhv fuels inl o Pd gQ gP Pw Ql e) e.
Proof. exact Qloss_matches. Qed.
Print Assumptions C189_Qloss.

(** C189 – temperature of a connection: every unknown has an entry that is the derivative or the difference quotient, or does not occur. *)
Theorem C189_T : forall isv filt P ds c T e,
  row_matches any isv filt ds (T_func P c T) (T_deriv isv P c e) e.
Proof. exact T_matches. Qed.
Print Assumptions C189_T.

(** C189 – volumetric flow of a connection: every unknown mass flow, pressure, enthalpy and parameter has an entry that is the derivative or the difference quotient, or does not occur. *)
Theorem C189_vol : forall isv filt P ds c v e,
  row_matches no_fraction isv filt ds (vol_func P c v) (vol_deriv isv P c e) e.
Proof. exact vol_matches. Qed.
Print Assumptions C189_vol.

(** C189 – temperature difference to saturation: the entry for pressure is the difference of the quotients of temperature and saturation temperature. *)
Theorem C189_superheating : forall isv P c t e,
  isv (QP (cid c)) = true -> isv (QH (cid c)) = true ->
  run_writes empty_row (Td_deriv isv P c e) (QP (cid c))
    = Some (quotient_at (1 / 10) (fun e => cT P e c) e (QP (cid c))
            - quotient_at (1 / 100) (fun e => cTs P e c) e (QP (cid c))) /\
  run_writes empty_row (Td_deriv isv P c e) (QH (cid c)) = Some (quotient_at (1 / 10) (Td_func P c t) e (QH (cid c))) /\
  (forall q, no_fraction q -> isv q = true -> run_writes empty_row (Td_deriv isv P c e) q = None ->
     independent (Td_func P c t) e q).
Proof. exact Td_row. Qed.
Print Assumptions C189_superheating.

Example C189_ex : forall g,
  run_writes empty_row (map_pr_deriv all_unknown nothing_skipped wP ds0 g 300 1 1 3 wi wo (PVar 0) we) (QP 1) = Some (1 / 2)
  /\ run_writes empty_row (zeta_deriv (fun q => match q with QH _ => false | _ => true end) nothing_skipped wP ds0 wi wo (PVar 0) we) (QH 0) = None
  /\ run_writes empty_row (ttd_u_deriv all_unknown nothing_skipped wP wi wo2 (PVal 5) we) (QP 0) = Some (quotient ds0 (ttd_u_func wP wi wo2 (PVal 5)) we (QP 0))
  /\ quotient ds0 (ttd_u_func wP wi wo2 (PVal 5)) we (QP 0) = -1
  /\ has_column all_unknown (PVar 0) /\ fixed (PVal 5) /\ cid wi <> cid wo /\ cm wo = cm wi
  /\ inner_fractions we [wi; wi2] /\ NoDup [cid wi; cid wo; cid wi2; cid wo2].
Proof.
  intros g. split; [reflexivity|]. split; [reflexivity|]. split; [reflexivity|].
  split; [unfold quotient, ttd_u_func, ttd_u_eq, cT, xs, vx, vp, we; cbn; field|].
  split; [reflexivity|]. split; [exact I|]. split; [discriminate|]. split; [reflexivity|]. split.
  - intros c f H1 H2. unfold vx, we. lra.
  - repeat constructor; cbn; intuition discriminate.
Qed.

