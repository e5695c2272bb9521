(** C174: what solved equations of specified values mean; C70: temperature references. *)
From Coq Require Import Reals List String Bool Arith Lra.
From Verif Require Import Base EqnModel EqnSpec EqnProofs EqnProofs5.
Import ListNotations.
Open Scope R_scope.

(** C174 – pr is outlet over inlet pressure. *)
Theorem C174_pressure_ratio : forall inl outl pr inc outc i o e,
  nth_error inl inc = Some i -> nth_error outl outc = Some o -> vp e i <> 0 ->
  (pr_func inl outl pr inc outc e = Ok 0 <-> vp e o / vp e i = pval e pr).
Proof. exact solved_pr. Qed.
Print Assumptions C174_pressure_ratio.

(** C174 – dp is lost from inlet to outlet. *)
Theorem C174_pressure_drop : forall i o dp e,
  dp_func i o dp e = 0 <-> vp e o = vp e i - dp.
Proof. exact solved_dp. Qed.
Print Assumptions C174_pressure_drop.

(** C174 – eta_s of pumps and compressors is isentropic over actual work. *)
Theorem C174_pump_efficiency : forall his i o eta e,
  let dh := his (vp e i) (vh e i) (vp e o) - vh e i in vh e o <> vh e i ->
  (pump_eta_func his i o eta e = 0 <-> dh / (vh e o - vh e i) = pval e eta).
Proof. exact solved_pump. Qed.
Print Assumptions C174_pump_efficiency.

(** C174 – eta_s of turbines is actual over isentropic work. *)
Theorem C174_turbine_efficiency : forall his i o eta e,
  let dh := his (vp e i) (vh e i) (vp e o) - vh e i in dh <> 0 ->
  (turbine_eta_func his i o eta e = 0 <-> (vh e o - vh e i) / dh = pval e eta).
Proof. exact solved_turbine. Qed.
Print Assumptions C174_turbine_efficiency.

(** C174 – the pressure ratio of a compressor is the one of the map times that of design. *)
Theorem C174_map_pressure : forall g prd i o e,
  vp e i <> 0 -> prd <> 0 ->
  (char_map_pr_func g prd i o e = 0 <-> (vp e o / vp e i) / prd = g (vm e i) (vp e i) (vh e i)).
Proof. exact solved_map. Qed.
Print Assumptions C174_map_pressure.

(** C174 – the pressure drop of a valve is that of its characteristic. *)
Theorem C174_valve : forall g i o e,
  dp_char_func g i o e = 0 <-> vp e i - vp e o = g (vm e i).
Proof. exact solved_valve. Qed.
Print Assumptions C174_valve.

(** C174 – a referenced value is factor times the other plus the difference. *)
Theorem C174_reference : forall q r factor delta0 e,
  ref_func q r factor delta0 e = 0 <-> e q = factor * e r + delta0.
Proof. exact solved_ref. Qed.
Print Assumptions C174_reference.

(** C174 – so for temperatures as functions of a composition. *)
Theorem C174_temperature_reference : forall Tc Tr a b f factor delta0 e,
  tref_fluid_func Tc Tr a b f factor delta0 e = 0 <-> Tc (e (QF a f)) = factor * Tr (e (QF b f)) + delta0.
Proof. exact solved_tref. Qed.
Print Assumptions C174_temperature_reference.

(** C174 – v is mass flow times specific volume. *)
Theorem C174_volume_flow : forall vol c v e,
  v_func vol c v e = 0 <-> vm e c * vol (vp e c) (vh e c) = v.
Proof. exact solved_v. Qed.
Print Assumptions C174_volume_flow.

(** C174 – references of volume flows. *)
Theorem C174_volume_reference : forall volc volr c r factor delta0 e,
  vref_func volc volr c r factor delta0 e = 0 <->
  vm e c * volc (vp e c) (vh e c) = factor * (vm e r * volr (vp e r) (vh e r)) + delta0.
Proof. exact solved_vref. Qed.
Print Assumptions C174_volume_reference.

(** C174 – the enthalpy is that of the quality. *)
Theorem C174_quality : forall hq c e,
  x_func hq c e = 0 <-> vh e c = hq (vp e c).
Proof. exact solved_x. Qed.
Print Assumptions C174_quality.

(** C174 – subcooling and saturated gas: saturation enthalpy. *)
Theorem C174_saturation : forall hs o e,
  sat_func hs o e = 0 <-> vh e o = hs (vp e o).
Proof. exact solved_sat. Qed.
Print Assumptions C174_saturation.

(** C174 – kA is the heat given off by the hot side over the mean difference. *)
Theorem C174_kA : forall td i1 o1 kA e,
  td e <> 0 -> (hx_kA_func td i1 o1 kA e = 0 <-> vm e i1 * (vh e i1 - vh e o1) / td e = kA).
Proof. exact solved_kA. Qed.
Print Assumptions C174_kA.

(** C174 – eff_cold is the change of enthalpy of the cold side over the largest possible. *)
Theorem C174_effectiveness_cold : forall hpT Tph i1 i2 o2 eff e,
  let dmax := hpT (vp e o2) (Tph (vp e i1) (vh e i1)) - vh e i2 in dmax <> 0 ->
  (hx_eff_cold_func hpT Tph i1 i2 o2 eff e = 0 <-> (vh e o2 - vh e i2) / dmax = eff).
Proof. exact solved_eff_cold. Qed.
Print Assumptions C174_effectiveness_cold.

(** C174 – eff_hot is the change of enthalpy of the hot side over the largest possible. *)
Theorem C174_effectiveness_hot : forall hpT Tph i1 i2 o1 eff e,
  let dmax := hpT (vp e o1) (Tph (vp e i2) (vh e i2)) - vh e i1 in dmax <> 0 ->
  (hx_eff_hot_func hpT Tph i1 i2 o1 eff e = 0 <-> (vh e o1 - vh e i1) / dmax = eff).
Proof. exact solved_eff_hot. Qed.
Print Assumptions C174_effectiveness_hot.

(** C174 – fluid_balance: fractions add up to one. *)
Theorem C174_fractions : forall a fixed vars e,
  fluid_balance_func a fixed vars e = 0 <-> fold_right Rplus 0 (map (fun f => e (QF a f)) (fixed ++ vars)) = 1.
Proof. exact solved_fractions. Qed.
Print Assumptions C174_fractions.

(** C174 – eta of fuel cells is power over chemical power. *)
Theorem C174_fuel_cell : forall e0 hc P eta e,
  vm e hc * e0 <> 0 -> (fuel_cell_eta_func e0 hc P eta e = 0 <-> pval e P / (vm e hc * e0) = pval e eta).
Proof. exact solved_fuel_cell. Qed.
Print Assumptions C174_fuel_cell.

(** C174 – eta of electrolyzers is chemical power over power. *)
Theorem C174_electrolyzer : forall e0 hc P eta e,
  pval e P <> 0 -> (electrolyzer_eta_func e0 hc P eta e = 0 <-> vm e hc * e0 / pval e P = pval e eta).
Proof. exact solved_electrolyzer. Qed.
Print Assumptions C174_electrolyzer.

(** C174 – e is power per mass flow of hydrogen. *)
Theorem C174_specific_energy : forall hc P en e,
  vm e hc <> 0 -> (spec_energy_func hc P en e = 0 <-> pval e P / vm e hc = pval e en).
Proof. exact solved_energy. Qed.
Print Assumptions C174_specific_energy.

(** A turbine from 3000 to 2200, isentropic 2000: efficiency 0.8. *)
Example C174_ex : let e := fun q => match q with QH 0 => 3000 | QH _ => 2200 | _ => 0 end in
  turbine_eta_func (fun _ _ _ => 2000) (Conn 0 0 0 []) (Conn 1 0 0 []) (PVal (8 / 10)) e = 0 /\ pump_eta_func (fun _ _ _ => 2000) (Conn 0 0 0 []) (Conn 1 0 0 []) (PVal (8 / 10)) e <> 0.
Proof. cbv. split; lra. Qed.
(** A reference of twice the other less one. *)
Example C174_reference_ex : ref_func (QP 0) (QP 1) 2 (-1) (fun q => match q with QP 0 => 5 | _ => 3 end) = 0.
Proof. cbv. lra. Qed.

(** C70 – temperature references: both entries are right for factor one or a temperature that does not depend on the fraction. *)
Theorem C70_temperature_reference_partial : forall isv filt Tc Tr dTc dTr a b f factor delta0 e,
  a <> b -> isv (QF a f) = true -> isv (QF b f) = true -> filt (QF b f) = false ->
  derivable_pt_lim Tc (e (QF a f)) (dTc (e (QF a f))) -> derivable_pt_lim Tr (e (QF b f)) (dTr (e (QF b f))) -> (factor = 1 \/ dTr (e (QF b f)) = 0) ->
  partial_is (tref_fluid_func Tc Tr a b f factor delta0) e (QF a f) (entry (tref_fluid_writes isv filt dTc dTr a b f e) (QF a f)) /\
  partial_is (tref_fluid_func Tc Tr a b f factor delta0) e (QF b f) (entry (tref_fluid_writes isv filt dTc dTr a b f e) (QF b f)).
Proof. exact tref_entry. Qed.
Print Assumptions C70_temperature_reference_partial.

(** C70 – after a negligible increment the entry of the referenced composition is left out. *)
Theorem C70_temperature_filtered_partial : forall isv filt dTc dTr a b f e,
  a <> b -> isv (QF b f) = true -> filt (QF b f) = true ->
  run_writes empty_row (tref_fluid_writes isv filt dTc dTr a b f e) (QF b f) = None.
Proof. exact tref_filtered. Qed.
Print Assumptions C70_temperature_filtered_partial.
