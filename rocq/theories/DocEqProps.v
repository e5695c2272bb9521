(** C233, C234: printed equations of connections, nodes, heat exchangers, turbomachines and
    reactors against the equations solved. *)
From Coq Require Import Reals List String Bool Lra.
From Verif Require Import Base EqnModel DocEqModel DocEqProofs DocEqProofs3.
From Verif Require ReportModel JacModel SolarModel ConeModel.
Import ListNotations.
Open Scope R_scope.

(** C233 – printed and solved agree: mass balance of nodes. *)
Theorem C233_node_mass : forall inl outl e, d_mass (map (vm e) inl) (map (vm e) outl) <-> node_mass_func inl outl e = 0.
Proof. exact node_mass. Qed.
Print Assumptions C233_node_mass.

(** C233 – printed and solved agree: pressures at nodes. *)
Theorem C233_node_pressure : forall i0 ins outs e,
  d_node_pressure (vp e i0) (map (vp e) ins) (map (vp e) outs)
  <-> (forall r, In r (node_pressure_func i0 (ins ++ outs) e) -> r = 0).
Proof. exact node_pressure. Qed.
Print Assumptions C233_node_pressure.

(** C233 – printed and solved agree: species at a merge. *)
Theorem C233_merge_fluid : forall inl o f e,
  d_merge (map (fun i => (vm e i, vx e i f)) inl) (vm e o, vx e o f) <-> merge_fluid_eq inl o f e = 0.
Proof. exact merge_fluid. Qed.
Print Assumptions C233_merge_fluid.

(** C233 – printed and solved agree: energy at a merge. *)
Theorem C233_merge_energy : forall inl o e,
  d_merge (map (fun i => (vm e i, vh e i)) inl) (vm e o, vh e o) <-> merge_energy_func inl o e = 0.
Proof. exact merge_energy. Qed.
Print Assumptions C233_merge_energy.

(** C233 – printed and solved agree: energy at a droplet separator. *)
Theorem C233_droplet : forall inl outl e,
  d_droplet (map (fun i => (vm e i, vh e i)) inl) (map (fun o => (vm e o, vh e o)) outl)
  <-> droplet_energy_func inl outl e = 0.
Proof. exact droplet. Qed.
Print Assumptions C233_droplet.

(** C233 – printed and solved agree: saturated outlets of a droplet separator or drum. *)
Theorem C233_outlets : forall hs o0 o1 e,
  d_outlets hs (vp e o0) (vh e o0) (vp e o1) (vh e o1)
  <-> (forall r, In r (droplet_outlet_func hs o0 o1 e) -> r = 0).
Proof. exact outlets. Qed.
Print Assumptions C233_outlets.

(** C233 – printed and solved agree: enthalpies at a splitter. *)
Theorem C233_splitter : forall i0 outl e,
  d_split (vh e i0) (map (vh e) outl) <-> (forall r, In r (splitter_energy_func i0 outl e) -> r = 0).
Proof. exact splitter. Qed.
Print Assumptions C233_splitter.

(** C233 – printed and solved agree: temperatures at a separator. *)
Theorem C233_separator_T : forall (T : conn -> R -> R -> R) i0 outl e,
  d_split (T i0 (vp e i0) (vh e i0)) (map (fun o => T o (vp e o) (vh e o)) outl)
  <-> (forall r, In r (separator_energy_func T i0 outl e) -> r = 0).
Proof. exact separator_T. Qed.
Print Assumptions C233_separator_T.

(** C233 – printed and solved agree: equal pressures. *)
Theorem C233_pressures : forall ports e,
  d_equal (map (fun io => (vp e (fst io), vp e (snd io))) ports)
  <-> (forall r, In r (pressure_equality_func ports e) -> r = 0).
Proof. exact equal_pressures. Qed.
Print Assumptions C233_pressures.

(** C233 – printed and solved agree: equal enthalpies. *)
Theorem C233_enthalpies : forall ports e,
  d_equal (map (fun io => (vh e (fst io), vh e (snd io))) ports)
  <-> (forall r, In r (enthalpy_equality_func ports e) -> r = 0).
Proof. exact equal_enthalpies. Qed.
Print Assumptions C233_enthalpies.

(** C233 – printed and solved agree: pressure ratio. *)
Theorem C233_ratio : forall pr p_i p_o, d_pr p_i pr p_o <-> ReportModel.pr_eq pr p_i p_o = 0.
Proof. exact ratio. Qed.
Print Assumptions C233_ratio.

(** C233 – printed and solved agree: zeta, with the case of small flows. *)
Theorem C233_zeta : forall z m v_i v_o p_i p_o,
  d_zeta p_i p_o m v_i v_o z <-> ReportModel.zeta_eq z m (v_i + v_o) p_i p_o = 0.
Proof. exact zeta_printed. Qed.
Print Assumptions C233_zeta.

(** C233 – printed and solved agree: power and heat. *)
Theorem C233_power : forall P m h_i h_o, d_power m h_i h_o P <-> ReportModel.power_eq P m h_i h_o = 0.
Proof. exact power. Qed.
Print Assumptions C233_power.

(** C233 – printed and solved agree: energy balance of heat exchangers. *)
Theorem C233_hx_energy : forall i1 i2 o1 o2 e,
  d_hx_energy (vm e i1) (vh e i1) (vh e o1) (vm e i2) (vh e i2) (vh e o2) <-> hx_energy_func i1 i2 o1 o2 e = 0.
Proof. exact hx_energy. Qed.
Print Assumptions C233_hx_energy.

(** C233 – printed and solved agree: kA of heat exchangers, where the mean difference is defined. *)
Theorem C233_kA : forall kA m h_i h_o T_i1 T_i2 T_o1 T_o2,
  T_o2 < T_i1 -> T_i2 < T_o1 -> T_o1 - T_i2 <> T_i1 - T_o2 ->
  exists r, ReportModel.hx_kA_eq kA m h_i h_o T_i1 T_i2 T_o1 T_o2 = Ok r
            /\ (d_kA m h_i h_o kA T_i1 T_i2 T_o1 T_o2 <-> r = 0).
Proof. exact kA. Qed.
Print Assumptions C233_kA.

(** C233 – printed and solved agree: kA of condensers. *)
Theorem C233_kA_condenser : forall s_i1 s_i2 s_o1 s_o2 kA m h_i h_o Ts T_i2 T_o1 T_o2,
  T_o2 < Ts -> T_i2 < T_o1 -> T_o1 - T_i2 <> Ts - T_o2 ->
  exists r, ReportModel.cond_kA_eq s_i1 s_i2 s_o1 s_o2 kA m h_i h_o Ts T_i2 T_o1 T_o2 = Ok r
            /\ (d_kA m h_i h_o kA Ts T_i2 T_o1 T_o2 <-> r = 0).
Proof. exact kA_cond. Qed.
Print Assumptions C233_kA_condenser.

(** C233 – printed and solved agree: terminal temperature differences. *)
Theorem C233_ttd : forall ttd a b, (d_ttd_u ttd a b <-> ReportModel.ttd_u_eq ttd a b = 0) /\ (d_ttd_l ttd a b <-> ReportModel.ttd_l_eq ttd a b = 0).
Proof. exact ttd. Qed.
Print Assumptions C233_ttd.

(** C233 – printed and solved agree: saturated outlet of condensers and desuperheaters. *)
Theorem C233_saturation : forall hs o e, d_sat hs (vp e o) (vh e o) <-> sat_func hs o e = 0.
Proof. exact sat. Qed.
Print Assumptions C233_saturation.

(** C233 – printed and solved agree: solar collectors. *)
Theorem C233_collector : forall A E eta a1 a2 Tamb m hi ho Ti To,
  d_collector A E eta a1 a2 Tamb m hi ho Ti To <-> SolarModel.collector_eq A E eta a1 a2 Tamb m hi ho Ti To = 0.
Proof. exact collector. Qed.
Print Assumptions C233_collector.

(** C233 – printed and solved agree: parabolic troughs. *)
Theorem C233_trough : forall A E eta doc iam1 iam2 aoi c1 c2 Tamb m hi ho Ti To,
  0 < doc ->
  d_trough A E eta (Rpower doc (3 / 2)) iam1 iam2 aoi c1 c2 Tamb m hi ho Ti To
  <-> SolarModel.trough_eq A E eta doc iam1 iam2 aoi c1 c2 Tamb m hi ho Ti To = 0.
Proof. exact trough. Qed.
Print Assumptions C233_trough.

(** C233 – printed and solved agree: isentropic efficiencies. *)
Theorem C233_eta_s : forall eta h_i h_o h_s,
  (d_pump_eta eta h_i h_o h_s <-> ReportModel.pump_eta_eq eta h_i h_o h_s = 0)
  /\ (d_turbine_eta eta h_i h_o h_s <-> ReportModel.turbine_eta_eq eta h_i h_o h_s = 0).
Proof. exact eta_s. Qed.
Print Assumptions C233_eta_s.

(** C233 – printed and solved agree: efficiency, heat and specific energy of reactors. *)
Theorem C233_reactors : forall P eta m e0 e Q hi ho,
  (d_fc_eta P eta m e0 <-> ReportModel.fc_eta_eq P eta m e0 = 0)
  /\ (d_fc_heat Q m hi ho <-> ReportModel.fuel_cell_heat_eq Q m hi ho = 0)
  /\ (d_spec_energy P m e <-> ReportModel.fc_e_eq P e m = 0)
  /\ (d_el_eta P eta m e0 <-> ReportModel.el_eta_eq P eta m e0 = 0)
  /\ (d_el_heat Q m hi ho <-> ReportModel.electrolyzer_heat_eq Q m hi ho = 0)
  /\ (d_spec_energy P m e <-> ReportModel.el_e_eq P e m = 0).
Proof. exact reactor_values. Qed.
Print Assumptions C233_reactors.

(** C233 – printed and solved agree: energy balance of fuel cells. *)
Theorem C233_fc_energy : forall hw ho hh e0 i0 i1 i2 o0 o1 P e,
  d_fc_energy (pval e P) (vm e o1) (vh e o1) hw (vm e i0) (vh e o0) (vh e i0) (vm e i1) (vh e i1) ho (vm e i2) (vh e i2) hh e0
  <-> fuel_cell_energy_func hw ho hh e0 i0 i1 i2 o0 o1 P e = 0.
Proof. exact fc_energy. Qed.
Print Assumptions C233_fc_energy.

(** C233 – printed and solved agree: mass balances of electrolyzers. *)
Theorem C233_el_mass : forall (isv : qty -> bool) Mo2 Mh2 i0 i1 o0 o1 o2 e,
  isv (QM (cm i1)) = true -> cm i0 = cm o0 ->
  (d_el_mass Mo2 Mh2 (vm e i0) (vm e o0) (vm e i1) (vm e o1) (vm e o2)
   <-> forall r, In r (electrolyzer_mass_func isv Mo2 Mh2 i1 o1 o2 e) -> r = 0).
Proof. exact el_mass. Qed.
Print Assumptions C233_el_mass.

(** C233 – printed and solved agree: pressures at combustion chambers. *)
Theorem C233_pressures_comb : forall i1 i2 o e,
  d_comb_pressure (vp e i1) (vp e i2) (vp e o)
  <-> JacModel.reactor_p_func i1 o e = 0 /\ JacModel.reactor_p_func i2 o e = 0.
Proof. exact comb_pressure. Qed.
Print Assumptions C233_pressures_comb.

(** C233 – printed and solved agree: pressures at reactors. *)
Theorem C233_pressures_reactor : forall a b c e,
  (d_fc_pressure (vp e a) (vp e b) (vp e c) <-> JacModel.reactor_p_func c a e = 0 /\ JacModel.reactor_p_func c b e = 0)
  /\ (d_el_pressure (vp e a) (vp e b) (vp e c) <-> JacModel.reactor_p_func a b e = 0 /\ JacModel.reactor_p_func a c e = 0).
Proof. exact reactor_pressure. Qed.
Print Assumptions C233_pressures_reactor.

(** C233 – printed and solved agree: equal temperatures of the gases of an electrolyzer. *)
Theorem C233_gas_T : forall P o1 o2 e, d_el_T (JacModel.cT P e o1) (JacModel.cT P e o2) <-> JacModel.gas_T_func P o1 o2 e = 0.
Proof. exact gas_T. Qed.
Print Assumptions C233_gas_T.

(** C233 – printed and solved agree: efficiency characteristic of electrolyzers. *)
Theorem C233_el_char : forall P i0 o2 k d e0 eta Pw e,
  d_el_char (pval e Pw) (vm e o2) e0 eta (JacModel.char_val P k d i0 o2 e)
  <-> JacModel.el_char_func P i0 o2 k d e0 eta Pw e = 0.
Proof. exact el_char. Qed.
Print Assumptions C233_el_char.

(** C233 – printed and solved agree: temperature and volumetric flow of connections. *)
Theorem C233_connections : forall P c e t v,
  (d_T (JacModel.cT P e c) t <-> JacModel.T_func P c t e = 0)
  /\ (d_v (vm e c) (JacModel.cvol P e c) v <-> JacModel.vol_func P c v e = 0).
Proof. exact connections. Qed.
Print Assumptions C233_connections.

(** C233 – printed and solved agree: vapour quality of connections. *)
Theorem C233_quality : forall hq c e, d_x (vh e c) (hq (vp e c)) <-> x_func hq c e = 0.
Proof. exact quality. Qed.
Print Assumptions C233_quality.

(** C233 – printed and solved agree: sum of the mass fractions. *)
Theorem C233_balance : forall a fixed vars e,
  d_balance (map (fun f => e (QF a f)) (fixed ++ vars)) <-> fluid_balance_func a fixed vars e = 0.
Proof. exact balance. Qed.
Print Assumptions C233_balance.

(** C234 – a state solves the equation, the printed equation is false: species at a separator with two outlets. *)
Theorem C234_separator_refuted : exists i0 outl f e,
  separator_fluid_eq i0 outl f e = 0 /\ Forall (fun c => 0 < vm e c) (i0 :: outl)
  /\ ~ d_separator (vm e i0, vx e i0 f) (map (fun o => (vm e o, vx e o f)) outl).
Proof. exact separator_false. Qed.
Print Assumptions C234_separator_refuted.

(** C234 – when the printed equation is the one solved: one outlet. *)
Theorem C234_separator_partial : forall i0 o f e,
  d_separator (vm e i0, vx e i0 f) [(vm e o, vx e o f)] <-> separator_fluid_eq i0 [o] f e = 0.
Proof. exact separator_one. Qed.
Print Assumptions C234_separator_partial.

(** C234 – a state solves the equation, the printed equation is false: Darcy friction at small flows. *)
Theorem C234_darcy_refuted : exists lam L D e1 e2 m v1 v2 p_i p_o,
  0 < m /\ 0 < L /\ 0 < D /\ 0 < v1 /\ 0 < v2 /\ (forall re, 0 < lam re)
  /\ ReportModel.darcy_eq lam L D (e1 + e2) m (v1 + v2) p_i p_o = 0
  /\ ~ d_darcy lam L D e1 e2 m v1 v2 p_i p_o.
Proof. exact darcy_false. Qed.
Print Assumptions C234_darcy_refuted.

(** C234 – when the printed equation is the one solved: from 1e-4 kg/s on. *)
Theorem C234_darcy_partial : forall lam L D e1 e2 m v1 v2 p_i p_o, 1 / 10000 <= Rabs m ->
  (d_darcy lam L D e1 e2 m v1 v2 p_i p_o <-> ReportModel.darcy_eq lam L D (e1 + e2) m (v1 + v2) p_i p_o = 0).
Proof. exact darcy_large. Qed.
Print Assumptions C234_darcy_partial.

(** C234 – a state solves the equation, the printed equation is false: Hazen-Williams at small flows. *)
Theorem C234_hw_refuted : exists L ks D m v1 v2 p_i p_o,
  0 < m /\ 0 < L /\ 0 < ks /\ 0 < D /\ 0 < v1 /\ 0 < v2
  /\ ReportModel.hw_eq L ks D m (v1 + v2) p_i p_o = 0 /\ ~ d_hw L ks D m v1 v2 p_i p_o.
Proof. exact hw_false. Qed.
Print Assumptions C234_hw_refuted.

(** C234 – against the direction of flow no pressures solve the Hazen-Williams equation. *)
Theorem C234_hw_backward : forall L ks D m v1 v2 p_i p_o, m <= - (1 / 10000) -> 0 < L ->
  ReportModel.hw_eq L ks D m (v1 + v2) p_i p_o <> 0.
Proof. exact hw_backward. Qed.
Print Assumptions C234_hw_backward.

(** C234 – the printed one always has a solution. *)
Theorem C234_hw_backward_printed : forall L ks D m v1 v2 p_o, exists p_i, d_hw L ks D m v1 v2 p_i p_o.
Proof. exact hw_printed_backward. Qed.
Print Assumptions C234_hw_backward_printed.

(** C234 – when the printed equation is the one solved: flow and pressure drop forward. *)
Theorem C234_hw_partial : forall L ks D m v1 v2 p_i p_o, 1 / 10000 <= m -> p_o <= p_i ->
  (d_hw L ks D m v1 v2 p_i p_o <-> ReportModel.hw_eq L ks D m (v1 + v2) p_i p_o = 0).
Proof. exact hw_forward. Qed.
Print Assumptions C234_hw_partial.

(** C234 – a state solves the equation, the printed equation is false: kA of a simple heat exchanger with equal temperatures. *)
Theorem C234_simple_kA_refuted : exists kA m hi ho T_i T_o Tamb,
  0 < kA /\ 0 < m /\ Tamb < T_i /\ Tamb < T_o
  /\ ReportModel.simple_kA_eq kA m hi ho T_i T_o Tamb = Ok 0 /\ ~ d_simple_kA m hi ho kA T_i T_o Tamb.
Proof. exact simple_kA_false. Qed.
Print Assumptions C234_simple_kA_refuted.

(** C234 – when the printed equation is the one solved: different temperatures above the ambient one. *)
Theorem C234_simple_kA_partial : forall kA m hi ho T_i T_o Tamb, Tamb < T_i -> Tamb < T_o -> T_i <> T_o ->
  exists r, ReportModel.simple_kA_eq kA m hi ho T_i T_o Tamb = Ok r
            /\ (d_simple_kA m hi ho kA T_i T_o Tamb <-> r = 0).
Proof. exact simple_kA_above. Qed.
Print Assumptions C234_simple_kA_partial.

(** C234 – a state solves the equation, the printed equation is false: cone law. *)
Theorem C234_cone_refuted : exists m0 p0 v0 po0 m p v po,
  0 < po0 /\ po0 < p0 /\ 0 < v0 /\ 0 < m0 /\ 0 < po /\ po < p /\ 0 < v /\ 0 < m
  /\ ConeModel.cone_func (ConeModel.Build_cdesign m0 p0 v0 (po0 / p0)) (ConeModel.Build_cstate m p v po) = 0
  /\ ~ d_cone m0 p0 v0 po0 m p v po.
Proof. exact cone_false. Qed.
Print Assumptions C234_cone_refuted.

(** C234 – when the printed equation is the one solved: specific volume of the design point. *)
Theorem C234_cone_partial : forall m0 p0 v po0 m p po,
  0 < p0 -> 0 < p -> 0 < v -> 0 <= (1 - (po / p) ^ 2) / (1 - (po0 / p0) ^ 2) ->
  (d_cone m0 p0 v po0 m p v po
   <-> ConeModel.cone_func (ConeModel.Build_cdesign m0 p0 v (po0 / p0)) (ConeModel.Build_cstate m p v po) = 0).
Proof. exact cone_same_volume. Qed.
Print Assumptions C234_cone_partial.

(** C234 – a state solves the equation, the printed equation is false: mass balance of a fuel cell. *)
Theorem C234_fc_mass_refuted : exists isv Mo2 Mh2 i2 i3 o1 o2 e,
  Forall (fun c => isv (QM (cm c)) = true) [i2; i3; o1; o2] /\ 0 < Mo2 /\ 0 < Mh2
  /\ Forall (fun r => r = 0) (fuel_cell_mass_func isv Mo2 Mh2 i2 i3 o2 e)
  /\ ~ d_fc_mass Mo2 Mh2 (vm e o1) (vm e o2) (vm e i2) (vm e i3).
Proof. exact fc_mass_false. Qed.
Print Assumptions C234_fc_mass_refuted.

(** C234 – when the printed equation is the one solved: equal flows of cooling and product. *)
Theorem C234_fc_mass_partial : forall (isv : qty -> bool) Mo2 Mh2 i2 i3 o1 o2 e, isv (QM (cm o2)) = true -> vm e o1 = vm e o2 ->
  (d_fc_mass Mo2 Mh2 (vm e o1) (vm e o2) (vm e i2) (vm e i3)
   <-> Forall (fun r => r = 0) (fuel_cell_mass_func isv Mo2 Mh2 i2 i3 o2 e)).
Proof. exact fc_mass_equal. Qed.
Print Assumptions C234_fc_mass_partial.

(** C234 – a state solves the equation, the printed equation is false: energy balance of an electrolyzer. *)
Theorem C234_el_energy_refuted : exists hw ho hh e0 i1 i2 o1 o2 o3 P e,
  0 < e0 /\ 0 < vm e o3 /\ 0 < pval e P
  /\ electrolyzer_energy_func hw ho hh e0 i1 i2 o1 o2 o3 P e = 0
  /\ ~ d_el_energy (pval e P) (vm e i2) (vh e i2) hw (vm e i1) (vh e o1) (vh e i1) (vm e o2) (vh e o2) ho (vm e o3) (vh e o3) hh e0.
Proof. exact el_energy_false. Qed.
Print Assumptions C234_el_energy_refuted.

(** C234 – when the printed equation is the one solved: the term with the wrong sign vanishes. *)
Theorem C234_el_energy_partial : forall hw ho hh e0 i1 i2 o1 o2 o3 P e, vm e o3 * (vh e o3 - hh + e0) = 0 ->
  (d_el_energy (pval e P) (vm e i2) (vh e i2) hw (vm e i1) (vh e o1) (vh e i1) (vm e o2) (vh e o2) ho (vm e o3) (vh e o3) hh e0
   <-> electrolyzer_energy_func hw ho hh e0 i1 i2 o1 o2 o3 P e = 0).
Proof. exact el_energy_same. Qed.
Print Assumptions C234_el_energy_partial.

(** C234 – a state solves the equation, the printed equation is false: reference to another connection. *)
Theorem C234_ref_refuted : exists q r factor delta e, ref_func q r factor delta e = 0 /\ ~ d_ref (e q) (e r) factor delta.
Proof. exact ref_false. Qed.
Print Assumptions C234_ref_refuted.

(** C234 – the printed reference is the one with the opposite difference; without difference it is right. *)
Theorem C234_ref_partial : forall q r factor delta e,
  (d_ref (e q) (e r) factor delta <-> ref_func q r factor (- delta) e = 0)
  /\ (d_ref (e q) (e r) factor 0 <-> ref_func q r factor 0 e = 0).
Proof. exact ref_sign. Qed.
Print Assumptions C234_ref_partial.

(** C234 – a state solves the equation, the printed equation is false: cooling of an engine. *)
Theorem C234_engine_Q_refuted : exists i o Q e, 0 < vm e i /\ 0 < vh e i /\ 0 < vh e o
  /\ JacModel.engine_Q_func i o Q e = 0 /\ ~ d_engine_Q (vm e i) (vh e i) (vh e o) (pval e Q).
Proof. exact engine_Q_false. Qed.
Print Assumptions C234_engine_Q_refuted.

(** C234 – when the printed equation is the one solved: no enthalpy flows in. *)
Theorem C234_engine_Q_partial : forall i o Q e, vm e i * vh e i = 0 ->
  (d_engine_Q (vm e i) (vh e i) (vh e o) (pval e Q) <-> JacModel.engine_Q_func i o Q e = 0).
Proof. exact engine_Q_same. Qed.
Print Assumptions C234_engine_Q_partial.

(** C234 – a state solves the equation, the printed equation is false: difference to the boiling point. *)
Theorem C234_Td_bp_refuted : exists P c t e, 0 < t /\ 0 < JacModel.cTs P e c
  /\ JacModel.Td_func P c t e = 0 /\ ~ d_Td_bp t (JacModel.cTs P e c).
Proof. exact Td_bp_false. Qed.
Print Assumptions C234_Td_bp_refuted.

(** C234 – once solved, the printed one holds exactly at twice the boiling temperature. *)
Theorem C234_Td_bp_partial : forall P c e t, JacModel.Td_func P c t e = 0 ->
  (d_Td_bp t (JacModel.cTs P e c) <-> JacModel.cT P e c = 2 * JacModel.cTs P e c).
Proof. exact Td_bp_printed. Qed.
Print Assumptions C234_Td_bp_partial.

Example C233_ex : (exists r, ReportModel.hx_kA_eq 2 1 10 0 100 20 60 50 = Ok r) /\ d_mass [2; 1] [3] /\ ~ d_mass [2; 1] [2]
  /\ d_zeta 1 1 0 1 1 5 /\ ~ d_zeta 1 2 0 1 1 5.
Proof.
  split; [|split; [|split; [|split]]].
  - destruct (C233_kA 2 1 10 0 100 20 60 50) as (r & E & _); [lra|lra|lra|]. exists r. exact E.
  - unfold d_mass, rsum; cbn. lra.
  - unfold d_mass, rsum; cbn. lra.
  - split; [lra|]. rewrite Rabs_R0. lra.
  - intros [A _]. rewrite Rabs_R0 in A. assert (0 = 1 - 2) by (apply A; lra). lra.
Qed.

