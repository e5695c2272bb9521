(** Rows of the Jacobian that are computed numerically, as a whole: which columns a
    derivative method writes and with what. EqnModel has the rows written by hand only.
    Models the derivative methods of /repo/src/tespy/components (heat_exchangers, piping,
    turbomachinery, reactors, combustion, component.py) and of
    /repo/src/tespy/connections/connection.py together with their residuals.
    Values are reals; the containers, connections and assignments are those of EqnModel.
    Simplifications: property functions are unknown functions of pressure, enthalpy and
    composition of a connection (fluid engines and mixing rule belong to the connection, the
    start value of iterations is left out); a residual that raises ends the calculation and is
    counted as zero here ([tot], [x / 0]). *)
From Coq Require Import Reals List String Bool.
From Verif Require Export EqnModel.
From Verif Require Import Base ReportModel SolarModel ConeModel.
Import ListNotations.
Open Scope R_scope.

(** fluid_data with the mass fractions, connection.py 712-718 *)
Definition comp := list (string * R).
(** Connection.build_fluid_data, connection.py 712-718 *)
Definition xs (e : env) (c : conn) : comp := map (fun f => (f, vx e c f)) (ckeys c).

(** Property functions: T_mix_ph, T_sat_p, v_mix_ph, viscosity_mix_ph, isentropic, h_mix_pT,
    h_mix_pQ, h_mix_pT with forced gas; darcy_friction_factor.
    functions.py 27-35, 88-98, 125-140, 176-182, 224-230, 256-262; helpers.py 220-262 *)
Record props := {
  pT : conn -> R -> R -> comp -> R;
  pTs : conn -> R -> comp -> R;
  pv : conn -> R -> R -> comp -> R;
  pvisc : conn -> R -> R -> comp -> R;
  pis : conn -> R -> R -> R -> comp -> R;
  phT : conn -> R -> R -> comp -> R;
  phQ : conn -> R -> R -> comp -> R;
  pref : conn -> comp -> R;
  pdff : R -> R -> R -> R }.

(** Value of a part of a residual that may raise, see above; e.g. heat_exchangers/base.py
    467-470 *)
Definition tot (r : res R) : R := match r with Ok x => x | Err _ => 0 end.

(** _numeric_deriv adds to the value of one container, helpers.py 447-460 *)
Definition bump (e : env) (q : qty) (x : R) : env := fun q' => if qty_eqb q' q then x else e q'.
(** _numeric_deriv for mass flow, pressure, enthalpy and component variables,
    helpers.py 410-420, 447-460 *)
Definition num (d : R) (f : env -> R) (e : env) (q : qty) : R :=
  (f (bump e q (e q + d)) - f (bump e q (e q - d))) / (2 * d).
(** _numeric_deriv for a mass fraction, helpers.py 422-445 *)
Definition num_x (f : env -> R) (e : env) (q : qty) : R :=
  let d := 1 / 100000 in
  let hi := if ReportModel.leb (e q + d) 1 then e q + d else 1 in
  let lo := if ReportModel.leb 0 (hi - 2 * d) then hi - 2 * d else 0 in
  (f (bump e q hi) - f (bump e q lo)) / (2 * d).
(** helpers.py 449-450 *)
Definition step_m : R := 1 / 10000.
(** helpers.py 451-452 *)
Definition step_ph : R := 1 / 10.

(** get_char_expr: the parameters, component.py 476-514 *)
Inductive cparam := Cm | Cmout | Cv | Cpr.
(** Design values of inlet and outlet, component.py 476-492 *)
Record cdes := { g_m : R; g_mo : R; g_v : R; g_p : R; g_po : R }.
(** A characteristic: its parameter, relative or absolute, its function.
    component.py 476-514, characteristics.py 173-203 *)
Record cchar := { k_param : cparam; k_rel : bool; k_fun : R -> R }.

Section Rows.
Variable isv : qty -> bool.
Variable filt : qty -> bool.
Variable P : props.
(** Step of a component variable ([d]), helpers.py 411, data_containers.py 354-364 *)
Variable ds : nat -> R.

(** Connection.calc_T, connection.py 738-741 *)
Definition cT (e : env) (c : conn) : R := pT P c (vp e c) (vh e c) (xs e c).
(** Connection.calc_T_sat, connection.py 851-855 *)
Definition cTs (e : env) (c : conn) : R := pTs P c (vp e c) (xs e c).
(** Connection.calc_vol, connection.py 791-795 *)
Definition cvol (e : env) (c : conn) : R := pv P c (vp e c) (vh e c) (xs e c).
(** Connection.calc_viscosity, connection.py 784-789 *)
Definition cvisc (e : env) (c : conn) : R := pvisc P c (vp e c) (vh e c) (xs e c).
(** isentropic from inlet to the pressure of the outlet, turbine.py 198-205 *)
Definition cis (e : env) (i o : conn) : R := pis P i (vp e i) (vh e i) (vp e o) (xs e i).

(** [if self.is_variable(c.m, increment_filter): ... numeric_deriv(f, 'm', c)]; as in
    component.py 1220-1221 *)
Definition nm (f : env -> R) (e : env) (c : conn) : list write :=
  wr (is_variable isv (Some filt) (QM (cm c))) (QM (cm c)) (num step_m f e (QM (cm c))).
(** the same for the pressure, component.py 1222-1223 *)
Definition np (f : env -> R) (e : env) (c : conn) : list write :=
  wr (is_variable isv (Some filt) (QP (cid c))) (QP (cid c)) (num step_ph f e (QP (cid c))).
(** the same for the enthalpy, component.py 1224-1225 *)
Definition nh (f : env -> R) (e : env) (c : conn) : list write :=
  wr (is_variable isv (Some filt) (QH (cid c))) (QH (cid c)) (num step_ph f e (QH (cid c))).
(** without filter, heat_exchangers/base.py 538-541 *)
Definition np0 (f : env -> R) (e : env) (c : conn) : list write :=
  wr (is_variable isv None (QP (cid c))) (QP (cid c)) (num step_ph f e (QP (cid c))).
(** without filter, heat_exchangers/base.py 538-541 *)
Definition nh0 (f : env -> R) (e : env) (c : conn) : list write :=
  wr (is_variable isv None (QH (cid c))) (QH (cid c)) (num step_ph f e (QH (cid c))).
(** without filter, heat_exchangers/base.py 627-628 *)
Definition nm0 (f : env -> R) (e : env) (c : conn) : list write :=
  wr (is_variable isv None (QM (cm c))) (QM (cm c)) (num step_m f e (QM (cm c))).
(** [if data.is_var: ... numeric_deriv(f, name, None)], component.py 1231-1232 *)
Definition nc (f : env -> R) (e : env) (p : param) : list write :=
  match p with PVar v => [(QC v, num (ds v) f e (QC v))] | PVal _ => [] end.
(** [for fluid in c.fluid.is_var: ... numeric_deriv(f, fluid, c)], combustion/base.py 801-804 *)
Definition nx (f : env -> R) (e : env) (c : conn) (l : list string) : list write :=
  map (fun x => (QF (cf c) x, num_x f e (QF (cf c) x))) (filter (fun x => isv (QF (cf c) x)) l).

(** get_char_expr, component.py 476-514 *)
Definition char_expr (k : cchar) (d : cdes) (i o : conn) (e : env) : R :=
  if k_rel k then
    match k_param k with
    | Cm => vm e i / g_m d
    | Cmout => vm e o / g_mo d
    | Cv => vm e i * cvol e i / g_v d
    | Cpr => (vp e o * g_p d) / (vp e i * g_po d)
    end
  else
    match k_param k with
    | Cm => vm e i
    | Cmout => vm e o
    | Cv => vm e i * cvol e i
    | Cpr => vp e o / vp e i
    end.
(** char_func.evaluate(expr), as in pump.py 278-289 *)
Definition char_val (k : cchar) (d : cdes) (i o : conn) (e : env) : R := k_fun k (char_expr k d i o e).

(* -------------------------------------------------------- pressure losses *)

(** Component.zeta_func, component.py 1143-1156 *)
Definition zeta_func (i o : conn) (zeta : param) (e : env) : R :=
  zeta_eq (pval e zeta) (vm e i) (cvol e i + cvol e o) (vp e i) (vp e o).
(** Component.zeta_deriv, component.py 1215-1232 *)
Definition zeta_deriv (i o : conn) (zeta : param) (e : env) : list write :=
  let f := zeta_func i o zeta in
  nm f e i ++ np f e i ++ nh f e i ++ np f e o ++ nh f e o ++ nc f e zeta.

(** SimpleHeatExchanger.darcy_func, simple.py 340-358 *)
Definition darcy_func (i o : conn) (L D ks : param) (e : env) : R :=
  darcy_eq (fun re => pdff P re (pval e ks) (pval e D)) (pval e L) (pval e D)
    (cvisc e i + cvisc e o) (vm e i) (cvol e i + cvol e o) (vp e i) (vp e o).
(** SimpleHeatExchanger.darcy_deriv, simple.py 398-417; elements of the group 228 *)
Definition darcy_deriv (i o : conn) (L D ks : param) (e : env) : list write :=
  let f := darcy_func i o L D ks in
  nm f e i ++ np f e i ++ nh f e i ++ np f e o ++ nh f e o
  ++ nc f e L ++ nc f e ks ++ nc f e D.

(** SimpleHeatExchanger.hazen_williams_func, simple.py 444-459 *)
Definition hw_func (i o : conn) (L D ks : param) (e : env) : R :=
  hw_eq (pval e L) (pval e ks) (pval e D) (vm e i) (cvol e i + cvol e o) (vp e i) (vp e o).
(** SimpleHeatExchanger.hazen_williams_deriv, simple.py 495-514 *)
Definition hw_deriv (i o : conn) (L D ks : param) (e : env) : list write :=
  let f := hw_func i o L D ks in
  nm f e i ++ np f e i ++ nh f e i ++ np f e o ++ nh f e o
  ++ nc f e L ++ nc f e ks ++ nc f e D.

(** Valve.dp_char_func, valve.py 186-196 *)
Definition valve_func (i o : conn) (k : cchar) (d : cdes) (e : env) : R :=
  vp e i - vp e o - char_val k d i o e.
(** Valve.dp_char_deriv, valve.py 237-256 *)
Definition valve_deriv (i o : conn) (k : cchar) (d : cdes) (e : env) : list write :=
  let f := valve_func i o k d in
  nm f e i
  ++ (match k_param k with
      | Cv => np f e i ++ nh f e i
      | _ => wr (is_variable isv (Some filt) (QP (cid i))) (QP (cid i)) 1
      end)
  ++ wr (is_variable isv None (QP (cid o))) (QP (cid o)) (-1).

(* --------------------------------------------------------- heat exchangers *)

(** HeatExchanger.ttd_u_func, heat_exchangers/base.py 648-652 *)
Definition ttd_u_func (i1 o2 : conn) (t : param) (e : env) : R := ttd_u_eq (pval e t) (cT e i1) (cT e o2).
(** HeatExchanger.ttd_u_deriv, heat_exchangers/base.py 683-688 *)
Definition ttd_u_deriv (i1 o2 : conn) (t : param) (e : env) : list write :=
  let f := ttd_u_func i1 o2 t in np f e i1 ++ nh f e i1 ++ np f e o2 ++ nh f e o2.
(** Condenser.ttd_u_func, condenser.py 446-450 *)
Definition cond_ttd_u_func (i1 o2 : conn) (t : param) (e : env) : R :=
  ttd_u_eq (pval e t) (cTs e i1) (cT e o2).
(** Condenser inherits ttd_u_deriv, heat_exchangers/base.py 683-688 *)
Definition cond_ttd_u_deriv (i1 o2 : conn) (t : param) (e : env) : list write :=
  let f := cond_ttd_u_func i1 o2 t in np f e i1 ++ nh f e i1 ++ np f e o2 ++ nh f e o2.
(** HeatExchanger.ttd_l_func, heat_exchangers/base.py 703-707 *)
Definition ttd_l_func (i2 o1 : conn) (t : param) (e : env) : R := ttd_l_eq (pval e t) (cT e o1) (cT e i2).
(** HeatExchanger.ttd_l_deriv, heat_exchangers/base.py 738-743 *)
Definition ttd_l_deriv (i2 o1 : conn) (t : param) (e : env) : list write :=
  let f := ttd_l_func i2 o1 t in np f e i2 ++ nh f e i2 ++ np f e o1 ++ nh f e o1.
(** [for c in self.inl + self.outl] pressures and enthalpies, heat_exchangers/base.py 789-793 *)
Definition all_ph (f : env -> R) (e : env) (l : list conn) : list write :=
  flat_map (fun c => np f e c ++ nh f e c) l.
(** the same without filter, heat_exchangers/base.py 537-541 *)
Definition all_ph0 (f : env -> R) (e : env) (l : list conn) : list write :=
  flat_map (fun c => np0 f e c ++ nh0 f e c) l.
(** HeatExchanger.ttd_min_func, heat_exchangers/base.py 761-774 *)
Definition ttd_min_func (i1 i2 o1 o2 : conn) (t : param) (e : env) : R :=
  ttd_min_eq (pval e t) (cT e i1) (cT e i2) (cT e o1) (cT e o2).
(** HeatExchanger.ttd_min_deriv, heat_exchangers/base.py 788-793 *)
Definition ttd_min_deriv (i1 i2 o1 o2 : conn) (t : param) (e : env) : list write :=
  all_ph (ttd_min_func i1 i2 o1 o2 t) e [i1; i2; o1; o2].

(** HeatExchanger.calc_dh_max_cold, heat_exchangers/base.py 807-812 *)
Definition dh_cold (i1 i2 o2 : conn) (e : env) : R := phT P o2 (vp e o2) (cT e i1) (xs e o2) - vh e i2.
(** HeatExchanger.calc_dh_max_hot, heat_exchangers/base.py 872-877 *)
Definition dh_hot (i1 i2 o1 : conn) (e : env) : R := phT P o1 (vp e o1) (cT e i2) (xs e o1) - vh e i1.
(** HeatExchanger.eff_cold_func, heat_exchangers/base.py 828-831 *)
Definition eff_cold_func (i1 i2 o2 : conn) (t : param) (e : env) : R :=
  eff_eq (pval e t) (dh_cold i1 i2 o2 e) (vh e i2) (vh e o2).
(** HeatExchanger.eff_cold_deriv, heat_exchangers/base.py 845-858 *)
Definition eff_cold_deriv (i1 i2 o2 : conn) (t : param) (e : env) : list write :=
  let f := eff_cold_func i1 i2 o2 t in
  all_ph f e [i1; o2]
  ++ wr (is_variable isv None (QH (cid i2))) (QH (cid i2)) (1 - pval e t).
(** HeatExchanger.eff_hot_func, heat_exchangers/base.py 893-896 *)
Definition eff_hot_func (i1 i2 o1 : conn) (t : param) (e : env) : R :=
  eff_eq (pval e t) (dh_hot i1 i2 o1 e) (vh e i1) (vh e o1).
(** HeatExchanger.eff_hot_deriv, heat_exchangers/base.py 910-923 *)
Definition eff_hot_deriv (i1 i2 o1 : conn) (t : param) (e : env) : list write :=
  let f := eff_hot_func i1 i2 o1 t in
  wr (is_variable isv None (QH (cid i1))) (QH (cid i1)) (1 - pval e t)
  ++ all_ph f e [o1; i2].
(** HeatExchanger.eff_max_func, heat_exchangers/base.py 945-953 *)
Definition eff_max_func (i1 i2 o1 o2 : conn) (t : param) (e : env) : R :=
  tot (eff_max_eq (pval e t) (dh_hot i1 i2 o1 e) (dh_cold i1 i2 o2 e)
         (vh e i1) (vh e o1) (vh e i2) (vh e o2)).
(** HeatExchanger.eff_max_deriv, heat_exchangers/base.py 967-973 *)
Definition eff_max_deriv (i1 i2 o1 o2 : conn) (t : param) (e : env) : list write :=
  all_ph (eff_max_func i1 i2 o1 o2 t) e [i1; i2; o1; o2].

(** HeatExchanger.kA_func, heat_exchangers/base.py 491-495 with 444-472 *)
Definition kA_func (i1 i2 o1 o2 : conn) (kA : param) (e : env) : R :=
  vm e i1 * (vh e o1 - vh e i1) + pval e kA * tot (hx_td_log (cT e i1) (cT e i2) (cT e o1) (cT e o2)).
(** HeatExchanger.kA_deriv, heat_exchangers/base.py 532-541 *)
Definition kA_deriv (i1 i2 o1 o2 : conn) (kA : param) (e : env) : list write :=
  wr (is_variable isv None (QM (cm i1))) (QM (cm i1)) (vh e o1 - vh e i1)
  ++ all_ph0 (kA_func i1 i2 o1 o2 kA) e [i1; i2; o1; o2].
(** HeatExchanger.kA_char_func, heat_exchangers/base.py 567-582; kA is the design value *)
Definition kA_char_func (i1 i2 o1 o2 : conn) (k1 k2 : cchar) (d1 d2 : cdes) (kA : R) (e : env) : R :=
  vm e i1 * (vh e o1 - vh e i1)
  + kA * (2 / (1 / char_val k1 d1 i1 o1 e + 1 / char_val k2 d2 i2 o2 e))
    * tot (hx_td_log (cT e i1) (cT e i2) (cT e o1) (cT e o2)).
(** HeatExchanger.kA_char_deriv, heat_exchangers/base.py 625-633 *)
Definition kA_char_deriv (i1 i2 o1 o2 : conn) (k1 k2 : cchar) (d1 d2 : cdes) (kA : R) (e : env)
  : list write :=
  let f := kA_char_func i1 i2 o1 o2 k1 k2 d1 d2 kA in
  nm0 f e i1 ++ nm0 f e i2 ++ all_ph0 f e [i1; i2; o1; o2].

(** Temperature difference of the condenser; the flags are the [T.is_set] of the ports.
    condenser.py 316-344 *)
Definition cond_td (b1 b2 b3 b4 : bool) (i1 i2 o1 o2 : conn) (e : env) : R :=
  tot (cond_td_log b1 b2 b3 b4 (cTs e i1) (cT e i2) (cT e o1) (cT e o2)).
(** HeatExchanger.kA_func of a condenser, heat_exchangers/base.py 491-495 *)
Definition cond_kA_func (b1 b2 b3 b4 : bool) (i1 i2 o1 o2 : conn) (kA : param) (e : env) : R :=
  vm e i1 * (vh e o1 - vh e i1) + pval e kA * cond_td b1 b2 b3 b4 i1 i2 o1 o2 e.
(** HeatExchanger.kA_deriv of a condenser, heat_exchangers/base.py 532-541 *)
Definition cond_kA_deriv (b1 b2 b3 b4 : bool) (i1 i2 o1 o2 : conn) (kA : param) (e : env) : list write :=
  wr (is_variable isv None (QM (cm i1))) (QM (cm i1)) (vh e o1 - vh e i1)
  ++ all_ph0 (cond_kA_func b1 b2 b3 b4 i1 i2 o1 o2 kA) e [i1; i2; o1; o2].
(** Condenser.kA_char_func, heat_exchangers/condenser.py 395 *)
Definition cond_kA_char_func (b1 b2 b3 b4 : bool) (i1 i2 o1 o2 : conn) (k1 k2 : cchar) (d1 d2 : cdes)
  (kA : R) (e : env) : R :=
  vm e i1 * (vh e o1 - vh e i1)
  + kA * (2 / (1 / char_val k1 d1 i1 o1 e + 1 / char_val k2 d2 i2 o2 e)) * cond_td b1 b2 b3 b4 i1 i2 o1 o2 e.
(** HeatExchanger.kA_char_deriv of a condenser, heat_exchangers/base.py 625-633 *)
Definition cond_kA_char_deriv (b1 b2 b3 b4 : bool) (i1 i2 o1 o2 : conn) (k1 k2 : cchar) (d1 d2 : cdes) (kA : R) (e : env)
  : list write :=
  let f := cond_kA_char_func b1 b2 b3 b4 i1 i2 o1 o2 k1 k2 d1 d2 kA in
  nm0 f e i1 ++ nm0 f e i2 ++ all_ph0 f e [i1; i2; o1; o2].

(** SimpleHeatExchanger.kA_group_func, simple.py 540-558 *)
Definition kA_group_func (i o : conn) (kA : param) (Tamb : R) (e : env) : R :=
  vm e i * (vh e o - vh e i) + pval e kA * tot (simple_td_log (cT e i) (cT e o) Tamb).
(** SimpleHeatExchanger.kA_group_deriv, simple.py 604-618 *)
Definition kA_group_deriv (i o : conn) (kA : param) (Tamb : R) (e : env) : list write :=
  let f := kA_group_func i o kA Tamb in
  wr (is_variable isv (Some filt) (QM (cm i))) (QM (cm i)) (vh e o - vh e i)
  ++ np f e i ++ nh f e i ++ np f e o ++ nh f e o ++ nc f e kA.
(** SimpleHeatExchanger.kA_char_group_func, simple.py 651-674 *)
Definition kA_char_group_func (i o : conn) (k : cchar) (d : cdes) (kA Tamb : R) (e : env) : R :=
  vm e i * (vh e o - vh e i)
  + kA * (2 / (1 + 1 / char_val k d i o e)) * tot (simple_td_log (cT e i) (cT e o) Tamb).
(** SimpleHeatExchanger.kA_char_group_deriv, simple.py 722-734 *)
Definition kA_char_group_deriv (i o : conn) (k : cchar) (d : cdes) (kA Tamb : R) (e : env) : list write :=
  let f := kA_char_group_func i o k d kA Tamb in
  nm f e i ++ np f e i ++ nh f e i ++ np f e o ++ nh f e o.

(** SolarCollector.energy_group_func, solar_collector.py 230-242 *)
Definition solar_func (i o : conn) (E eta lin quad A : param) (Tamb : R) (e : env) : R :=
  collector_eq (pval e A) (pval e E) (pval e eta) (pval e lin) (pval e quad) Tamb
    (vm e i) (vh e i) (vh e o) (cT e i) (cT e o).
(** SolarCollector.energy_group_deriv, solar_collector.py 283-304; elements 202 *)
Definition solar_deriv (i o : conn) (E eta lin quad A : param) (Tamb : R) (e : env) : list write :=
  let f := solar_func i o E eta lin quad A Tamb in
  wr (is_variable isv (Some filt) (QM (cm i))) (QM (cm i)) (vh e o - vh e i)
  ++ np f e i ++ nh f e i ++ np f e o ++ nh f e o
  ++ nc f e E ++ nc f e eta ++ nc f e lin ++ nc f e quad ++ nc f e A.
(** ParabolicTrough.energy_group_func, parabolic_trough.py 273-289 *)
Definition trough_func (i o : conn) (E eta aoi doc c1 c2 iam1 iam2 A : param) (Tamb : R) (e : env) : R :=
  trough_eq (pval e A) (pval e E) (pval e eta) (pval e doc) (pval e iam1) (pval e iam2)
    (pval e aoi) (pval e c1) (pval e c2) Tamb (vm e i) (vh e i) (vh e o) (cT e i) (cT e o).
(** ParabolicTrough.energy_group_deriv, parabolic_trough.py 333-354; elements 241-242 *)
Definition trough_deriv (i o : conn) (E eta aoi doc c1 c2 iam1 iam2 A : param) (Tamb : R) (e : env)
  : list write :=
  let f := trough_func i o E eta aoi doc c1 c2 iam1 iam2 A Tamb in
  wr (is_variable isv (Some filt) (QM (cm i))) (QM (cm i)) (vh e o - vh e i)
  ++ np f e i ++ nh f e i ++ np f e o ++ nh f e o
  ++ nc f e E ++ nc f e eta ++ nc f e aoi ++ nc f e doc ++ nc f e c1 ++ nc f e c2
  ++ nc f e iam1 ++ nc f e iam2 ++ nc f e A.

(** State of a port: mass flow, pressure, enthalpy, composition; movingboundary.py 466-470 *)
Definition pstate (e : env) (c : conn) : R * R * R * comp := (vm e c, vp e c, vh e c, xs e c).
(** MovingBoundaryHeatExchanger.UA_func and td_pinch_func, movingboundary.py 482, 541: the
    sections are a function of the states of the ports (MbModel) *)
Definition mb_func (g : list (R * R * R * comp) -> R) (l : list conn) (t : param) (e : env) : R :=
  pval e t - g (map (pstate e) l).
(** MovingBoundaryHeatExchanger.UA_deriv, movingboundary.py 496-503 *)
Definition UA_deriv (g : list (R * R * R * comp) -> R) (l : list conn) (t : param) (e : env) : list write :=
  let f := mb_func g l t in flat_map (fun c => nm0 f e c ++ np0 f e c ++ nh0 f e c) l.
(** MovingBoundaryHeatExchanger.td_pinch_deriv, movingboundary.py 555-562 *)
Definition td_pinch_deriv (g : list (R * R * R * comp) -> R) (l : list conn) (t : param) (e : env)
  : list write :=
  let f := mb_func g l t in flat_map (fun c => nm f e c ++ np f e c ++ nh f e c) l.

(* ---------------------------------------------------------- turbomachinery *)

(** Pump.eta_s_func, pump.py 205-218; Compressor.eta_s_func, compressor.py 206-219 *)
Definition pump_func (i o : conn) (eta : param) (e : env) : R :=
  pump_eta_eq (pval e eta) (vh e i) (vh e o) (cis e i o).
(** Pump.eta_s_deriv, pump.py 251-261; Compressor.eta_s_deriv, compressor.py 252-262 *)
Definition pump_deriv (i o : conn) (eta : param) (e : env) : list write :=
  let f := pump_func i o eta in
  np f e i ++ np f e o ++ nh f e i
  ++ wr (is_variable isv (Some filt) (QH (cid o))) (QH (cid o)) (pval e eta).
(** Turbine.eta_s_func, turbine.py 193-208 *)
Definition turbine_func (i o : conn) (eta : param) (e : env) : R :=
  turbine_eta_eq (pval e eta) (vh e i) (vh e o) (cis e i o).
(** Turbine.eta_s_deriv in the first iteration, turbine.py 241-251 *)
Definition turbine_deriv (i o : conn) (eta : param) (e : env) : list write :=
  let f := turbine_func i o eta in
  np f e i ++ np f e o ++ nh f e i ++ wr (isv (QH (cid o))) (QH (cid o)) (-1).

(** Pump.eta_s_char_func, pump.py 277-300; Compressor.eta_s_char_func, compressor.py 278-301;
    eta is the design value *)
Definition pump_char_func (i o : conn) (k : cchar) (d : cdes) (eta : R) (e : env) : R :=
  (vh e o - vh e i) * eta * char_val k d i o e - (cis e i o - vh e i).
(** Turbine.eta_s_char_func, turbine.py 362-387 *)
Definition turbine_char_func (i o : conn) (k : cchar) (d : cdes) (eta : R) (e : env) : R :=
  - (vh e o - vh e i) + eta * char_val k d i o e * (cis e i o - vh e i).
(** eta_s_char_deriv: pump.py 334-346, compressor.py 335-347, turbine.py 421-433 *)
Definition five (f : env -> R) (i o : conn) (e : env) : list write :=
  nm f e i ++ np f e i ++ nh f e i ++ np f e o ++ nh f e o.
(** Pump.eta_s_char_deriv, pump.py 334-346, compressor.py 335-347 *)
Definition pump_char_deriv (i o : conn) (k : cchar) (d : cdes) (eta : R) (e : env) : list write :=
  five (pump_char_func i o k d eta) i o e.
(** Turbine.eta_s_char_deriv, turbine.py 421-433 *)
Definition turbine_char_deriv (i o : conn) (k : cchar) (d : cdes) (eta : R) (e : env) : list write :=
  five (turbine_char_func i o k d eta) i o e.
(** Pump.flow_char_func, pump.py 361-365 *)
Definition pump_flow_func (i o : conn) (k : cchar) (d : cdes) (e : env) : R :=
  vp e o - vp e i - char_val k d i o e.
(** Pump.flow_char_deriv, pump.py 397-407 *)
Definition pump_flow_deriv (i o : conn) (k : cchar) (d : cdes) (e : env) : list write :=
  let f := pump_flow_func i o k d in nm f e i ++ np f e i ++ nh f e i ++ np f e o.

(** Arguments of the compressor maps, compressor.py 379-380, 482-483; [Td], [pd], [md] are
    the design values of the inlet *)
Definition map_x (Td : R) (i : conn) (e : env) : R := sqrt (Td / cT e i).
(** compressor.py 380, 483 *)
Definition map_y (Td pd md : R) (i : conn) (e : env) : R :=
  (vm e i * pd) / (md * vp e i * map_x Td i e).
(** Compressor.char_map_pr_func, compressor.py 376-388; [g] is the map with the scaling by
    the vane angle *)
Definition map_pr_func (g : R -> R -> R -> R) (Td pd md prd : R) (i o : conn) (igva : param) (e : env) : R :=
  vp e o / vp e i - g (map_x Td i e) (map_y Td pd md i e) (pval e igva) * prd.
(** Compressor.char_map_pr_deriv, compressor.py 434-451 *)
Definition map_pr_deriv (g : R -> R -> R -> R) (Td pd md prd : R) (i o : conn) (igva : param) (e : env)
  : list write :=
  let f := map_pr_func g Td pd md prd i o igva in
  nm f e i ++ np f e i ++ nh f e i
  ++ wr (is_variable isv (Some filt) (QP (cid o))) (QP (cid o)) (1 / vp e i)
  ++ nh f e o ++ nc f e igva.
(** Compressor.char_map_eta_s_func, compressor.py 479-502 *)
Definition map_eta_func (g : R -> R -> R -> R) (Td pd md eta : R) (i o : conn) (igva : param) (e : env) : R :=
  (cis e i o - vh e i) / (vh e o - vh e i)
  - g (map_x Td i e) (map_y Td pd md i e) (pval e igva) * eta.
(** Compressor.char_map_eta_s_deriv, compressor.py 548-565 *)
Definition map_eta_deriv (g : R -> R -> R -> R) (Td pd md eta : R) (i o : conn) (igva : param) (e : env)
  : list write :=
  let f := map_eta_func g Td pd md eta i o igva in five f i o e ++ nc f e igva.

(** Turbine.cone_func, turbine.py 286-297 *)
Definition cone_residual (d : cdesign) (i o : conn) (e : env) : R :=
  ConeModel.cone_func d {| c_m := vm e i; c_p := vp e i; c_v := cvol e i; c_po := vp e o |}.
(** Turbine.cone_deriv, turbine.py 335-345 *)
Definition cone_deriv (d : cdesign) (i o : conn) (e : env) : list write :=
  let f := cone_residual d i o in
  wr (isv (QM (cm i))) (QM (cm i)) (-1) ++ np f e i ++ nh f e i ++ np f e o.
(** SteamTurbine.eta_s_wet_func, steam_turbine.py 201-263: a function of pressure, enthalpy
    and composition of the ports and of the parameters (SolarModel.eta_s_wet) *)
Definition wet_func (w : R -> R -> comp -> R -> R -> comp -> R -> R -> R) (i o : conn) (eta alpha : param)
  (e : env) : R :=
  w (vp e i) (vh e i) (xs e i) (vp e o) (vh e o) (xs e o) (pval e eta) (pval e alpha).
(** SteamTurbine.eta_s_wet_deriv, steam_turbine.py 277-287 *)
Definition wet_deriv (w : R -> R -> comp -> R -> R -> comp -> R -> R -> R) (i o : conn) (eta alpha : param)
  (e : env) : list write :=
  let f := wet_func w i o eta alpha in np f e i ++ np f e o ++ nh f e i ++ nh f e o.

(* ------------------------------------------------------------------ reactors *)

(** FuelCell.heat_func, fuel_cell.py 322-323 *)
Definition fc_heat_func (i o : conn) (Q : param) (e : env) : R :=
  fuel_cell_heat_eq (pval e Q) (vm e i) (vh e i) (vh e o).
(** WaterElectrolyzer.heat_func, water_electrolyzer.py 421-422 *)
Definition el_heat_func (i o : conn) (Q : param) (e : env) : R :=
  electrolyzer_heat_eq (pval e Q) (vm e i) (vh e i) (vh e o).
(** heat_deriv, fuel_cell.py 356-363, water_electrolyzer.py 455-462 *)
Definition heat_deriv (i o : conn) (e : env) : list write :=
  wr (isv (QM (cm i))) (QM (cm i)) (vh e o - vh e i)
  ++ wr (isv (QH (cid i))) (QH (cid i)) (- vm e i)
  ++ wr (isv (QH (cid o))) (QH (cid o)) (vm e i).
(** reactor_pressure_func, one equation: water_electrolyzer.py 802-805 with the inlet first,
    fuel_cell.py 625-628 with the outlet first *)
Definition reactor_p_func (a b : conn) (e : env) : R := vp e a - vp e b.
(** WaterElectrolyzer.reactor_pressure_deriv, one row, water_electrolyzer.py 837-843 *)
Definition el_pressure_deriv (i o : conn) : list write :=
  wr (isv (QP (cid i))) (QP (cid i)) 1 ++ wr (isv (QP (cid o))) (QP (cid o)) (-1).
(** FuelCell.reactor_pressure_deriv, one row, fuel_cell.py 660-666 *)
Definition fc_pressure_deriv (o i : conn) : list write :=
  wr (isv (QP (cid i))) (QP (cid i)) (-1) ++ wr (isv (QP (cid o))) (QP (cid o)) 1.
(** dT_mix_dph, functions.py 108-112 *)
Definition dT_dp (e : env) (c : conn) : R :=
  (pT P c (vp e c + step_ph) (vh e c) (xs e c) - pT P c (vp e c - step_ph) (vh e c) (xs e c)) / (2 * step_ph).
(** dT_mix_pdh, functions.py 101-105 *)
Definition dT_dh (e : env) (c : conn) : R :=
  (pT P c (vp e c) (vh e c + step_ph) (xs e c) - pT P c (vp e c) (vh e c - step_ph) (xs e c)) / (2 * step_ph).
(** WaterElectrolyzer.gas_temperature_func, water_electrolyzer.py 313 *)
Definition gas_T_func (o1 o2 : conn) (e : env) : R := cT e o1 - cT e o2.
(** WaterElectrolyzer.gas_temperature_deriv, water_electrolyzer.py 345-356 *)
Definition gas_T_deriv (o1 o2 : conn) (e : env) : list write :=
  wr (is_variable isv (Some filt) (QP (cid o1))) (QP (cid o1)) (dT_dp e o1)
  ++ wr (is_variable isv (Some filt) (QH (cid o1))) (QH (cid o1)) (dT_dh e o1)
  ++ wr (is_variable isv (Some filt) (QP (cid o2))) (QP (cid o2)) (- dT_dp e o2)
  ++ wr (is_variable isv (Some filt) (QH (cid o2))) (QH (cid o2)) (- dT_dh e o2).
(** WaterElectrolyzer.eta_char_func, water_electrolyzer.py 644-654: inlet [i0] and hydrogen
    outlet [o2] (char_params 211-212) *)
Definition el_char_func (i0 o2 : conn) (k : cchar) (d : cdes) (e0 eta : R) (Pw : param) (e : env) : R :=
  pval e Pw - vm e o2 * e0 / (eta * char_val k d i0 o2 e).
(** WaterElectrolyzer.eta_char_deriv, water_electrolyzer.py 695-701 *)
Definition el_char_deriv (i0 o2 : conn) (k : cchar) (d : cdes) (e0 eta : R) (Pw : param) (e : env)
  : list write :=
  nm0 (el_char_func i0 o2 k d e0 eta Pw) e o2 ++ wr_param Pw 1.

(* ---------------------------------------------------------------- combustion *)

(** CombustionChamber.combustion_pressure_deriv, one row, combustion/base.py 469-478;
    residual 427-430 is [reactor_p_func] *)
Definition comb_pressure_deriv (i o : conn) : list write :=
  wr (isv (QP (cid i))) (QP (cid i)) 1 ++ wr (isv (QP (cid o))) (QP (cid o)) (-1).
(** CombustionChamber.mass_flow_func, combustion/base.py 372-373 *)
Definition comb_mass_func (i1 i2 o : conn) (e : env) : R := vm e i1 + vm e i2 - vm e o.
(** CombustionChamber.mass_flow_deriv, combustion/base.py 403-409 *)
Definition comb_mass_deriv (i1 i2 o : conn) : list write :=
  flat_map (fun i => wr (isv (QM (cm i))) (QM (cm i)) 1) [i1; i2]
  ++ wr (isv (QM (cm o))) (QM (cm o)) (-1).
(** Mass flow and composition of a port, combustion/base.py 496-680 *)
Definition mx (e : env) (c : conn) : R * comp := (vm e c, xs e c).
(** CombustionChamber.stoichiometry, combustion/base.py 496-680: a function of the mass flows
    and compositions (CombModel) *)
Definition stoich_func (s : list (R * comp) -> string -> R) (l : list conn) (fl : string) (e : env) : R :=
  s (map (mx e) l) fl.
(** CombustionChamber.stoichiometry_deriv, the row of a fluid, combustion/base.py 792-804 *)
Definition stoich_deriv (s : list (R * comp) -> string -> R) (l : list conn) (fl : string) (e : env)
  : list write :=
  let f := stoich_func s l fl in flat_map (fun c => nm f e c ++ nx f e c (ckeys c)) l.
(** CombustionChamber.calc_ti, combustion/base.py 1105-1117 *)
Definition ti (lhv : string -> R) (fuels : list string) (inl outl : list conn) (e : env) : R :=
  fold_left (fun t f => t + acc_sub (fun o => vm e o * vx e o f) outl
                              (acc_add (fun i => vm e i * vx e i f) inl 0) * lhv f) fuels 0.
(** CombustionChamber.lambda_func, combustion/base.py 928, 993-1013; [M], [nH], [nC]: molar
    mass, hydrogen and carbon atoms *)
Definition lambda_func (M nH nC : string -> R) (fuels : list string) (o2 : string) (inl : list conn)
  (lamb : param) (e : env) : R :=
  let h := fold_left (fun s f => acc_add (fun i => vm e i * vx e i f / M f * nH f) inl s) fuels 0 in
  let c := fold_left (fun s f => acc_add (fun i => vm e i * vx e i f / M f * nC f) inl s) fuels 0 in
  acc_add (fun i => vm e i * vx e i o2 / M o2) inl 0 / (h / 4 + c) - pval e lamb.
(** CombustionChamber.lambda_deriv, combustion/base.py 968-974 *)
Definition lambda_deriv (M nH nC : string -> R) (fuels : list string) (o2 : string) (inl : list conn)
  (lamb : param) (e : env) : list write :=
  let f := lambda_func M nH nC fuels o2 inl lamb in
  flat_map (fun c => nm f e c ++ nx f e c (ckeys c)) inl.
(** CombustionChamber.energy_balance_func, combustion/base.py 837-855; DiabaticCombustionChamber
    diabatic.py 310-329 with the efficiency *)
Definition comb_energy (lhv : string -> R) (fuels : list string) (inl outl : list conn) (eta : param)
  (e : env) : R :=
  acc_sub (fun o => vm e o * (vh e o - pref P o (xs e o))) outl
    (acc_add (fun i => vm e i * (vh e i - pref P i (xs e i))) inl 0)
  + ti lhv fuels inl outl e * pval e eta.
(** CombustionChamber.energy_balance_deriv, combustion/base.py 899-909 (inherited by the
    diabatic chamber) *)
Definition comb_energy_deriv (lhv : string -> R) (fuels : list string) (inl : list conn) (o : conn)
  (eta : param) (e : env) : list write :=
  let f := comb_energy lhv fuels inl [o] eta in
  flat_map (fun c => nm f e c ++ np f e c
    ++ wr (is_variable isv (Some filt) (QH (cid c))) (QH (cid c)) (vm e c)) inl
  ++ nm f e o ++ np f e o
  ++ wr (is_variable isv (Some filt) (QH (cid o))) (QH (cid o)) (- vm e o).

(** CombustionEngine.energy_balance_func, engine.py 406-417; cooling water [i1], [i2], [o1],
    [o2] *)
Definition engine_energy (lhv : string -> R) (fuels : list string) (i1 i2 o1 o2 : conn)
  (inl : list conn) (o : conn) (Pw Ql : param) (e : env) : R :=
  comb_energy lhv fuels inl [o] (PVal 1) e
  - vm e i1 * (vh e o1 - vh e i1) - vm e i2 * (vh e o2 - vh e i2) + (pval e Pw + pval e Ql).
(** Fuels among the unknown fractions of a port with a written entry, engine.py 486-492 *)
Definition fuel_writes (isv : qty -> bool) (fuels : list string) (c : conn) (g : string -> R) : list write :=
  map (fun f => (QF (cf c) f, g f)) (filter (fun f => isv (QF (cf c) f)) fuels).
(** CombustionEngine.energy_balance_deriv, engine.py 462-499 *)
Definition engine_energy_deriv (lhv : string -> R) (fuels : list string) (i1 i2 o1 o2 : conn)
  (inl : list conn) (o : conn) (Pw Ql : param) (e : env) : list write :=
  let f := engine_energy lhv fuels i1 i2 o1 o2 inl o Pw Ql in
  wr (isv (QM (cm i1))) (QM (cm i1)) (- (vh e o1 - vh e i1))
  ++ wr (isv (QM (cm i2))) (QM (cm i2)) (- (vh e o2 - vh e i2))
  ++ flat_map (fun c => nm f e c ++ np f e c) (inl ++ [o])
  ++ flat_map (fun i => wr (isv (QH (cid i))) (QH (cid i)) (vm e i)) (i1 :: i2 :: inl)
  ++ flat_map (fun o => wr (isv (QH (cid o))) (QH (cid o)) (- vm e o)) [o1; o2; o]
  ++ flat_map (fun c => fuel_writes isv fuels c (fun fl => vm e c * lhv fl)) inl
  ++ fuel_writes isv fuels o (fun fl => - vm e o * lhv fl)
  ++ wr_param Pw 1 ++ wr_param Ql 1.

(** CombustionEngine.Q1_func and Q2_func, engine.py 515-517, 573-575 *)
Definition engine_Q_func (i o : conn) (Q : param) (e : env) : R := vm e i * (vh e o - vh e i) + pval e Q.
(** CombustionEngine.Q1_deriv and Q2_deriv, engine.py 550-557, 608-615 *)
Definition engine_Q_deriv (i o : conn) (e : env) : list write :=
  wr (is_variable isv (Some filt) (QM (cm i))) (QM (cm i)) (vh e o - vh e i)
  ++ wr (is_variable isv (Some filt) (QH (cid i))) (QH (cid i)) (- vm e i)
  ++ wr (is_variable isv (Some filt) (QH (cid o))) (QH (cid o)) (vm e i).
(** Load of the engine, engine.py 633-636; [None]: no design value *)
Definition load (Pd : option R) (Pw : param) (e : env) : R :=
  match Pd with None => 1 | Some d => pval e Pw / d end.
(** CombustionEngine.tiP_char_func, engine.py 633-641 *)
Definition tiP_func (lhv : string -> R) (fuels : list string) (inl : list conn) (o : conn) (Pd : option R)
  (gP : R -> R) (Pw : param) (e : env) : R :=
  ti lhv fuels inl [o] e + gP (load Pd Pw e) * pval e Pw.
(** mass flows and fuel fractions of the combustion ports, engine.py 684-688 *)
Definition ti_columns (fuels : list string) (inl : list conn) (o : conn) (f : env -> R) (e : env) : list write :=
  flat_map (fun c => nm f e c ++ nx f e c fuels) (inl ++ [o]).
(** CombustionEngine.tiP_char_deriv, engine.py 682-691 *)
Definition tiP_deriv (lhv : string -> R) (fuels : list string) (inl : list conn) (o : conn) (Pd : option R)
  (gP : R -> R) (Pw : param) (e : env) : list write :=
  let f := tiP_func lhv fuels inl o Pd gP Pw in ti_columns fuels inl o f e ++ nc f e Pw.
(** CombustionEngine.Q1_char_func and Q2_char_func, engine.py 714-724, 809-821; [iw], [ow]:
    cooling water *)
Definition Qchar_func (lhv : string -> R) (fuels : list string) (iw ow : conn) (inl : list conn) (o : conn)
  (Pd : option R) (gQ gP : R -> R) (Pw : param) (e : env) : R :=
  ti lhv fuels inl [o] e * gQ (load Pd Pw e)
  - gP (load Pd Pw e) * vm e iw * (vh e ow - vh e iw).
(** CombustionEngine.Q1_char_deriv and Q2_char_deriv, engine.py 768-786, 865-883 *)
Definition Qchar_deriv (lhv : string -> R) (fuels : list string) (iw ow : conn) (inl : list conn) (o : conn)
  (Pd : option R) (gQ gP : R -> R) (Pw : param) (e : env) : list write :=
  let f := Qchar_func lhv fuels iw ow inl o Pd gQ gP Pw in
  nm f e iw ++ nh f e iw ++ nh f e ow ++ ti_columns fuels inl o f e ++ nc f e Pw.
(** CombustionEngine.Qloss_char_func, engine.py 906-912 *)
Definition Qloss_func (lhv : string -> R) (fuels : list string) (inl : list conn) (o : conn)
  (Pd : option R) (gQ gP : R -> R) (Pw Ql : param) (e : env) : R :=
  ti lhv fuels inl [o] e * gQ (load Pd Pw e) + gP (load Pd Pw e) * pval e Ql.
(** CombustionEngine.Qloss_char_deriv, engine.py 950-961 *)
Definition Qloss_deriv (lhv : string -> R) (fuels : list string) (inl : list conn) (o : conn)
  (Pd : option R) (gQ gP : R -> R) (Pw Ql : param) (e : env) : list write :=
  let f := Qloss_func lhv fuels inl o Pd gQ gP Pw Ql in
  ti_columns fuels inl o f e ++ nc f e Pw ++ nc f e Ql.

(* --------------------------------------------------------------- connections *)

(** fluid_data of a connection with one fraction changed, functions.py 115-122 *)
Definition with_x (f : string) (x : R) (l : comp) : comp :=
  map (fun g => if String.eqb (fst g) f then (fst g, x) else g) l.
(** dT_mix_ph_dfluid, functions.py 115-122 *)
Definition dT_dx (e : env) (c : conn) (f : string) : R :=
  let d := 1 / 100000 in
  (pT P c (vp e c) (vh e c) (with_x f (vx e c f + d) (xs e c))
   - pT P c (vp e c) (vh e c) (with_x f (vx e c f - d) (xs e c))) / (2 * d).
(** Connection.T_func, connection.py 744 *)
Definition T_func (c : conn) (T : R) (e : env) : R := cT e c - T.
(** Connection.T_deriv, connection.py 747-758 *)
Definition T_deriv (c : conn) (e : env) : list write :=
  wr (isv (QP (cid c))) (QP (cid c)) (dT_dp e c)
  ++ wr (isv (QH (cid c))) (QH (cid c)) (dT_dh e c)
  ++ map (fun f => (QF (cf c) f, dT_dx e c f)) (filter (fun f => isv (QF (cf c) f)) (ckeys c)).
(** dv_mix_dph and dv_mix_pdh, functions.py 233-244; here called with the mixing rule of the
    connection *)
Definition dv_dp (e : env) (c : conn) : R :=
  (pv P c (vp e c + step_ph) (vh e c) (xs e c) - pv P c (vp e c - step_ph) (vh e c) (xs e c)) / (2 * step_ph).
(** functions.py 240-244 *)
Definition dv_dh (e : env) (c : conn) : R :=
  (pv P c (vp e c) (vh e c + step_ph) (xs e c) - pv P c (vp e c) (vh e c - step_ph) (xs e c)) / (2 * step_ph).
(** Connection.v_func, connection.py 798 *)
Definition vol_func (c : conn) (v : R) (e : env) : R := cvol e c * vm e c - v.
(** Connection.v_deriv, connection.py 801-806 *)
Definition vol_deriv (c : conn) (e : env) : list write :=
  wr (isv (QM (cm c))) (QM (cm c)) (cvol e c)
  ++ wr (isv (QP (cid c))) (QP (cid c)) (dv_dp e c * vm e c)
  ++ wr (isv (QH (cid c))) (QH (cid c)) (dv_dh e c * vm e c).
(** dT_sat_dp, functions.py 185-189 *)
Definition dTs_dp (e : env) (c : conn) : R :=
  (pTs P c (vp e c + 1 / 100) (xs e c) - pTs P c (vp e c - 1 / 100) (xs e c)) / (2 * (1 / 100)).
(** Connection.Td_bp_func, connection.py 863-865 *)
Definition Td_func (c : conn) (t : R) (e : env) : R := cT e c - cTs e c - t.
(** Connection.Td_bp_deriv, connection.py 868-876 *)
Definition Td_deriv (c : conn) (e : env) : list write :=
  wr (isv (QP (cid c))) (QP (cid c)) (dT_dp e c - dTs_dp e c)
  ++ wr (isv (QH (cid c))) (QH (cid c)) (dT_dh e c).
End Rows.
