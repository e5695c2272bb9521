(** Component parameters: the equations they generate, the values reported after
    a simulation, mean temperature differences and friction pressure losses.

    Values are reals; a Python exception is [Err].  The port states are plain
    arguments: pressures p, enthalpies h, temperatures T, specific volumes v.
    Division and [math.log] raise as for Python floats; the value nan is
    [None]. *)
From Coq Require Import Reals Bool.
From Verif Require Import Base.
Open Scope R_scope.

(** Python's [a / b] and [math.log(a)] on floats (temperatures are plain floats,
    not numpy scalars: they come from the property library or from the user);
    as in heat_exchangers/base.py 1119-1179 *)
Definition fdiv (a b : R) : res R :=
  if Req_EM_T b 0 then Err ZeroDivisionError else Ok (a / b).
(** math.log, as in heat_exchangers/base.py 444-472 *)
Definition flog (a : R) : res R :=
  if Rlt_dec 0 a then Ok (ln a) else Err ValueError.

(** Comparison of floats, as in simple.py 887-911 *)
Definition leb (a b : R) : bool := if Rle_dec a b then true else false.
(** Comparison of floats, as in simple.py 887-911 *)
Definition ltb (a b : R) : bool := if Rlt_dec a b then true else false.
(** Comparison of floats, as in heat_exchangers/base.py 444-472 *)
Definition eqb (a b : R) : bool := if Req_EM_T a b then true else false.

(* ------------------------------------------------- mean temperature difference *)

(** The last lines of calculate_td_log, heat_exchangers/base.py 467-470 and
    condenser.py 339-342 *)
Definition td_log_of (ttd_l ttd_u : R) : res R :=
  if eqb ttd_u ttd_l then Ok ttd_l
  else rbind (fdiv ttd_l ttd_u) (fun q =>
       rbind (flog q) (fun l => fdiv (ttd_l - ttd_u) l)).

(** HeatExchanger.calculate_td_log, heat_exchangers/base.py 443-472, line by
    line, as a function of the four port temperatures. *)
Definition hx_td_log (T_i1 T_i2 T_o1 T_o2 : R) : res R :=
  let T_i1 := if leb T_i1 T_o2 then T_o2 + 1/100 else T_i1 in
  let T_o2 := if leb T_i1 T_o2 then T_i1 - 1/100 else T_o2 in
  let T_o1 := if leb T_i1 T_o2 then T_i2 + 2/100 else T_o1 in
  let T_i2 := if leb T_o1 T_i2 then T_o1 - 2/100 else T_i2 in
  td_log_of (T_o1 - T_i2) (T_i1 - T_o2).

(** Condenser.calculate_td_log, heat_exchangers/condenser.py 316-344; [T_i1] is
    the saturation temperature of the hot inlet, the flags are the
    [T.is_set] of the ports. *)
Definition cond_td_log (s_i1 s_i2 s_o1 s_o2 : bool) (T_i1 T_i2 T_o1 T_o2 : R)
  : res R :=
  let T_i1 := if leb T_i1 T_o2 && negb s_i1 then T_o2 + 1/2 else T_i1 in
  let T_o2 := if leb T_i1 T_o2 && negb s_o2 then T_i1 - 1/2 else T_o2 in
  let T_o1 := if leb T_o1 T_i2 && negb s_o1 then T_i2 + 1 else T_o1 in
  let T_i2 := if leb T_o1 T_i2 && negb s_i2 then T_o1 - 1 else T_i2 in
  td_log_of (T_o1 - T_i2) (T_i1 - T_o2).

(** SimpleHeatExchanger.kA_group_func, heat_exchangers/simple.py 543-556, and
    kA_char_group_func 659-670: mean difference to the ambient temperature *)
Definition simple_td_log (T_i T_o Tamb : R) : res R :=
  let ttd_1 := T_i - Tamb in
  let ttd_2 := T_o - Tamb in
  rbind (fdiv ttd_1 ttd_2) (fun q =>
    if ltb q 0 then Ok ((ttd_2 + ttd_1) / 2)
    else if ltb ttd_2 ttd_1 then
      rbind (fdiv ttd_1 ttd_2) (fun q => rbind (flog q) (fun l => fdiv (ttd_1 - ttd_2) l))
    else if ltb ttd_1 ttd_2 then
      rbind (fdiv ttd_2 ttd_1) (fun q => rbind (flog q) (fun l => fdiv (ttd_2 - ttd_1) l))
    else Ok ttd_2).

(** The mean difference in HeatExchanger.calc_parameters (and Condenser),
    heat_exchangers/base.py 1141-1149, condenser.py 495-503 *)
Definition hx_report_td (ttd_l ttd_u : R) : res (option R) :=
  if ltb ttd_u 0 || ltb ttd_l 0 then Ok None
  else if eqb ttd_l ttd_u then Ok (Some ttd_l)
  else rbind (fdiv ttd_l ttd_u) (fun q => rbind (flog q) (fun l =>
       rbind (fdiv (ttd_l - ttd_u) l) (fun t => Ok (Some t)))).

(** The same in SimpleHeatExchanger.calc_parameters, simple.py 895-906: the
    first [if] has no effect, the second decides. *)
Definition simple_report_td (T_i T_o Tamb : R) : res R :=
  let ttd_1 := T_i - Tamb in
  let ttd_2 := T_o - Tamb in
  rbind (fdiv ttd_1 ttd_2) (fun _ =>
    if ltb ttd_2 ttd_1 then
      rbind (fdiv ttd_1 ttd_2) (fun q => rbind (flog q) (fun l => fdiv (ttd_1 - ttd_2) l))
    else if ltb ttd_1 ttd_2 then
      rbind (fdiv ttd_2 ttd_1) (fun q => rbind (flog q) (fun l => fdiv (ttd_2 - ttd_1) l))
    else Ok ttd_1).

(* ------------------------------------------------------- equations and reports *)

(** pressure ratio: component.py 1031, reports heat_exchangers/base.py 1129,
    simple.py 891, turbomachinery/base.py 241, valve.py 320 *)
Definition pr_eq (pr p_i p_o : R) : R := p_i * pr - p_o.
(** Reported pressure ratio, heat_exchangers/base.py 1129 *)
Definition pr_report (p_i p_o : R) : res R := fdiv p_o p_i.

(** pressure difference: component.py 1261, report base.py 1134-1135 *)
Definition dp_eq (dp p_i p_o : R) : R := p_i - p_o - dp.
(** Reported pressure difference, heat_exchangers/base.py 1134-1135 *)
Definition dp_report (p_i p_o : R) : R := p_i - p_o.

(** power and heat: turbomachinery/base.py 118-119, simple.py 271-273,
    heat_exchangers/base.py 399-401; reports base.py 239-240, simple.py 890,
    heat_exchangers/base.py 1119-1121 *)
Definition power_eq (P m h_i h_o : R) : R := m * (h_o - h_i) - P.
(** Reported power and heat, turbomachinery/base.py 239-241, simple.py 887-911 *)
Definition power_report (m h_i h_o : R) : R := m * (h_o - h_i).

(** heat of the reactors: fuel_cell.py 322-323, water_electrolyzer.py 421-422;
    reports 837-839, 1160-1162 *)
Definition fuel_cell_heat_eq (Q m h_i h_o : R) : R := Q + m * (h_o - h_i).
(** water_electrolyzer.py 421-422 *)
Definition electrolyzer_heat_eq (Q m h_i h_o : R) : R := Q - m * (h_i - h_o).
(** fuel_cell.py 837-846, water_electrolyzer.py 1160-1169 *)
Definition reactor_heat_report (m h_i h_o : R) : R := - m * (h_o - h_i).

(** isentropic efficiency: pump.py 205-218, compressor.py 206-219, report
    508-517, 656-665; turbine.py 193-208, report 253-267.  [his] is the enthalpy
    after the isentropic change. *)
Definition pump_eta_eq (eta h_i h_o his : R) : R :=
  (h_o - h_i) * eta - (his - h_i).
(** pump.py 504-517, compressor.py 652-665 *)
Definition pump_eta_report (h_i h_o his : R) : res R := fdiv (his - h_i) (h_o - h_i).
(** turbine.py 193-208 *)
Definition turbine_eta_eq (eta h_i h_o his : R) : R :=
  - (h_o - h_i) + (his - h_i) * eta.
(** turbine.py 254-267 *)
Definition turbine_eta_report (h_i h_o his : R) : res R :=
  fdiv (h_o - h_i) (his - h_i).

(** terminal temperature differences: heat_exchangers/base.py 652, 707, 774,
    reports 1122-1124 *)
Definition ttd_u_eq (ttd T_i1 T_o2 : R) : R := ttd - T_i1 + T_o2.
(** heat_exchangers/base.py 1119-1179 *)
Definition ttd_u_report (T_i1 T_o2 : R) : R := T_i1 - T_o2.
(** heat_exchangers/base.py 703-707 *)
Definition ttd_l_eq (ttd T_o1 T_i2 : R) : R := ttd - T_o1 + T_i2.
(** heat_exchangers/base.py 1119-1179 *)
Definition ttd_l_report (T_o1 T_i2 : R) : R := T_o1 - T_i2.
(** heat_exchangers/base.py 761-774 *)
Definition ttd_min_eq (ttd T_i1 T_i2 T_o1 T_o2 : R) : R :=
  ttd - Rmin (T_o1 - T_i2) (T_i1 - T_o2).
(** heat_exchangers/base.py 1119-1179 *)
Definition ttd_min_report (T_i1 T_i2 T_o1 T_o2 : R) : R :=
  Rmin (ttd_u_report T_i1 T_o2) (ttd_l_report T_o1 T_i2).

(** effectiveness of one side, [dh] its largest enthalpy difference:
    heat_exchangers/base.py 828-831, 893-896, reports 1154-1157, 1167-1170 *)
Definition eff_eq (eff dh h_i h_o : R) : R := eff * dh - (h_o - h_i).
(** heat_exchangers/base.py 1119-1179 *)
Definition eff_report (dh h_i h_o : R) : res R := fdiv (h_o - h_i) dh.
(** 945-953, report 1179 *)
Definition eff_max_eq (eff dh1 dh2 h_i1 h_o1 h_i2 h_o2 : R) : res R :=
  rbind (eff_report dh1 h_i1 h_o1) (fun a =>
  rbind (eff_report dh2 h_i2 h_o2) (fun b => Ok (eff - Rmax a b))).
(** heat_exchangers/base.py 1179 *)
Definition eff_max_report (dh1 dh2 h_i1 h_o1 h_i2 h_o2 : R) : res R :=
  rbind (eff_report dh1 h_i1 h_o1) (fun a =>
  rbind (eff_report dh2 h_i2 h_o2) (fun b => Ok (Rmax a b))).

(** kA of the heat exchanger: heat_exchangers/base.py 491-495, report
    1119-1124 and 1141-1150; nan stays nan *)
Definition hx_kA_eq (kA m h_i1 h_o1 T_i1 T_i2 T_o1 T_o2 : R) : res R :=
  rbind (hx_td_log T_i1 T_i2 T_o1 T_o2) (fun t => Ok (m * (h_o1 - h_i1) + kA * t)).
(** heat_exchangers/base.py 1119-1179 *)
Definition hx_kA_report (m h_i1 h_o1 T_i1 T_i2 T_o1 T_o2 : R) : res (option R) :=
  rbind (hx_report_td (ttd_l_report T_o1 T_i2) (ttd_u_report T_i1 T_o2)) (fun t =>
  match t with
  | None => Ok None
  | Some t => rbind (fdiv (- power_report m h_i1 h_o1) t) (fun k => Ok (Some k))
  end).

(** kA of the condenser: condenser.py 316-344 used by kA_func
    (heat_exchangers/base.py 491-495), report condenser.py 473-504; [Ts] is the
    saturation temperature of the hot inlet. *)
Definition cond_kA_eq (s_i1 s_i2 s_o1 s_o2 : bool)
  (kA m h_i1 h_o1 Ts T_i2 T_o1 T_o2 : R) : res R :=
  rbind (cond_td_log s_i1 s_i2 s_o1 s_o2 Ts T_i2 T_o1 T_o2)
    (fun t => Ok (m * (h_o1 - h_i1) + kA * t)).

(** kA of the simple heat exchanger: simple.py 540-558, report 890, 894-908 *)
Definition simple_kA_eq (kA m h_i h_o T_i T_o Tamb : R) : res R :=
  rbind (simple_td_log T_i T_o Tamb) (fun t => Ok (m * (h_o - h_i) + kA * t)).
(** simple.py 887-911 *)
Definition simple_kA_report (m h_i h_o T_i T_o Tamb : R) : res R :=
  rbind (simple_report_td T_i T_o Tamb) (fun t =>
  rbind (fdiv (power_report m h_i h_o) t) (fun k => Ok (Rabs k))).

(** reactors: fuel_cell.py 272, 378, reports 841-842; water_electrolyzer.py 371,
    477, reports 1164-1165; [m] is the hydrogen mass flow *)
Definition fc_eta_eq (P eta m e0 : R) : R := P - eta * m * e0.
(** fuel_cell.py 378 *)
Definition fc_e_eq (P e m : R) : R := P - m * e.
(** fuel_cell.py 837-846, water_electrolyzer.py 1160-1169 *)
Definition e_report (P m : R) : res R := fdiv P m.
(** fuel_cell.py 837-846 *)
Definition fc_eta_report (P m e0 : R) : res R :=
  rbind (e_report P m) (fun e => fdiv e e0).
(** water_electrolyzer.py 371 *)
Definition el_eta_eq (P eta m e0 : R) : R := P * eta - m * e0.
(** water_electrolyzer.py 477 *)
Definition el_e_eq (P e m : R) : R := P - m * e.
(** water_electrolyzer.py 1160-1169 *)
Definition el_eta_report (P m e0 : R) : res R :=
  rbind (e_report P m) (fun e => fdiv e0 e).

(* ------------------------------------------------------------- friction losses *)

(** Component.zeta_func and calc_zeta, component.py 1092-1099, 1143-1156; [vs]
    is the sum of the specific volumes at inlet and outlet.  Simplification:
    [vs] is positive, so the divisions do not raise. *)
Definition m_min : R := 1 / 10000.
(** Component.zeta_func, component.py 1143-1156 *)
Definition zeta_eq (zeta m vs p_i p_o : R) : R :=
  if ltb (Rabs m) m_min then p_i - p_o
  else zeta - (p_i - p_o) * PI ^ 2 / (8 * Rabs m * m * vs / 2).
(** Component.calc_zeta, component.py 1093-1099 *)
Definition zeta_report (m vs p_i p_o : R) : R :=
  if leb (Rabs m) m_min then 0
  else (p_i - p_o) * PI ^ 2 / (4 * m ^ 2 * vs).

(** SimpleHeatExchanger.darcy_func, simple.py 340-358; [lam] is the friction
    factor as a function of the Reynolds number, [visc] the sum of the
    viscosities. *)
Definition darcy_eq (lam : R -> R) (L D visc m vs p_i p_o : R) : R :=
  if ltb (Rabs m) m_min then p_i - p_o
  else (p_i - p_o)
       - 8 * Rabs m * m * vs / 2 * L
         * lam (4 * Rabs m / (PI * D * visc / 2)) / (PI ^ 2 * D ^ 5).

(** [math.copysign(x, y)] for y different from zero; as in simple.py 444-459 *)
Definition copysign (x y : R) : R := if ltb y 0 then - Rabs x else Rabs x.

(** SimpleHeatExchanger.hazen_williams_func, simple.py 444-459 *)
Definition hw_eq (L ks D m vs p_i p_o : R) : R :=
  if ltb (Rabs m) m_min then p_i - p_o
  else copysign (p_i - p_o) m
       - (10 + 67 / 100) * Rpower (Rabs m) (1852 / 1000) * L
         / (Rpower ks (1852 / 1000) * Rpower D (4871 / 1000))
         * ((9 + 81 / 100) * Rpower (vs / 2) (852 / 1000)).

(* -------------------------------------------------------------- friction factor *)

(** [math.log10], [x ** 0.5] for positive arguments *)
Definition log10 (x : R) : R := ln x / ln 10.

(** tools/fluid_properties/helpers.py 265-362: blasius, hanakov,
    prandtl_karman, prandtl_karman_derivative, colebrook *)
Definition blasius (re : R) : R := 3164 / 10000 * Rpower re (- (1 / 4)).
(** helpers.py 296 *)
Definition hanakov (re : R) : R := / (18 / 10 * log10 re - 15 / 10) ^ 2.
(** helpers.py 318-321 *)
Definition prandtl_karman (re l : R) : R :=
  2 * log10 (re * Rpower l (1 / 2)) - 8 / 10 - 1 / Rpower l (1 / 2).
(** helpers.py 326-329 *)
Definition prandtl_karman_derivative (re l : R) : R :=
  1 / (l * ln 10) + 5 / 10 * Rpower l (- (15 / 10)).
(** helpers.py 357-362 *)
Definition colebrook (re ks d l : R) : R :=
  2 * log10 (251 / 100 / (re * Rpower l (1 / 2)) + ks / (371 / 100 * d))
  + 1 / Rpower l (1 / 2).

(** darcy_friction_factor, helpers.py 220-261: the friction factor of the
    branches with a formula; the other branches search a zero of the function
    given. *)
Inductive friction := Direct (l : R) | Zero_of (f : R -> R).
(** helpers.py 220-262 *)
Definition darcy_friction_factor (re ks d : R) : friction :=
  if leb re 2320 then Direct (64 / re)
  else if ltb (re * ks / d) 65 then
    if leb re 10000 then Direct (blasius re)
    else if ltb re 1000000 then Direct (hanakov re)
    else Zero_of (prandtl_karman re)
  else Zero_of (colebrook re ks d).
