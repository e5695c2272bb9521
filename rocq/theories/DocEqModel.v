(** The equations printed in the report of a model: what the LaTeX code of the methods
    [*_func_doc] says.
    Sources: the methods named below under /repo/src/tespy/components, and
    tools/document_models.py 395-455, tools/global_vars.py 18-100.
    A printed equation "0 = expression" is a proposition about the quantities whose symbols it
    prints; [ln] is the natural logarithm.  The typesetting (spaces, sizes of brackets, roman
    type) is not modelled.  Quantities are reals; the equations of combustion and those with
    characteristic lines are stated for rationals, like their models. *)
From Coq Require Import Reals QArith List.
From Verif Require Import Base.
From Verif Require BusModel.
Import ListNotations.
Open Scope R_scope.

(** The sign of summation, e.g. nodes/base.py 57-60 *)
Definition rsum (l : list R) : R := fold_right Rplus 0 l.

(* ------------------------------------------------------------------- nodes *)

(** nodes/base.py 57-60 mass_flow_func_doc *)
Definition d_mass (ins outs : list R) : Prop := 0 = rsum ins - rsum outs.
(** nodes/base.py 114-123 pressure_equality_func_doc; [ins]: the inlets but the first *)
Definition d_node_pressure (p1 : R) (ins outs : list R) : Prop :=
  (forall p, In p ins -> 0 = p1 - p) /\ (forall p, In p outs -> 0 = p1 - p).
(** nodes/merge.py 225-231 fluid_func_doc, 292-297 energy_balance_func_doc: mass flow and mass
    fraction (enthalpy) of the inlets and of the outlet *)
Definition d_merge (ins : list (R * R)) (out : R * R) : Prop :=
  0 = rsum (map (fun i => fst i * snd i) ins) - fst out * snd out.
(** nodes/droplet_separator.py 215-221 energy_balance_func_doc *)
Definition d_droplet (ins outs : list (R * R)) : Prop :=
  0 = rsum (map (fun i => fst i * snd i) ins) - rsum (map (fun o => fst o * snd o) outs).
(** nodes/droplet_separator.py 283-289 outlet_states_func_doc; [hs x p] is h(p, x) *)
Definition d_outlets (hs : R -> R -> R) (p1 h1 p2 h2 : R) : Prop :=
  0 = h1 - hs 0 p1 /\ 0 = h2 - hs 1 p2.
(** nodes/splitter.py 194-195 energy_balance_func_doc, nodes/separator.py 319-323
    energy_balance_func_doc *)
Definition d_split (x_in : R) (outs : list R) : Prop := forall x, In x outs -> 0 = x_in - x.
(** nodes/separator.py 250-256 fluid_func_doc: for every outlet, without a sum *)
Definition d_separator (i : R * R) (outs : list (R * R)) : Prop :=
  forall o, In o outs -> 0 = fst i * snd i - fst o * snd o.

(* ------------------------------------------------------ equal values, ratios *)

(** component.py 912-920 pressure_equality_func_doc, 970-979 enthalpy_equality_func_doc *)
Definition d_equal (ports : list (R * R)) : Prop := forall io, In io ports -> 0 = fst io - snd io.
(** component.py 1054-1058 and combustion/diabatic.py 253-257 pr_func_doc *)
Definition d_pr (p_in pr p_out : R) : Prop := 0 = p_in * pr - p_out.
(** component.py 1179-1191 zeta_func_doc; [z] is the parameter printed as zeta over D^4 *)
Definition d_zeta (p_in p_out m v_in v_out z : R) : Prop :=
  (Rabs m < 1 / 10000 -> 0 = p_in - p_out)
  /\ (Rabs m >= 1 / 10000 ->
      0 = z - (p_in - p_out) * PI ^ 2 / (8 * m * Rabs m * ((v_in + v_out) / 2))).
(** turbomachinery/base.py 135-138, heat_exchangers/simple.py 289-293
    energy_balance_func_doc, heat_exchangers/base.py 417-420 energy_balance_hot_func_doc *)
Definition d_power (m h_in h_out P : R) : Prop := 0 = m * (h_out - h_in) - P.

(* -------------------------------------------------------------- heat exchangers *)

(** heat_exchangers/base.py 359-363 energy_balance_func_doc *)
Definition d_hx_energy (m1 hi1 ho1 m2 hi2 ho2 : R) : Prop :=
  0 = m1 * (ho1 - hi1) + m2 * (ho2 - hi2).
(** heat_exchangers/base.py 511-518, condenser.py 360-369 kA_func_doc (there with the saturation
    temperature of the hot inlet) *)
Definition d_kA (m hi ho kA T_i1 T_i2 T_o1 T_o2 : R) : Prop :=
  0 = m * (ho - hi) + kA * ((T_o1 - T_i2 - T_i1 + T_o2) / ln ((T_o1 - T_i2) / (T_i1 - T_o2))).
(** heat_exchangers/base.py 668-669, condenser.py 466-469 ttd_u_func_doc *)
Definition d_ttd_u (ttd T_i1 T_o2 : R) : Prop := 0 = ttd - T_i1 + T_o2.
(** heat_exchangers/base.py 723-724 ttd_l_func_doc *)
Definition d_ttd_l (ttd T_o1 T_i2 : R) : Prop := 0 = ttd - T_o1 + T_i2.
(** condenser.py 295-296 subcooling_func_doc, desuperheater.py 225-226 saturated_gas_func_doc *)
Definition d_sat (hs : R -> R) (p h : R) : Prop := 0 = h - hs p.
(** heat_exchangers/simple.py 374-384 darcy_func_doc *)
Definition d_darcy (lam : R -> R) (L D eta_in eta_out m v_in v_out p_in p_out : R) : Prop :=
  let Re := 4 * Rabs m / (PI * D * ((eta_in + eta_out) / 2)) in
  0 = p_in - p_out - 8 * Rabs m * m * ((v_in + v_out) / 2) * L * lam Re / (PI ^ 2 * D ^ 5).
(** heat_exchangers/simple.py 475-481 hazen_williams_func_doc *)
Definition d_hw (L ks D m v_in v_out p_in p_out : R) : Prop :=
  0 = p_in - p_out
      - (10 + 67 / 100) * Rpower (Rabs m) (1852 / 1000) * L
        / (Rpower ks (1852 / 1000) * Rpower D (4871 / 1000)) * (9 + 81 / 100)
        * Rpower ((v_in + v_out) / 2) (852 / 1000).
(** heat_exchangers/simple.py 574-590 kA_group_func_doc: the mean difference *)
Definition d_lmtd (T_in T_out Tamb : R) : R :=
  if Rlt_dec T_out T_in then (T_in - T_out) / ln ((T_in - Tamb) / (T_out - Tamb))
  else if Rlt_dec T_in T_out then (T_out - T_in) / ln ((T_out - Tamb) / (T_in - Tamb))
  else 0.
(** heat_exchangers/simple.py 574-590 kA_group_func_doc *)
Definition d_simple_kA (m hi ho kA T_in T_out Tamb : R) : Prop :=
  0 = m * (ho - hi) + kA * d_lmtd T_in T_out Tamb.
(** heat_exchangers/solar_collector.py 258-269 energy_group_func_doc *)
Definition d_collector (A E eta a1 a2 Tamb m hi ho Ti To : R) : Prop :=
  let Tm := (To + Ti) / 2 in
  0 = m * (ho - hi) - A * (E * eta - a1 * (Tm - Tamb) - a2 * (Tm - Tamb) ^ 2).
(** heat_exchangers/parabolic_trough.py 305-319 energy_group_func_doc; [doc15] is doc^1.5 *)
Definition d_trough (A E eta doc15 iam1 iam2 aoi c1 c2 Tamb m hi ho Ti To : R) : Prop :=
  let Tm := (To + Ti) / 2 in
  let iam := 1 - iam1 * Rabs aoi - iam2 * aoi ^ 2 in
  0 = m * (ho - hi) - A * (E * eta * doc15 * iam - c1 * (Tm - Tamb) - c2 * (Tm - Tamb) ^ 2).

(* ------------------------------------------------------------- turbomachines *)

(** turbomachinery/pump.py 234-237, compressor.py 235-238 eta_s_func_doc *)
Definition d_pump_eta (eta h_in h_out h_s : R) : Prop := 0 = - (h_out - h_in) * eta + (h_s - h_in).
(** turbomachinery/turbine.py 224-227 eta_s_func_doc *)
Definition d_turbine_eta (eta h_in h_out h_s : R) : Prop := 0 = - (h_out - h_in) + (h_s - h_in) * eta.
(** turbomachinery/turbine.py 313-321 cone_func_doc; [m0], [p0], [v0], [po0]: the values of the
    design point *)
Definition d_cone (m0 p0 v0 po0 m p v po : R) : Prop :=
  0 = m0 * p / p0 * sqrt (p0 * v / (p * v0) * ((1 - (po / p) ^ 2) / (1 - (po0 / p0) ^ 2))) - m.

(* ------------------------------------------------------------------ reactors *)

(** reactors/fuel_cell.py 288-289 eta_func_doc *)
Definition d_fc_eta (P eta m e0 : R) : Prop := 0 = P - eta * m * e0.
(** reactors/fuel_cell.py 339-342 heat_func_doc *)
Definition d_fc_heat (Q m hi ho : R) : Prop := 0 = Q + m * (ho - hi).
(** reactors/fuel_cell.py 394-395, water_electrolyzer.py 493-494 *)
Definition d_spec_energy (P m e : R) : Prop := 0 = P - m * e.
(** reactors/fuel_cell.py 459-473 energy_balance_func_doc: mass flows, enthalpies and reference
    enthalpies of the ports *)
Definition d_fc_energy (P m_o2 ho2 ref_o2 m_i1 ho1 hi1 m_i2 hi2 ref_i2 m_i3 hi3 ref_i3 e0 : R) : Prop :=
  0 = P + m_o2 * (ho2 - ref_o2) + m_i1 * (ho1 - hi1) - m_i2 * (hi2 - ref_i2)
      - m_i3 * (hi3 - ref_i3 - e0).
(** reactors/fuel_cell.py 574-583 mass_flow_func_doc: mass flows of the outlets 1 and 2 and the
    inlets 2 and 3 *)
Definition d_fc_mass (Mo2 Mh2 m_out1 m_out2 m_in2 m_in3 : R) : Prop :=
  let O2 := Mo2 / (Mo2 + 2 * Mh2) in
  0 = O2 * m_out1 - m_in2 /\ 0 = (1 - O2) * m_out2 - m_in3.
(** reactors/fuel_cell.py 644-649 reactor_pressure_func_doc *)
Definition d_fc_pressure (p_in2 p_in3 p_out2 : R) : Prop := 0 = p_in2 - p_out2 /\ 0 = p_in3 - p_out2.
(** reactors/water_electrolyzer.py 329-330 gas_temperature_func_doc *)
Definition d_el_T (T_out2 T_out3 : R) : Prop := 0 = T_out2 - T_out3.
(** reactors/water_electrolyzer.py 387-388 eta_func_doc *)
Definition d_el_eta (P eta m e0 : R) : Prop := 0 = P * eta - m * e0.
(** reactors/water_electrolyzer.py 438-441 heat_func_doc *)
Definition d_el_heat (Q m hi ho : R) : Prop := 0 = Q - m * (hi - ho).
(** reactors/water_electrolyzer.py 558-572 energy_balance_func_doc *)
Definition d_el_energy (P m_i2 hi2 ref_i2 m_i1 ho1 hi1 m_o2 ho2 ref_o2 m_o3 ho3 ref_o3 e0 : R) : Prop :=
  0 = P + m_i2 * (hi2 - ref_i2) - m_i1 * (ho1 - hi1) - m_o2 * (ho2 - ref_o2)
      + m_o3 * (ho3 - ref_o3 + e0).
(** reactors/water_electrolyzer.py 748-758 mass_flow_func_doc *)
Definition d_el_mass (Mo2 Mh2 m_in1 m_out1 m_in2 m_out2 m_out3 : R) : Prop :=
  let O2 := Mo2 / (Mo2 + 2 * Mh2) in
  0 = m_in1 - m_out1 /\ 0 = O2 * m_in2 - m_out2 /\ 0 = (1 - O2) * m_in2 - m_out3.
(** reactors/water_electrolyzer.py 821-826 reactor_pressure_func_doc *)
Definition d_el_pressure (p_in2 p_out2 p_out3 : R) : Prop := 0 = p_in2 - p_out2 /\ 0 = p_in2 - p_out3.

(** reactors/water_electrolyzer.py 670-681 eta_char_func_doc *)
Definition d_el_char (P m e0 eta0 f : R) : Prop := 0 = P - m * (e0 / (eta0 * f)).
(** combustion/base.py 446-458 combustion_pressure_func_doc *)
Definition d_comb_pressure (p_in1 p_in2 p_out : R) : Prop := 0 = p_in1 - p_out /\ 0 = p_in1 - p_in2.
(** combustion/engine.py 533-536 Q1_func_doc, 591-594 Q2_func_doc *)
Definition d_engine_Q (m h_in h_out q : R) : Prop := 0 = m * (h_out + h_in) + q.

(* --------------------------------------------------------------- connections *)

(** global_vars.py 67 *)
Definition d_T (T T_spec : R) : Prop := 0 = T - T_spec.
(** global_vars.py 35-36 *)
Definition d_v (m vol V_spec : R) : Prop := 0 = m * vol - V_spec.
(** global_vars.py 91 *)
Definition d_x (h h_of_x : R) : Prop := 0 = h - h_of_x.
(** global_vars.py 76: difference to the boiling point *)
Definition d_Td_bp (dT_spec T_sat : R) : Prop := 0 = dT_spec - T_sat.
(** document_models.py 397: sum of the mass fractions *)
Definition d_balance (xs : list R) : Prop := 0 = 1 - rsum xs.
(** document_models.py 451-453: reference to another connection *)
Definition d_ref (value value_ref factor delta : R) : Prop := 0 = value - value_ref * factor + delta.

(* ------------------------------------------------- combustion, characteristics *)
Open Scope Q_scope.

(* the sum over inlets and fuels *)
(** The sign of summation in combustion/base.py 871-885 *)
Definition qsum (l : list Q) : Q := fold_right Qplus 0 l.
(** combustion/base.py 389-392 mass_flow_func_doc *)
Definition d_comb_mass (m1 m2 mo : Q) : Prop := 0 == m1 + m2 - mo.
(** The bracket in combustion/base.py 1045-1056 for one fuel *)
Definition d_fuel (lhv m1 x1 m2 x2 mo xo : Q) : Q := lhv * (qsum [m1 * x1; m2 * x2] - mo * xo).
(** combustion/base.py 1045-1056 ti_func_doc; [used]: the terms of the fuels *)
Definition d_ti (ti : Q) (used : list Q) : Prop := 0 == ti - qsum used.
(** combustion/base.py 871-885, diabatic.py 345-359 energy_balance_func_doc; [eta] is 1 in the
    first *)
Definition d_comb_energy (m1 dh1 m2 dh2 mo dho eta : Q) (used : list Q) : Prop :=
  0 == qsum [m1 * dh1; m2 * dh2] - mo * dho + qsum used * eta.
(** combustion/base.py 944-953 lambda_func_doc: molar flows of fuel and oxygen, numbers of carbon
    and hydrogen atoms of the fuel *)
Definition d_lambda (fuel o2 nC nH lamb : Q) : Prop := 0 == fuel / (o2 * (nC + (1#4) * nH)) - lamb.
(** combustion/base.py 696-777 stoichiometry_func_doc: oxygen, carbon dioxide, water, a fuel and
    any other fluid.  [dm]: mass flow of the fluid at the inlets minus at the outlet; [nH], [nC]:
    molar flows of hydrogen and carbon in the fuels; [nf]: molar flow of the fuel; [M]: molar
    mass of the fluid *)
Definition d_o2 (dm nH nC M : Q) : Prop := 0 == dm - (nH / 4 + nC) * M.
(** combustion/base.py 719-724 *)
Definition d_co2 (dm nC M : Q) : Prop := 0 == dm + nC * M.
(** combustion/base.py 725-730 *)
Definition d_h2o (dm nH M : Q) : Prop := 0 == dm + nH / 2 * M.
(** combustion/base.py 731-736 *)
Definition d_fuel_eq (dm nf M : Q) : Prop := 0 == dm - nf * M.
(** combustion/base.py 737-738 *)
Definition d_other (dm : Q) : Prop := 0 == dm.

(** combustion/engine.py 433-448 energy_balance_func_doc; [gases]: the first two lines *)
Definition d_engine_energy (gases Q1 Q2 P Ql : Q) : Prop := 0 == gases + Q1 + Q2 + P + Ql.
(** combustion/engine.py 657-668 tiP_char_func_doc *)
Definition d_tiP (P f_ti ti : Q) : Prop := 0 == P * f_ti + ti.
(** combustion/engine.py 740-754 Q1_char_func_doc, 837-851 Q2_char_func_doc *)
Definition d_Q_char (ti f_q m hi ho f_ti : Q) : Prop := 0 == ti * f_q - m * (ho - hi) * f_ti.
(** combustion/engine.py 923-936 Qloss_char_func_doc *)
Definition d_Qloss_char (ti f_q Ql f_ti : Q) : Prop := 0 == ti * f_q + Ql * f_ti.

(** component.py 542-575 get_char_expr_doc, read as a number: the argument X of the
    characteristics; mass flow, its design value, volume flow, its design value, pressures and
    their design values of the port chosen; [None] if nothing is printed *)
Definition d_expr (rel : bool) (m m0 mo mo0 V V0 p p0 po po0 : Q) (param : nat) : option Q :=
  match rel, param with
  | true, 0%nat => Some (m / m0)
  | true, 1%nat => Some (mo / mo0)
  | true, 2%nat => Some (V / V0)
  | true, 3%nat => Some (po * p0 / (po0 * p))
  | false, 0%nat => Some m
  | false, 1%nat => Some mo
  | false, 2%nat => Some V
  | false, 3%nat => Some (po / p)
  | _, _ => None
  end.
(** turbomachinery/turbine.py 403-407 eta_s_char_func_doc *)
Definition d_turbine_char (h_in h_out h_s eta0 f : Q) : Prop := 0 == - (h_out - h_in) + eta0 * f * (h_s - h_in).
(** turbomachinery/pump.py 316-320, compressor.py 317-321 eta_s_char_func_doc *)
Definition d_pump_char (h_in h_out h_s eta0 f : Q) : Prop := 0 == (h_out - h_in) * eta0 * f - (h_s - h_in).
(** turbomachinery/pump.py 381-383 flow_char_func_doc *)
Definition d_flow_char (p_in p_out f : Q) : Prop := 0 == p_out - p_in - f.
(** piping/valve.py 212-223 dp_char_func_doc *)
Definition d_dp_char (p_in p_out f : Q) : Prop := 0 == p_in - p_out - f.
(** heat_exchangers/base.py 598-611, condenser.py 412-426 kA_char_func_doc; [td] is the
    logarithmic mean of the differences, printed as in kA_func_doc *)
Definition d_kA_char (m hi ho kA0 f1 f2 td : Q) : Prop :=
  0 == m * (ho - hi) + kA0 * (2 / (1 / f1 + 1 / f2)) * td.
(** heat_exchangers/simple.py 690-708 kA_char_group_func_doc *)
Definition d_simple_kA_char (m hi ho kA0 f td : Q) : Prop :=
  0 == m * (ho - hi) + kA0 * (2 / (1 + 1 / f)) * td.

(* --------------------------------------------------------------------- busses *)

(** turbomachinery/base.py 203-205, heat_exchangers/base.py 1015-1017, simple.py 774-776
    bus_func_doc: mass flow times difference of enthalpies; with the sign of engine.py 1118-1137
    and water_electrolyzer.py 960-965 for their heat flows *)
Definition d_bus_flow (m h_in h_out : Q) : Q := m * (h_out - h_in).
(** combustion/engine.py 1118-1124 bus_func_doc for Q *)
Definition d_bus_engine (m1 hi1 ho1 m2 hi2 ho2 : Q) : Q := - m1 * (ho1 - hi1) - m2 * (ho2 - hi2).
(** document_models.py 846-849: the value of a component on a bus; base "bus" or not *)
Definition d_bus_value (base_bus : bool) (E eta : Q) : Q := if base_bus then E / eta else E * eta.
(** document_models.py 888: the equation of a bus *)
Definition d_bus_sum (E : Q) (Es : list Q) : Prop := 0 == E - qsum Es.
(** bus_func_doc of the classes (see above and component.py 604-618: the base class has
    bus_func, but no bus_func_doc), the printed expression as a number *)
Definition bus_func_doc (c : BusModel.bcomp) (e : BusModel.env) : res Q :=
  match c with
  | BusModel.CFlow false m hi ho => Ok (d_bus_flow (e m) (e hi) (e ho))
  | BusModel.CFlow true m hi ho => Ok (- e m * (e ho - e hi))
  | BusModel.CEngineQ m1 hi1 ho1 m2 hi2 ho2 => Ok (d_bus_engine (e m1) (e hi1) (e ho1) (e m2) (e hi2) (e ho2))
  | BusModel.CElectrolyzerQ m hi ho => Ok (- e m * (e ho - e hi))
  | BusModel.CNone => Err AttributeError
  end.
(** One bus of the report, document_models.py 770-867: the printed value of every component.
    With results the table is the one of the results, to which the loop adds the column
    "comp eq" (line 850); a bus without components has no such column (line 861).
    [include]: rpt['include_results'].  Not modelled: formats, figures. *)
Definition document_bus (include : bool) (rows : list BusModel.brow) (e : BusModel.env) : res (list Q) :=
  rbind (rmapM (fun b => bus_func_doc (BusModel.b_comp b) e) rows) (fun l =>
  match rows with [] => if include then Err KeyError else Ok [] | _ => Ok l end).
