(** C233 - C235: printed equations of combustion, characteristics and busses against the
    equations solved. *)
From Coq Require Import QArith Lqa List String Bool.
From Verif Require Import Base CharModel CombModel DocEqModel DocEqProofs2.
From Verif Require OffModel BusModel.
Import ListNotations.
Open Scope Q_scope.

(** C233 – printed and solved agree: mass balance of combustion chambers. *)
Theorem C233_comb_mass : forall ch, d_comb_mass (s_m (c_in1 ch)) (s_m (c_in2 ch)) (s_m (c_out ch)) <-> mass_flow_func ch == 0.
Proof. exact mass_printed. Qed.
Print Assumptions C233_comb_mass.

(** C233 – printed and solved agree: thermal input. *)
Theorem C233_ti : forall ch ti terms r,
  Forall2 (fuel_term ch) (c_fuels ch) terms -> ti_func ch ti = Ok r -> (d_ti ti terms <-> r == 0).
Proof. exact ti_printed. Qed.
Print Assumptions C233_ti.

(** C233 – printed and solved agree: energy balance of combustion chambers, diabatic ones too. *)
Theorem C233_comb_energy : forall href ch h1 h2 ho eta terms r,
  Forall2 (fuel_term ch) (c_fuels ch) terms -> energy_func href ch h1 h2 ho eta = Ok r ->
  (d_comb_energy (s_m (c_in1 ch)) (h1 - href (s_x (c_in1 ch))) (s_m (c_in2 ch)) (h2 - href (s_x (c_in2 ch)))
                 (s_m (c_out ch)) (ho - href (s_x (c_out ch))) eta terms <-> r == 0).
Proof. exact energy_printed. Qed.
Print Assumptions C233_comb_energy.

(** C233 – printed and solved agree: reaction equations at air ratios from 1 on. *)
Theorem C233_stoichiometry : forall ch f dm M nH nC nf l r l',
  fuel_sums ch (c_fuels ch) 0 0 = Ok (nH, nC) -> fuel_moles ch f = Ok nf -> delta ch f dm M ->
  calc_lambda ch = Ok l -> 1 <= l -> (c_lamb_set ch = true -> c_lamb ch == l) ->
  stoichiometry ch f = Ok (r, l') ->
  (d_stoich ch f dm M nH nC nf <-> r == 0).
Proof. exact stoich_printed. Qed.
Print Assumptions C233_stoichiometry.

(** C233 – printed and solved agree: energy balance of engines. *)
Theorem C233_engine_energy : forall e flue ti,
  d_engine_energy (flue + ti) (- e_m1 e * (e_ho1 e - e_hi1 e)) (- e_m2 e * (e_ho2 e - e_hi2 e)) (e_P e) (e_Qloss e)
  <-> engine_energy e flue ti == 0.
Proof. exact engine_energy_printed. Qed.
Print Assumptions C233_engine_energy.

(** C233 – printed and solved agree: characteristics of engines. *)
Theorem C233_engine_chars : forall e ti x ft,
  load e (e_P e) = Ok x -> cl_evaluate (e_tiP e) x = Ok ft ->
  (forall r, tiP_char_func e ti = Ok r -> (d_tiP (e_P e) ft ti <-> r == 0))
  /\ (forall fq r, cl_evaluate (e_Q1c e) x = Ok fq -> Q1_char_func e ti = Ok r ->
      (d_Q_char ti fq (e_m1 e) (e_hi1 e) (e_ho1 e) ft <-> r == 0))
  /\ (forall fq r, cl_evaluate (e_Q2c e) x = Ok fq -> Q2_char_func e ti = Ok r ->
      (d_Q_char ti fq (e_m2 e) (e_hi2 e) (e_ho2 e) ft <-> r == 0))
  /\ (forall fq r, cl_evaluate (e_Qlc e) x = Ok fq -> Qloss_char_func e ti = Ok r ->
      (d_Qloss_char ti fq (e_Qloss e) ft <-> r == 0)).
Proof. exact engine_chars. Qed.
Print Assumptions C233_engine_chars.

(** C233 – the printed argument of characteristics is the one evaluated. *)
Theorem C233_expression : forall vol inl outl param c i o x,
  nth_error inl (OffModel.cin c) = Some i -> nth_error outl (OffModel.cout c) = Some o ->
  d_expr (String.eqb (OffModel.ctype c) "rel") (OffModel.om i) (OffModel.omd i) (OffModel.om o) (OffModel.omd o)
    (OffModel.om i * vol (OffModel.op i) (OffModel.oh i)) (OffModel.ovd i) (OffModel.op i) (OffModel.opd i)
    (OffModel.op o) (OffModel.opd o) (param_no param) = Some x ->
  exists y, OffModel.get_char_expr vol inl outl param c = Ok (Some y) /\ y == x.
Proof. exact expr_printed. Qed.
Print Assumptions C233_expression.

(** C233 – printed and solved agree: characteristics of pumps, valves and simple heat exchangers. *)
Theorem C233_chars : forall (vol : Q -> Q -> Q) (isentropic : Q -> Q -> Q -> Q) inl outl i o c x f,
  nth_error inl 0 = Some i -> nth_error outl 0 = Some o ->
  OffModel.get_char_expr vol inl outl (OffModel.ch_param c) (OffModel.ch_params c) = Ok (Some x) ->
  cl_evaluate (OffModel.ch c) x = Ok f ->
  (forall eta r, OffModel.pump_eta_s_char vol isentropic inl outl eta c = Ok r ->
     (d_pump_char (OffModel.oh i) (OffModel.oh o) (isentropic (OffModel.op i) (OffModel.oh i) (OffModel.op o)) eta f <-> r == 0))
  /\ (forall r, OffModel.flow_char_func vol inl outl c = Ok r -> (d_flow_char (OffModel.op i) (OffModel.op o) f <-> r == 0))
  /\ (forall r, OffModel.dp_char_func vol inl outl c = Ok r -> (d_dp_char (OffModel.op i) (OffModel.op o) f <-> r == 0))
  /\ (forall kA td r, OffModel.kA_char_group_func vol inl outl kA td c = Ok r ->
     (d_simple_kA_char (OffModel.om i) (OffModel.oh i) (OffModel.oh o) kA f td <-> r == 0)).
Proof. exact chars_printed. Qed.
Print Assumptions C233_chars.

(** C233 – printed and solved agree: characteristic of turbines. *)
Theorem C233_turbine_char : forall (vol : Q -> Q -> Q) (isentropic : Q -> Q -> Q -> Q) inl outl i o c x f eta r,
  nth_error inl 0 = Some i -> nth_error outl 0 = Some o ->
  OffModel.get_char_expr vol inl outl (OffModel.ch_param c) OffModel.default_params = Ok (Some x) ->
  cl_evaluate (OffModel.ch c) x = Ok f ->
  OffModel.turbine_eta_s_char vol isentropic inl outl eta c = Ok r ->
  (d_turbine_char (OffModel.oh i) (OffModel.oh o) (isentropic (OffModel.op i) (OffModel.oh i) (OffModel.op o)) eta f <-> r == 0).
Proof. exact turbine_char_printed. Qed.
Print Assumptions C233_turbine_char.

(** C233 – printed and solved agree: characteristics of heat exchangers. *)
Theorem C233_kA_char : forall (vol : Q -> Q -> Q) inl outl i o c1 c2 x1 x2 f1 f2 kA td r,
  nth_error inl 0 = Some i -> nth_error outl 0 = Some o ->
  OffModel.get_char_expr vol inl outl (OffModel.ch_param c1) (OffModel.ch_params c1) = Ok (Some x1) ->
  OffModel.get_char_expr vol inl outl (OffModel.ch_param c2) (OffModel.ch_params c2) = Ok (Some x2) ->
  cl_evaluate (OffModel.ch c1) x1 = Ok f1 -> cl_evaluate (OffModel.ch c2) x2 = Ok f2 ->
  OffModel.kA_char_func vol inl outl kA td c1 c2 = Ok r ->
  (d_kA_char (OffModel.om i) (OffModel.oh i) (OffModel.oh o) kA f1 f2 td <-> r == 0).
Proof. exact kA_char_printed. Qed.
Print Assumptions C233_kA_char.

(** C233 – printed and solved agree: equation of a bus. *)
Theorem C233_bus : forall isv col st n P rows e j vs r j' j'',
  Forall2 (printed_value e) rows vs -> BusModel.solve_bus isv col st n P rows e j = (Ok (r, j'), j'') ->
  (d_bus_sum P vs <-> r == 0).
Proof. exact bus_equation_printed. Qed.
Print Assumptions C233_bus.

(** C234 – a state solves the equation, the printed equation is false: air ratio. *)
Theorem C234_lambda_refuted : exists ch f n o, c_fuels ch = [f] /\ fuel_moles ch (f_name f) = Ok n /\ fuel_moles ch "O2" = Ok o
  /\ 0 < n /\ 0 < o /\ (exists r, lambda_func ch = Ok r /\ r == 0) /\ ~ d_lambda n o (f_C f) (f_H f) (c_lamb ch).
Proof. exact lambda_false. Qed.
Print Assumptions C234_lambda_refuted.

(** C234 – when the printed equation is the one solved: equal molar flows of fuel and oxygen. *)
Theorem C234_lambda_partial : forall ch f n o r, c_fuels ch = [f] -> fuel_moles ch (f_name f) = Ok n -> fuel_moles ch "O2" = Ok o ->
  0 < n -> o == n -> lambda_func ch = Ok r -> (d_lambda n o (f_C f) (f_H f) (c_lamb ch) <-> r == 0).
Proof. exact lambda_equal_flows. Qed.
Print Assumptions C234_lambda_partial.

(** C234 – a state solves the equation, the printed equation is false: reaction equations at air ratios below 1. *)
Theorem C234_rich_refuted : exists ch f dm M nH nC nf, fuel_sums ch (c_fuels ch) 0 0 = Ok (nH, nC) /\ fuel_moles ch f = Ok nf
  /\ delta ch f dm M /\ (exists r l, stoichiometry ch f = Ok (r, l) /\ r == 0) /\ ~ d_stoich ch f dm M nH nC nf.
Proof. exact rich_false. Qed.
Print Assumptions C234_rich_refuted.

(** C235 – a bus with a pump and a fuel cell: all values can be computed, the report raises. *)
Theorem C235_component_refuted : exists rows e vs,
  Forall2 (fun b v => BusModel.calc_bus_value b e = Ok v) rows vs /\ Exists (fun v => ~ v == 0) vs
  /\ document_bus true rows e = Err AttributeError.
Proof. exact component_false. Qed.
Print Assumptions C235_component_refuted.

(** C235 – one component of a class without bus_func_doc, and the report of the bus raises. *)
Theorem C235_component_partial : forall include rows e, Exists (fun b => BusModel.b_comp b = BusModel.CNone) rows ->
  document_bus include rows e = Err AttributeError.
Proof. exact document_bus_none. Qed.
Print Assumptions C235_component_partial.

(** C235 – the report of a bus without components raises if results are included. *)
Theorem C235_empty_always : forall e, document_bus true [] e = Err KeyError /\ document_bus false [] e = Ok [].
Proof. exact document_bus_empty. Qed.
Print Assumptions C235_empty_always.

(** C235 – with components of the other classes only, every component is printed with the expression of its bus_func. *)
Theorem C235_partial : forall include rows e, rows <> [] -> Forall (fun b => BusModel.b_comp b <> BusModel.CNone) rows ->
  exists l, document_bus include rows e = Ok l /\ Forall2 (fun b v => v == BusModel.bus_func (BusModel.b_comp b) e) rows l.
Proof. exact document_bus_ok. Qed.
Print Assumptions C235_partial.

Example C233_bus_ex : exists v, printed_value w_state (w_row (BusModel.CFlow false 0 1 2)) v /\ v == 27 # 5.
Proof. eexists. split; [eexists _, _; split; [vm_compute; reflexivity|split; [vm_compute; reflexivity|reflexivity]]|reflexivity]. Qed.
Example C233_comb_ex : d_stoich (d_ch 128 [] 144 2) "O2" 64 32 4 1 0 /\ ~ d_stoich (d_ch 128 [] 144 2) "O2" 32 32 4 1 0.
Proof. split; [reflexivity|discriminate]. Qed.

