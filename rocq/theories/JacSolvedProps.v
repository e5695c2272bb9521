(** C200: what solved equations with temperatures, volumes and characteristics mean. *)
From Coq Require Import Reals List String Bool Lra.
From Verif Require Import Base ReportModel SolarModel ConeModel EqnModel JacModel EqnSpec JacWitness
  JacSolvedSpec JacSolvedProofs.
Import ListNotations.
Open Scope R_scope.

(** C200 – zeta is the loss of pressure related to dynamic pressure. *)
Theorem C200_zeta : forall P i o zeta e,
  m_min <= Rabs (vm e i) -> 0 < cvol P e i + cvol P e o ->
  (zeta_func P i o zeta e = 0 <->
   vp e i - vp e o
   = pval e zeta * (8 * Rabs (vm e i) * vm e i * ((cvol P e i + cvol P e o) / 2)) / PI ^ 2).
Proof. exact zeta_solved. Qed.
Print Assumptions C200_zeta.

(** C200 – without flow there is no loss of pressure. *)
Theorem C200_small_flow : forall P i o zeta L D ks e,
  Rabs (vm e i) < m_min ->
  (zeta_func P i o zeta e = 0 <-> vp e i = vp e o) /\
  (darcy_func P i o L D ks e = 0 <-> vp e i = vp e o) /\
  (hw_func P i o L D ks e = 0 <-> vp e i = vp e o).
Proof. exact small_flow_solved. Qed.
Print Assumptions C200_small_flow.

(** C200 – loss of pressure of Darcy-Weisbach with the friction factor at the Reynolds number of the mean viscosity. *)
Theorem C200_darcy : forall P i o L D ks e,
  m_min <= Rabs (vm e i) ->
  (darcy_func P i o L D ks e = 0 <->
   let v := (cvol P e i + cvol P e o) / 2 in
   let mu := (cvisc P e i + cvisc P e o) / 2 in
   let re := 4 * Rabs (vm e i) / (PI * pval e D * mu) in
   vp e i - vp e o
   = 8 * Rabs (vm e i) * vm e i * v * pval e L * pdff P re (pval e ks) (pval e D)
     / (PI ^ 2 * pval e D ^ 5)).
Proof. exact darcy_solved. Qed.
Print Assumptions C200_darcy.

(** C200 – loss of pressure of Hazen-Williams. *)
Theorem C200_hazen_williams : forall P i o L D ks e,
  m_min <= vm e i -> vp e o <= vp e i ->
  (hw_func P i o L D ks e = 0 <->
   vp e i - vp e o
   = (10 + 67 / 100) * Rpower (vm e i) (1852 / 1000) * pval e L
     / (Rpower (pval e ks) (1852 / 1000) * Rpower (pval e D) (4871 / 1000))
     * (9 + 81 / 100) * Rpower ((cvol P e i + cvol P e o) / 2) (852 / 1000)).
Proof. exact hw_solved. Qed.
Print Assumptions C200_hazen_williams.

(** C200 – loss of pressure of the characteristic of a valve. *)
Theorem C200_valve : forall P i o k d e,
  valve_func P i o k d e = 0 <-> vp e i - vp e o = k_fun k (char_expr P k d i o e).
Proof. exact valve_solved. Qed.
Print Assumptions C200_valve.

(** C200 – pressure rise of the characteristic of a pump. *)
Theorem C200_pump_flow : forall P i o k d e,
  pump_flow_func P i o k d e = 0 <-> vp e o - vp e i = k_fun k (char_expr P k d i o e).
Proof. exact pump_flow_solved. Qed.
Print Assumptions C200_pump_flow.

(** C200 – terminal temperature differences; the minimal one is the smaller one. *)
Theorem C200_terminal_differences : forall P i1 i2 o1 o2 t e,
  (ttd_u_func P i1 o2 t e = 0 <-> cT P e i1 - cT P e o2 = pval e t) /\
  (cond_ttd_u_func P i1 o2 t e = 0 <-> cTs P e i1 - cT P e o2 = pval e t) /\
  (ttd_l_func P i2 o1 t e = 0 <-> cT P e o1 - cT P e i2 = pval e t) /\
  (ttd_min_func P i1 i2 o1 o2 t e = 0 <->
   (cT P e i1 - cT P e o2 = pval e t /\ pval e t <= cT P e o1 - cT P e i2) \/
   (cT P e o1 - cT P e i2 = pval e t /\ pval e t <= cT P e i1 - cT P e o2)).
Proof. exact ttd_solved. Qed.
Print Assumptions C200_terminal_differences.

(** C200 – effectiveness of both sides; the maximal one is the larger one. *)
Theorem C200_effectiveness : forall P i1 i2 o1 o2 t e,
  dh_cold P i1 i2 o2 e <> 0 -> dh_hot P i1 i2 o1 e <> 0 ->
  let ec := (vh e o2 - vh e i2) / dh_cold P i1 i2 o2 e in
  let eh := (vh e o1 - vh e i1) / dh_hot P i1 i2 o1 e in
  (eff_cold_func P i1 i2 o2 t e = 0 <-> ec = pval e t) /\
  (eff_hot_func P i1 i2 o1 t e = 0 <-> eh = pval e t) /\
  (eff_max_func P i1 i2 o1 o2 t e = 0 <->
   (ec = pval e t /\ eh <= pval e t) \/ (eh = pval e t /\ ec <= pval e t)).
Proof. exact eff_solved. Qed.
Print Assumptions C200_effectiveness.

(** C200 – heat given off is kA times the logarithmic mean of the terminal differences. *)
Theorem C200_kA : forall P i1 i2 o1 o2 kA e,
  cT P e o2 < cT P e i1 -> cT P e i2 < cT P e o1 ->
  cT P e o1 - cT P e i2 <> cT P e i1 - cT P e o2 ->
  (kA_func P i1 i2 o1 o2 kA e = 0 <->
   vm e i1 * (vh e i1 - vh e o1)
   = pval e kA * lmtd (cT P e o1 - cT P e i2) (cT P e i1 - cT P e o2)).
Proof. exact kA_solved. Qed.
Print Assumptions C200_kA.

(** C200 – the same with the harmonic mean of both characteristics. *)
Theorem C200_kA_char : forall P i1 i2 o1 o2 k1 k2 d1 d2 kA e,
  cT P e o2 < cT P e i1 -> cT P e i2 < cT P e o1 ->
  cT P e o1 - cT P e i2 <> cT P e i1 - cT P e o2 ->
  let f1 := k_fun k1 (char_expr P k1 d1 i1 o1 e) in
  let f2 := k_fun k2 (char_expr P k2 d2 i2 o2 e) in
  0 < f1 -> 0 < f2 ->
  (kA_char_func P i1 i2 o1 o2 k1 k2 d1 d2 kA e = 0 <->
   vm e i1 * (vh e i1 - vh e o1)
   = kA * (2 * f1 * f2 / (f1 + f2)) * lmtd (cT P e o1 - cT P e i2) (cT P e i1 - cT P e o2)).
Proof. exact kA_char_solved. Qed.
Print Assumptions C200_kA_char.

(** C200 – simple heat exchangers: logarithmic mean of the differences to the ambient temperature. *)
Theorem C200_kA_group : forall P i o kA Tamb e,
  Tamb < cT P e i -> Tamb < cT P e o -> cT P e i <> cT P e o ->
  (kA_group_func P i o kA Tamb e = 0 <->
   vm e i * (vh e i - vh e o) = pval e kA * lmtd (cT P e i - Tamb) (cT P e o - Tamb)).
Proof. exact kA_group_solved. Qed.
Print Assumptions C200_kA_group.

(** C200 – the same with a characteristic. *)
Theorem C200_kA_char_group : forall P i o k d kA Tamb e,
  Tamb < cT P e i -> Tamb < cT P e o -> cT P e i <> cT P e o ->
  let f := k_fun k (char_expr P k d i o e) in 0 < f ->
  (kA_char_group_func P i o k d kA Tamb e = 0 <->
   vm e i * (vh e i - vh e o)
   = kA * (2 * f / (f + 1)) * lmtd (cT P e i - Tamb) (cT P e o - Tamb)).
Proof. exact kA_char_group_solved. Qed.
Print Assumptions C200_kA_char_group.

(** C200 – heat of a collector is optical gain less linear and quadratic losses. *)
Theorem C200_solar : forall P i o E eta lin quad A Tamb e,
  solar_func P i o E eta lin quad A Tamb e = 0 <->
  let dT := (cT P e i + cT P e o) / 2 - Tamb in
  vm e i * (vh e o - vh e i)
  = pval e A * (pval e eta * pval e E - pval e lin * dT - pval e quad * dT ^ 2).
Proof. exact solar_solved. Qed.
Print Assumptions C200_solar.

(** C200 – heat of a parabolic trough. *)
Theorem C200_trough : forall P i o E eta aoi doc c1 c2 iam1 iam2 A Tamb e,
  0 < pval e doc ->
  (trough_func P i o E eta aoi doc c1 c2 iam1 iam2 A Tamb e = 0 <->
   let dT := (cT P e i + cT P e o) / 2 - Tamb in
   let k := 1 - pval e iam1 * Rabs (pval e aoi) - pval e iam2 * pval e aoi ^ 2 in
   vm e i * (vh e o - vh e i)
   = pval e A * (pval e eta * pval e E * Rpower (pval e doc) (3 / 2) * k
                 - pval e c1 * dT - pval e c2 * dT ^ 2)).
Proof. exact trough_solved. Qed.
Print Assumptions C200_trough.

(** C200 – isentropic efficiency of pumps and compressors. *)
Theorem C200_pump : forall P i o eta e,
  vh e o <> vh e i ->
  (pump_func P i o eta e = 0 <-> (cis P e i o - vh e i) / (vh e o - vh e i) = pval e eta).
Proof. exact pump_solved. Qed.
Print Assumptions C200_pump.

(** C200 – isentropic efficiency of turbines. *)
Theorem C200_turbine : forall P i o eta e,
  cis P e i o <> vh e i ->
  (turbine_func P i o eta e = 0 <-> (vh e o - vh e i) / (cis P e i o - vh e i) = pval e eta).
Proof. exact turbine_solved. Qed.
Print Assumptions C200_turbine.

(** C200 – efficiency over design efficiency of pumps is the characteristic. *)
Theorem C200_pump_char : forall P i o k d eta e,
  vh e o <> vh e i -> eta <> 0 ->
  (pump_char_func P i o k d eta e = 0 <->
   (cis P e i o - vh e i) / (vh e o - vh e i) / eta = k_fun k (char_expr P k d i o e)).
Proof. exact pump_char_solved. Qed.
Print Assumptions C200_pump_char.

(** C200 – efficiency over design efficiency of turbines is the characteristic. *)
Theorem C200_turbine_char : forall P i o k d eta e,
  cis P e i o <> vh e i -> eta <> 0 ->
  (turbine_char_func P i o k d eta e = 0 <->
   (vh e o - vh e i) / (cis P e i o - vh e i) / eta = k_fun k (char_expr P k d i o e)).
Proof. exact turbine_char_solved. Qed.
Print Assumptions C200_turbine_char.

(** C200 – pressure ratio and efficiency over design are those of the maps at the reduced speed and mass flow. *)
Theorem C200_compressor_map : forall P g Td pd md prd eta i o igva e,
  prd <> 0 -> eta <> 0 ->
  let x := sqrt (Td / cT P e i) in
  let y := vm e i * pd / (md * vp e i * x) in
  (map_pr_func P g Td pd md prd i o igva e = 0 <->
     vp e o / vp e i / prd = g x y (pval e igva)) /\
  (map_eta_func P g Td pd md eta i o igva e = 0 <->
     (cis P e i o - vh e i) / (vh e o - vh e i) / eta = g x y (pval e igva)).
Proof. exact map_solved. Qed.
Print Assumptions C200_compressor_map.

(** C200 – flow coefficient is that of design times the ratio of the Stodola terms. *)
Theorem C200_cone : forall P d i o e,
  0 < vp e i -> 0 < cvol P e i -> 0 < d_p d -> 0 < d_v d -> 0 < d_m d ->
  0 < d_pr d < 1 -> 0 < vp e o < vp e i ->
  (cone_residual P d i o e = 0 <->
   vm e i / sqrt (vp e i / cvol P e i)
   = d_m d / sqrt (d_p d / d_v d)
     * sqrt ((1 - (vp e o / vp e i) ^ 2) / (1 - d_pr d ^ 2))).
Proof. exact cone_solved. Qed.
Print Assumptions C200_cone.

(** C200 – heat of reactors and of cooling loops is given off to the stream. *)
Theorem C200_heat : forall i o Q e,
  (fc_heat_func i o Q e = 0 <-> pval e Q = - (vm e i * (vh e o - vh e i))) /\
  (el_heat_func i o Q e = 0 <-> pval e Q = - (vm e i * (vh e o - vh e i))) /\
  (engine_Q_func i o Q e = 0 <-> pval e Q = - (vm e i * (vh e o - vh e i))).
Proof. exact heat_solved. Qed.
Print Assumptions C200_heat.

(** C200 – gases of the electrolyser have one temperature, streams one pressure. *)
Theorem C200_gases : forall P o1 o2 a b e,
  (gas_T_func P o1 o2 e = 0 <-> cT P e o1 = cT P e o2) /\
  (reactor_p_func a b e = 0 <-> vp e a = vp e b).
Proof. exact gas_solved. Qed.
Print Assumptions C200_gases.

(** C200 – chemical power over power is the efficiency of the characteristic. *)
Theorem C200_electrolyzer_char : forall P i0 o2 k d e0 eta Pw e,
  let c := k_fun k (char_expr P k d i0 o2 e) in
  eta * c <> 0 -> pval e Pw <> 0 ->
  (el_char_func P i0 o2 k d e0 eta Pw e = 0 <-> vm e o2 * e0 / pval e Pw = eta * c).
Proof. exact el_char_solved. Qed.
Print Assumptions C200_electrolyzer_char.

(** C200 – lambda is oxygen supplied over oxygen needed. *)
Theorem C200_lambda : forall M nH nC fuels o2 inl lamb e,
  let supply := rsum (map (fun i => vm e i * vx e i o2 / M o2) inl) in
  let demand := rsum (map (fun f => rsum (map (fun i => vm e i * vx e i f / M f) inl)
                                    * (nH f / 4 + nC f)) fuels) in
  demand <> 0 ->
  (lambda_func M nH nC fuels o2 inl lamb e = 0 <-> supply / demand = pval e lamb).
Proof. exact lambda_solved. Qed.
Print Assumptions C200_lambda.

(** C200 – thermal input: fuel that does not leave times its heating value. *)
Theorem C200_thermal_input : forall lhv fuels inl outl e,
  ti lhv fuels inl outl e
  = rsum (map (fun f => (species_total e f inl - species_total e f outl) * lhv f) fuels).
Proof. exact ti_value. Qed.
Print Assumptions C200_thermal_input.

(** C200 – combustion engine: power, heat and losses are the thermal input times the quotients of the characteristics at the relative load. *)
Theorem C200_engine : forall lhv fuels inl o iw ow Pd gP gQ Pw Ql e,
  let t := rsum (map (fun f => (species_total e f inl - species_total e f [o]) * lhv f) fuels) in
  let x := match Pd with None => 1 | Some d => pval e Pw / d end in
  gP x <> 0 ->
  (tiP_func lhv fuels inl o Pd gP Pw e = 0 <-> - pval e Pw = t / gP x) /\
  (Qchar_func lhv fuels iw ow inl o Pd gQ gP Pw e = 0 <->
     vm e iw * (vh e ow - vh e iw) = t * gQ x / gP x) /\
  (Qloss_func lhv fuels inl o Pd gQ gP Pw Ql e = 0 <-> - pval e Ql = t * gQ x / gP x).
Proof. exact engine_solved. Qed.
Print Assumptions C200_engine.

(** C200 – temperature, volumetric flow and difference to saturation of a connection. *)
Theorem C200_connection : forall P c T v t e,
  (T_func P c T e = 0 <-> cT P e c = T) /\
  (vol_func P c v e = 0 <-> vm e c * cvol P e c = v) /\
  (Td_func P c t e = 0 <-> cT P e c = cTs P e c + t).
Proof. exact connection_solved. Qed.
Print Assumptions C200_connection.

Example C200_kA_ex : forall P kA, 
  let P := {| pT := fun _ _ h _ => h; pTs := pTs P; pv := pv P; pvisc := pvisc P; pis := pis P; phT := phT P;
              phQ := phQ P; pref := pref P; pdff := pdff P |} in
  let e := fun q => match q with QH 0 => 400 | QH 1 => 330 | QH 2 => 300 | QH _ => 350 | _ => 2 end in
  (kA_func P wi wi2 wo wo2 (PVal kA) e = 0 <-> 2 * (400 - 330) = kA * lmtd (330 - 300) (400 - 350))
  /\ cT P e wo2 < cT P e wi /\ cT P e wi2 < cT P e wo.
Proof.
  intros P0 kA P e. assert (A : cT P e wo2 < cT P e wi) by (unfold cT, vh, e; cbn; lra).
  assert (B : cT P e wi2 < cT P e wo) by (unfold cT, vh, e; cbn; lra).
  split; [|split; assumption]. apply (C200_kA P wi wi2 wo wo2 (PVal kA) e A B).
  unfold cT, vh, e; cbn; lra.
Qed.

Example C200_zeta_ex : forall z,
  let e := fun q => match q with QM _ => 2 | QP 0 => 5 | QP _ => 3 | _ => 0 end in
  zeta_func wP wi wo (PVal z) e = 0 <-> 2 = z * 32 / PI ^ 2.
Proof.
  intros z e. rewrite C200_zeta.
  - unfold cvol, vm, vp, xs, vx, e; cbn. rewrite Rabs_pos_eq by lra.
    replace (5 - 3) with 2 by lra.
    replace (8 * 2 * 2 * ((1 + 0 + (1 + 0)) / 2)) with 32 by lra. split; auto.
  - unfold vm, e, m_min; cbn. rewrite Rabs_pos_eq; lra.
  - unfold cvol, xs, vx, e; cbn. lra.
Qed.

Example C200_engine_ex : forall (lhv : string -> R),
  let e := fun q => match q with QM 0 => 1 | QM _ => 3 | QF 0 _ => 1 | QF _ _ => 0 | QP 9 => -4 | _ => 0 end in
  Qloss_func lhv ["CH4"%string] [Conn 0 0 0 ["CH4"%string]] (Conn 1 1 1 ["CH4"%string]) None (fun _ => 1 / 5) (fun _ => 2)
    (PVal 0) (PVal (- 5)) e = 0 <-> 5 = lhv "CH4"%string * (1 / 5) / 2.
Proof.
  intros lhv e.
  destruct (C200_engine lhv ["CH4"%string] [Conn 0 0 0 ["CH4"%string]] (Conn 1 1 1 ["CH4"%string])
    (Conn 2 2 2 nil) (Conn 3 2 3 nil) None (fun _ => 2) (fun _ => 1 / 5) (PVal 0) (PVal (- 5)) e) as (_ & _ & H).
  - lra.
  - rewrite H. unfold species_total, vx, vm, e; cbn. split; intros K; lra.
Qed.
