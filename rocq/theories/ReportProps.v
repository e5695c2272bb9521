(** Reported parameters (C32, C75, C77), mean temperature differences (C33, C76),
    friction losses (C34, C78) and friction factor (C35). *)
From Coq Require Import Reals Lra Bool.
From Verif Require Import Base ReportModel ReportSpec ReportProofs ReportProofs2.
Open Scope R_scope.

(* ============================================ C32: reported = specified value *)

Theorem C32_pressure : forall pr dp p_i p_o, p_i <> 0 ->
  (pr_eq pr p_i p_o = 0 -> pr_report p_i p_o = Ok pr)
  /\ (dp_eq dp p_i p_o = 0 -> dp_report p_i p_o = dp).
Proof.
  exact (fun pr dp p_i p_o N => conj (pr_round_trip pr p_i p_o N)
    (fun H => Rminus_diag_uniq _ _ H)).
Qed.
Print Assumptions C32_pressure.

Theorem C32_power_and_heat : forall P m h_i h_o,
  (power_eq P m h_i h_o = 0 -> power_report m h_i h_o = P)
  /\ (fuel_cell_heat_eq P m h_i h_o = 0 -> reactor_heat_report m h_i h_o = P)
  /\ (electrolyzer_heat_eq P m h_i h_o = 0 -> reactor_heat_report m h_i h_o = P).
Proof.
  unfold power_eq, power_report, fuel_cell_heat_eq, electrolyzer_heat_eq, reactor_heat_report.
  intros. repeat split; intros; lra.
Qed.
Print Assumptions C32_power_and_heat.

Theorem C32_isentropic_efficiency : forall eta h_i h_o his,
  (h_o <> h_i -> pump_eta_eq eta h_i h_o his = 0 ->
   pump_eta_report h_i h_o his = Ok eta)
  /\ (his <> h_i -> turbine_eta_eq eta h_i h_o his = 0 ->
   turbine_eta_report h_i h_o his = Ok eta).
Proof.
  exact (fun eta h_i h_o his => conj (pump_eta_round_trip eta h_i h_o his)
    (turbine_eta_round_trip eta h_i h_o his)).
Qed.
Print Assumptions C32_isentropic_efficiency.

Theorem C32_terminal_differences : forall ttd T_i1 T_i2 T_o1 T_o2,
  (ttd_u_eq ttd T_i1 T_o2 = 0 -> ttd_u_report T_i1 T_o2 = ttd)
  /\ (ttd_l_eq ttd T_o1 T_i2 = 0 -> ttd_l_report T_o1 T_i2 = ttd)
  /\ (ttd_min_eq ttd T_i1 T_i2 T_o1 T_o2 = 0 ->
      ttd_min_report T_i1 T_i2 T_o1 T_o2 = ttd).
Proof.
  intros. split; [| split; [| apply ttd_min_round_trip]];
    unfold ttd_u_eq, ttd_u_report, ttd_l_eq, ttd_l_report; intros; lra.
Qed.
Print Assumptions C32_terminal_differences.

Theorem C32_effectiveness : forall eff dh h_i h_o, dh <> 0 ->
  eff_eq eff dh h_i h_o = 0 -> eff_report dh h_i h_o = Ok eff.
Proof. exact eff_round_trip. Qed.
Print Assumptions C32_effectiveness.

Theorem C32_effectiveness_max : forall eff dh1 dh2 h_i1 h_o1 h_i2 h_o2,
  eff_max_eq eff dh1 dh2 h_i1 h_o1 h_i2 h_o2 = Ok 0 ->
  eff_max_report dh1 dh2 h_i1 h_o1 h_i2 h_o2 = Ok eff.
Proof. exact eff_max_round_trip. Qed.
Print Assumptions C32_effectiveness_max.

Theorem C32_reactors : forall P eta e m e0, m <> 0 -> e0 <> 0 -> P <> 0 ->
  (fc_e_eq P e m = 0 -> e_report P m = Ok e)
  /\ (fc_eta_eq P eta m e0 = 0 -> fc_eta_report P m e0 = Ok eta)
  /\ (el_e_eq P e m = 0 -> e_report P m = Ok e)
  /\ (el_eta_eq P eta m e0 = 0 -> el_eta_report P m e0 = Ok eta).
Proof.
  exact (fun P eta e m e0 M E0 NP =>
    match fc_round_trip P eta e m e0 M E0, el_round_trip P eta e m e0 M NP with
    | conj a b, conj c d => conj a (conj b (conj c d)) end).
Qed.
Print Assumptions C32_reactors.

(** kA of a two-stream exchanger whose temperatures do not cross *)
Theorem C32_kA : forall kA m h_i1 h_o1 T_i1 T_i2 T_o1 T_o2,
  T_o2 < T_i1 -> T_i2 < T_o1 ->
  hx_kA_eq kA m h_i1 h_o1 T_i1 T_i2 T_o1 T_o2 = Ok 0 ->
  hx_kA_report m h_i1 h_o1 T_i1 T_i2 T_o1 T_o2 = Ok (Some kA).
Proof. exact hx_kA_round_trip. Qed.
Print Assumptions C32_kA.

(** kA of the simple exchanger, both ports on the same side of the ambient
    temperature *)
Theorem C32_simple_kA : forall kA m h_i h_o T_i T_o Tamb,
  0 <= kA -> 0 < (T_i - Tamb) * (T_o - Tamb) ->
  simple_kA_eq kA m h_i h_o T_i T_o Tamb = Ok 0 ->
  simple_kA_report m h_i h_o T_i T_o Tamb = Ok kA.
Proof. exact simple_kA_round_trip. Qed.
Print Assumptions C32_simple_kA.

Theorem C32_zeta : forall zeta m vs p_i p_o, 0 < vs -> 1 / 10000 < m ->
  zeta_eq zeta m vs p_i p_o = 0 -> zeta_report m vs p_i p_o = zeta.
Proof. exact zeta_round_trip. Qed.
Print Assumptions C32_zeta.

Example C32_example_pr : pr_eq (1/2) 10 5 = 0 /\ pr_report 10 5 = Ok (1/2).
Proof. split; [unfold pr_eq; lra | apply pr_round_trip; [lra | unfold pr_eq; lra]]. Qed.
Example C32_example_eta :
  turbine_eta_eq (4/5) 3000 2200 2000 = 0 /\ turbine_eta_report 3000 2200 2000 = Ok (4/5).
Proof.
  split; [unfold turbine_eta_eq; lra |].
  apply turbine_eta_round_trip; [lra | unfold turbine_eta_eq; lra].
Qed.
Example C32_example_kA :
  hx_kA_eq 20 1 300 100 360 300 310 350 = Ok 0
  /\ hx_kA_report 1 300 100 360 300 310 350 = Ok (Some 20).
Proof.
  assert (E : hx_kA_eq 20 1 300 100 360 300 310 350 = Ok 0).
  { unfold hx_kA_eq. rewrite hx_td_log_uncrossed by lra. unfold td_log_of.
    replace (310 - 300) with 10 by lra. replace (360 - 350) with 10 by lra.
    rewrite eqb_t. cbn [rbind]. f_equal. lra. }
  split; [exact E | apply hx_kA_round_trip; [lra | lra | exact E]].
Qed.

(* ===================================================== C75: where it is not *)

(** The pressure loss coefficient is reported with the wrong sign for reversed
    flow ... *)
Theorem C75_zeta_reversed_refuted :
  exists zeta m vs p_i p_o, 0 < zeta /\ 0 < vs
    /\ zeta_eq zeta m vs p_i p_o = 0 /\ zeta_report m vs p_i p_o <> zeta.
Proof.
  exists 1, (-1), 1. destruct (zeta_unique 1 (-1) 1 0 ltac:(lra)) as (p_o & H & _).
  exists 0, p_o. split; [lra | split; [lra | split; [exact H |]]].
  rewrite (zeta_round_trip_neg 1 (-1) 1 0 p_o); [lra | lra | unfold m_min; lra | exact H].
Qed.
Print Assumptions C75_zeta_reversed_refuted.

(** ... in every state. *)
Theorem C75_zeta_reversed_partial : forall zeta m vs p_i p_o,
  0 < vs -> m < - (1 / 10000) ->
  zeta_eq zeta m vs p_i p_o = 0 -> zeta_report m vs p_i p_o = - zeta.
Proof. exact zeta_round_trip_neg. Qed.
Print Assumptions C75_zeta_reversed_partial.

(** At negligible flow the coefficient is reported as zero. *)
Theorem C75_zeta_small_flow_refuted :
  exists zeta m vs p_i p_o, 0 < zeta /\ 0 < m /\ 0 < vs
    /\ zeta_eq zeta m vs p_i p_o = 0 /\ zeta_report m vs p_i p_o = 0.
Proof.
  exists 1, (1/20000), 1, 0, 0.
  split; [lra | split; [lra | split; [lra |]]].
  assert (L : Rabs (1/20000) < m_min) by (unfold m_min; rewrite Rabs_right; lra).
  split; [apply zeta_small; [exact L | reflexivity] | apply zeta_report_small; lra].
Qed.
Print Assumptions C75_zeta_small_flow_refuted.

(** The kA equation may hold although nan is reported: with crossed
    temperatures. *)
Theorem C75_kA_nan_refuted :
  exists kA m h_i1 h_o1 T_i1 T_i2 T_o1 T_o2, 0 < kA
    /\ hx_kA_eq kA m h_i1 h_o1 T_i1 T_i2 T_o1 T_o2 = Ok 0
    /\ hx_kA_report m h_i1 h_o1 T_i1 T_i2 T_o1 T_o2 = Ok None.
Proof.
  destruct (hx_td_log_positive 300 310 305 320) as (t & E & P).
  exists 1, 1, t, 0, 300, 310, 305, 320. split; [lra |]. split.
  - unfold hx_kA_eq. rewrite E. cbn [rbind]. f_equal. lra.
  - unfold hx_kA_report, hx_report_td, ttd_l_report, ttd_u_report.
    rewrite (ltb_t (300 - 320) 0) by lra. reflexivity.
Qed.
Print Assumptions C75_kA_nan_refuted.

(* ==================================================== C33: mean differences *)

(** Heat exchanger: defined and positive for all temperatures. *)
Theorem C33_exchanger_defined : forall T_i1 T_i2 T_o1 T_o2,
  exists t, hx_td_log T_i1 T_i2 T_o1 T_o2 = Ok t /\ 0 < t.
Proof. exact hx_td_log_positive. Qed.
Print Assumptions C33_exchanger_defined.

(** Without crossing it is the logarithmic mean of the terminal differences. *)
Theorem C33_exchanger_mean : forall T_i1 T_i2 T_o1 T_o2,
  T_o2 < T_i1 -> T_i2 < T_o1 ->
  exists t, hx_td_log T_i1 T_i2 T_o1 T_o2 = Ok t
    /\ is_log_mean (T_i1 - T_o2) (T_o1 - T_i2) t.
Proof. exact hx_td_log_mean. Qed.
Print Assumptions C33_exchanger_mean.

(** With both ends crossed it is a small constant. *)
Theorem C33_exchanger_crossed : forall T_i1 T_i2 T_o1 T_o2,
  T_i1 <= T_o2 -> T_o1 <= T_i2 ->
  exists t, hx_td_log T_i1 T_i2 T_o1 T_o2 = Ok t /\ is_log_mean (1/100) (2/100) t.
Proof. exact hx_td_log_crossed. Qed.
Print Assumptions C33_exchanger_crossed.

(** The logarithmic mean is determined by the two differences and symmetric. *)
Theorem C33_mean_unique : forall a b t t', 0 < a -> 0 < b ->
  is_log_mean a b t -> is_log_mean b a t' -> t = t'.
Proof.
  exact (fun a b t t' A B H H' =>
    log_mean_unique a b t t' A B H (log_mean_sym b a t' H')).
Qed.
Print Assumptions C33_mean_unique.

(** Simple heat exchanger: both temperatures above, both below, or on different
    sides of the ambient temperature. *)
Theorem C33_simple_above : forall T_i T_o Tamb, Tamb < T_i -> Tamb < T_o ->
  exists t, simple_td_log T_i T_o Tamb = Ok t
    /\ is_log_mean (T_i - Tamb) (T_o - Tamb) t.
Proof.
  exact (fun T_i T_o Tamb A B =>
    match simple_td_same_pos T_i T_o Tamb A B with
    | ex_intro _ t (conj E (conj _ M)) => ex_intro _ t (conj E M) end).
Qed.
Print Assumptions C33_simple_above.

Theorem C33_simple_below : forall T_i T_o Tamb, T_i < Tamb -> T_o < Tamb ->
  exists t, simple_td_log T_i T_o Tamb = Ok (- t)
    /\ is_log_mean (Tamb - T_i) (Tamb - T_o) t.
Proof.
  exact (fun T_i T_o Tamb A B =>
    match simple_td_same_neg T_i T_o Tamb A B with
    | ex_intro _ t (conj E (conj _ M)) => ex_intro _ t (conj E M) end).
Qed.
Print Assumptions C33_simple_below.

Theorem C33_simple_opposite : forall T_i T_o Tamb,
  (T_o < Tamb < T_i \/ T_i < Tamb < T_o) ->
  simple_td_log T_i T_o Tamb = Ok ((T_i + T_o) / 2 - Tamb).
Proof. exact simple_td_opposite. Qed.
Print Assumptions C33_simple_opposite.

Example C33_example : hx_td_log 360 300 310 350 = Ok 10 /\ is_log_mean 10 10 10.
Proof.
  split; [| apply mean_eq; lra]. rewrite hx_td_log_uncrossed by lra. unfold td_log_of.
  replace (310 - 300) with 10 by lra. replace (360 - 350) with 10 by lra.
  rewrite eqb_t. reflexivity.
Qed.

(* ================================================= C76: where it is undefined *)

(** Condenser: crossing temperatures that are both specified. *)
Theorem C76_condenser_refuted :
  exists s_i1 s_i2 s_o1 s_o2 T_i1 T_i2 T_o1 T_o2,
    cond_td_log s_i1 s_i2 s_o1 s_o2 T_i1 T_i2 T_o1 T_o2 = Err ValueError.
Proof.
  exact (ex_intro _ _ (ex_intro _ _ (ex_intro _ _ (ex_intro _ _ (ex_intro _ _
    (ex_intro _ _ (ex_intro _ _ (ex_intro _ _ cond_td_log_raises)))))))).
Qed.
Print Assumptions C76_condenser_refuted.

(** Condenser: defined and positive unless both temperatures at a crossed end are
    specified. *)
Theorem C76_condenser_partial : forall s_i1 s_i2 s_o1 s_o2 T_i1 T_i2 T_o1 T_o2,
  (T_i1 <= T_o2 -> s_i1 && s_o2 = false) -> (T_o1 <= T_i2 -> s_i2 && s_o1 = false) ->
  exists t, cond_td_log s_i1 s_i2 s_o1 s_o2 T_i1 T_i2 T_o1 T_o2 = Ok t /\ 0 < t.
Proof. exact cond_td_log_positive. Qed.
Print Assumptions C76_condenser_partial.

(** Simple heat exchanger: a port at ambient temperature. *)
Theorem C76_simple_refuted : exists T_i T_o Tamb,
  simple_td_log T_i T_o Tamb = Err ZeroDivisionError.
Proof. exact (ex_intro _ 300 (ex_intro _ 290 (ex_intro _ 290 (simple_td_zero 300 290)))). Qed.
Print Assumptions C76_simple_refuted.

Theorem C76_simple_inlet_refuted : exists T_i T_o Tamb e,
  T_o <> Tamb /\ simple_td_log T_i T_o Tamb = Err e.
Proof.
  destruct (simple_td_zero_in 300 290 ltac:(lra)) as (e & E).
  exists 300, 290, 300, e. split; [lra | exact E].
Qed.
Print Assumptions C76_simple_inlet_refuted.

(* ========================================= C77: reporting raises an exception *)

(** After a simulation with a terminal difference of exactly zero the heat
    exchanger's results cannot be computed. *)
Theorem C77_exchanger_refuted : exists m h_i1 h_o1 T_i1 T_i2 T_o1 T_o2 kA,
  hx_kA_eq kA m h_i1 h_o1 T_i1 T_i2 T_o1 T_o2 = Ok 0
  /\ hx_kA_report m h_i1 h_o1 T_i1 T_i2 T_o1 T_o2 = Err ZeroDivisionError.
Proof.
  destruct (hx_td_log_positive 350 300 310 350) as (t & E & P).
  exists 1, t, 0, 350, 300, 310, 350, 1. split.
  - unfold hx_kA_eq. rewrite E. cbn [rbind]. f_equal. lra.
  - unfold hx_kA_report, ttd_l_report, ttd_u_report.
    replace (350 - 350) with 0 by lra. rewrite hx_report_zero_u by lra. reflexivity.
Qed.
Print Assumptions C77_exchanger_refuted.

Theorem C77_exchanger_lower_always : forall m h_i1 h_o1,
  exists T_i1 T_i2 T_o1 T_o2,
  hx_kA_report m h_i1 h_o1 T_i1 T_i2 T_o1 T_o2 = Err ValueError.
Proof.
  intros. exists 360, 300, 300, 350. unfold hx_kA_report, ttd_l_report, ttd_u_report.
  replace (300 - 300) with 0 by lra. rewrite hx_report_zero_l by lra. reflexivity.
Qed.
Print Assumptions C77_exchanger_lower_always.

(** A simple heat exchanger that cools below (heats above) ambient: the equation
    is defined, the report raises. *)
Theorem C77_simple_refuted : exists kA m h_i h_o T_i T_o Tamb,
  simple_kA_eq kA m h_i h_o T_i T_o Tamb = Ok 0
  /\ simple_kA_report m h_i h_o T_i T_o Tamb = Err ValueError.
Proof.
  exists 1, 1, 5, 0, 310, 290, 295. split.
  - unfold simple_kA_eq. rewrite simple_td_opposite by lra. cbn [rbind]. f_equal. lra.
  - unfold simple_kA_report. rewrite simple_report_opposite by lra. reflexivity.
Qed.
Print Assumptions C77_simple_refuted.

(** in every such state *)
Theorem C77_simple_partial : forall m h_i h_o T_i T_o Tamb,
  (T_o < Tamb < T_i \/ T_i < Tamb < T_o) ->
  simple_kA_report m h_i h_o T_i T_o Tamb = Err ValueError.
Proof.
  intros m h_i h_o T_i T_o Tamb H. unfold simple_kA_report.
  rewrite simple_report_opposite by exact H. reflexivity.
Qed.
Print Assumptions C77_simple_partial.

(* ================================================ C34: friction pressure loss *)

Theorem C34_zeta_direction : forall zeta m vs p_i p_o,
  0 < zeta -> 0 < vs -> 1 / 10000 <= Rabs m ->
  zeta_eq zeta m vs p_i p_o = 0 -> drops_along_flow m p_i p_o.
Proof. exact zeta_direction. Qed.
Print Assumptions C34_zeta_direction.

(** For given specific volumes there is exactly one outlet pressure. *)
Theorem C34_zeta_unique : forall zeta m vs p_i, 0 < vs ->
  exists! p_o, zeta_eq zeta m vs p_i p_o = 0.
Proof. exact zeta_unique. Qed.
Print Assumptions C34_zeta_unique.

Theorem C34_zeta_monotone : forall zeta m m' vs p_i p_o p_o',
  0 < zeta -> 0 < vs -> 1 / 10000 <= m -> m < m' ->
  zeta_eq zeta m vs p_i p_o = 0 -> zeta_eq zeta m' vs p_i p_o' = 0 -> p_o' < p_o.
Proof. exact zeta_monotone. Qed.
Print Assumptions C34_zeta_monotone.

Theorem C34_negligible_flow : forall zeta lam L D visc m vs p_i p_o,
  Rabs m < 1 / 10000 ->
  (zeta_eq zeta m vs p_i p_o = 0 <-> p_o = p_i)
  /\ (darcy_eq lam L D visc m vs p_i p_o = 0 <-> p_o = p_i).
Proof.
  intros zeta lam L D visc m vs p_i p_o H. split; [apply zeta_small; exact H |].
  unfold darcy_eq. rewrite ltb_t by exact H. split; intros; lra.
Qed.
Print Assumptions C34_negligible_flow.

(** Darcy equation, for every positive friction factor law. *)
Theorem C34_darcy_direction : forall lam L D visc m vs p_i p_o,
  (forall re, 0 < re -> 0 < lam re) -> 0 < L -> 0 < D -> 0 < visc -> 0 < vs ->
  1 / 10000 <= Rabs m ->
  darcy_eq lam L D visc m vs p_i p_o = 0 -> drops_along_flow m p_i p_o.
Proof. exact darcy_direction. Qed.
Print Assumptions C34_darcy_direction.

Theorem C34_darcy_unique : forall lam L D visc m vs p_i,
  exists! p_o, darcy_eq lam L D visc m vs p_i p_o = 0.
Proof. exact darcy_unique. Qed.
Print Assumptions C34_darcy_unique.

Example C34_example : exists p_o, zeta_eq 100 (-2) 1 10 p_o = 0 /\ 10 < p_o.
Proof.
  destruct (zeta_unique 100 (-2) 1 10 ltac:(lra)) as (p_o & H & _).
  exists p_o. split; [exact H |].
  assert (M : m_min <= Rabs (-2)) by (unfold m_min; rewrite Rabs_left; lra).
  apply (proj2 (zeta_direction 100 (-2) 1 10 p_o ltac:(lra) ltac:(lra) M H)). lra.
Qed.

(* ============================================================ C78: Hazen-Williams *)

(** The equation also holds with the pressure rising along the flow ... *)
Theorem C78_direction_refuted : exists L ks D m vs p_i p_o,
  0 < L /\ 0 < ks /\ 0 < D /\ 0 < vs /\ 0 < m
  /\ hw_eq L ks D m vs p_i p_o = 0 /\ p_i < p_o.
Proof.
  exists 1, 1, 1, 1, 1, 0, (0 + hw_drop 1 1 1 1 1).
  assert (H := hw_drop_pos 1 1 1 1 1 ltac:(lra)).
  repeat split; try lra.
  apply hw_forward; [lra | unfold m_min; lra | right; reflexivity].
Qed.
Print Assumptions C78_direction_refuted.

(** ... so the outlet pressure is not unique: there are exactly two. *)
Theorem C78_two_solutions_partial : forall L ks D m vs p_i, 0 < L -> 1 / 10000 <= m ->
  exists X, 0 < X /\ forall p_o,
    hw_eq L ks D m vs p_i p_o = 0 <-> p_o = p_i - X \/ p_o = p_i + X.
Proof.
  exact (fun L ks D m vs p_i HL M => ex_intro _ (hw_drop L ks D m vs)
    (conj (hw_drop_pos L ks D m vs HL) (fun p_o => hw_forward L ks D m vs p_i p_o HL M))).
Qed.
Print Assumptions C78_two_solutions_partial.

(** For reversed flow there is no solution at all. *)
Theorem C78_reversed_refuted : exists L ks D m vs p_i,
  0 < L /\ 0 < ks /\ 0 < D /\ 0 < vs /\ forall p_o, hw_eq L ks D m vs p_i p_o <> 0.
Proof.
  exists 1, 1, 1, (-1), 1, 0. repeat split; try lra.
  intro p_o. apply hw_backward; [lra | unfold m_min; lra].
Qed.
Print Assumptions C78_reversed_refuted.

Theorem C78_reversed_partial : forall L ks D m vs p_i p_o, 0 < L -> m <= - (1 / 10000) ->
  hw_eq L ks D m vs p_i p_o <> 0.
Proof. exact hw_backward. Qed.
Print Assumptions C78_reversed_partial.

(* ========================================================== C35: friction factor *)

Theorem C35_smooth_increasing : forall re, 0 < re ->
  strictly_increasing_pos (prandtl_karman re).
Proof. exact pk_increasing. Qed.
Print Assumptions C35_smooth_increasing.

Theorem C35_smooth_derivative : forall re l, 0 < re -> 0 < l ->
  derivable_pt_lim (prandtl_karman re) l (prandtl_karman_derivative re l).
Proof. exact pk_derivative. Qed.
Print Assumptions C35_smooth_derivative.

(** The zero exists, is unique and not above the upper limit of the search. *)
Theorem C35_smooth_unique : forall re, 1000000 <= re ->
  exists l, 0 < l <= 2 / 10 /\ prandtl_karman re l = 0 /\
    forall l', 0 < l' -> prandtl_karman re l' = 0 -> l' = l.
Proof. exact pk_one_zero. Qed.
Print Assumptions C35_smooth_unique.

Theorem C35_rough_unique : forall re ks d, 0 < re -> 0 < ks -> 0 < d ->
  ks < 371 / 100 * d -> one_positive_zero (colebrook re ks d).
Proof. exact cb_one_zero. Qed.
Print Assumptions C35_rough_unique.

(** All branches: the factor is positive, or a unique positive one is searched. *)
Theorem C35_factor_positive : forall re ks d l, 0 < re ->
  darcy_friction_factor re ks d = Direct l -> 0 < l.
Proof. exact friction_direct_positive. Qed.
Print Assumptions C35_factor_positive.

Theorem C35_factor_well_posed : forall re ks d f, 0 < d -> 0 <= ks -> ks < 371 / 100 * d ->
  darcy_friction_factor re ks d = Zero_of f -> one_positive_zero f.
Proof. exact friction_search_one_zero. Qed.
Print Assumptions C35_factor_well_posed.

Example C35_example : darcy_friction_factor 1000 0 1 = Direct (64 / 1000).
Proof. unfold darcy_friction_factor. rewrite leb_t by lra. reflexivity. Qed.
