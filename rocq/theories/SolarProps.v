(** C147-C150: solar collectors and steam turbines. *)
From Coq Require Import Reals Lra.
From Verif Require Import SolarModel SolarSpec SolarProofs.
Open Scope R_scope.

(** C147 – heat is the irradiation absorbed less thermal losses; the reported losses are
    the optical and thermal losses, at most zero if the collector is not colder than the
    surroundings. *)
Theorem C147_collector : forall A E eta lin quad Tamb m h_i h_o T_i T_o,
  collector_eq A E eta lin quad Tamb m h_i h_o T_i T_o = 0 ->
  let dT := (T_i + T_o) / 2 - Tamb in
  heat m h_i h_o = A * E * eta - A * (lin * dT + quad * dT ^ 2) /\
  - collector_loss A E m h_i h_o = A * E * (1 - eta) + A * (lin * dT + quad * dT ^ 2) /\
  (0 <= A -> 0 <= E -> 0 <= eta <= 1 -> 0 <= lin -> 0 <= quad -> 0 <= dT -> collector_loss A E m h_i h_o <= 0 /\ heat m h_i h_o <= A * E).
Proof. exact collector_balance. Qed.
Print Assumptions C147_collector.

(** C147 – the same of parabolic troughs. *)
Theorem C147_trough : forall A E eta doc iam_1 iam_2 aoi c_1 c_2 Tamb m h_i h_o T_i T_o,
  trough_eq A E eta doc iam_1 iam_2 aoi c_1 c_2 Tamb m h_i h_o T_i T_o = 0 ->
  let dT := (T_i + T_o) / 2 - Tamb in
  let k := eta * pow15 doc * (1 - iam_1 * Rabs aoi - iam_2 * aoi ^ 2) in
  heat m h_i h_o = A * E * k - A * (c_1 * dT + c_2 * dT ^ 2) /\
  - trough_loss A E m h_i h_o = A * E * (1 - k) + A * (c_1 * dT + c_2 * dT ^ 2) /\
  (0 <= A -> 0 <= E -> 0 <= eta <= 1 -> 0 <= doc <= 1 -> 0 <= iam_1 -> 0 <= iam_2 -> 0 <= c_1 -> 0 <= c_2 -> 0 <= dT ->
   trough_loss A E m h_i h_o <= 0 /\ heat m h_i h_o <= A * E).
Proof. exact trough_balance. Qed.
Print Assumptions C147_trough.

(** C147 – the entry of the mass flow in the Jacobian is the derivative. *)
Theorem C147_entry : forall A E eta lin quad Tamb h_i h_o T_i T_o m,
  derivable_pt_lim (fun m => collector_eq A E eta lin quad Tamb m h_i h_o T_i T_o) m (collector_m_entry h_i h_o).
Proof. exact collector_entry. Qed.
Print Assumptions C147_entry.

Example C147_ex : collector_eq 10 800 (9 / 10) 2 (1 / 10) 300 1 0 6900 310 310 = 0 /\ collector_loss 10 800 1 0 6900 = -1100.
Proof. unfold collector_eq, collector_loss, heat. split; lra. Qed.

(** C148 – parabolic troughs within their limits: more irradiation may yield less heat, the
    incidence angle modifier becoming negative. *)
Theorem C148_grazing_refuted : exists A E E' eta doc iam_1 iam_2 aoi c_1 c_2 Tamb m h_i h_o h_o' T, 0 < A /\ 0 <= E /\ E < E' /\ 0 <= eta <= 1 /\ 0 <= doc <= 1 /\
  0 <= iam_1 /\ 0 <= iam_2 /\ -90 <= aoi <= 90 /\ 0 <= c_1 /\ 0 <= c_2 /\
  trough_eq A E eta doc iam_1 iam_2 aoi c_1 c_2 Tamb m h_i h_o T T = 0 /\
  trough_eq A E' eta doc iam_1 iam_2 aoi c_1 c_2 Tamb m h_i h_o' T T = 0 /\ heat m h_i h_o' < heat m h_i h_o.
Proof. exact grazing_trough. Qed.
Print Assumptions C148_grazing_refuted.

(** C148 – a collector colder than its surroundings may lose heat: the quadratic losses
    have no sign. *)
Theorem C148_cold_refuted : exists A E eta lin quad Tamb m h_i h_o T_i T_o, 0 < A /\ 0 <= E /\ 0 <= eta <= 1 /\ 0 <= lin /\ 0 <= quad /\
  T_i < Tamb /\ T_o < Tamb /\ collector_eq A E eta lin quad Tamb m h_i h_o T_i T_o = 0 /\ heat m h_i h_o < A * E * eta.
Proof. exact cold_collector. Qed.
Print Assumptions C148_cold_refuted.

(** C148 – more irradiation, not less heat, if the modifier is not negative. Missing: negative modifiers. *)
Theorem C148_more_sun_partial : forall A E E' eta doc iam_1 iam_2 aoi c_1 c_2 Tamb m h_i h_o h_o' T_i T_o,
  0 <= A -> 0 <= eta -> 0 <= doc <= 1 -> iam_1 * Rabs aoi + iam_2 * aoi ^ 2 <= 1 -> E <= E' ->
  trough_eq A E eta doc iam_1 iam_2 aoi c_1 c_2 Tamb m h_i h_o T_i T_o = 0 ->
  trough_eq A E' eta doc iam_1 iam_2 aoi c_1 c_2 Tamb m h_i h_o' T_i T_o = 0 -> heat m h_i h_o <= heat m h_i h_o'.
Proof. exact more_sun. Qed.
Print Assumptions C148_more_sun_partial.

(** C148 – a collector colder than its surroundings gains heat if there are no quadratic losses. Missing: quadratic losses. *)
Theorem C148_cold_partial : forall A E eta lin Tamb m h_i h_o T_i T_o,
  0 <= A -> 0 <= lin -> (T_i + T_o) / 2 <= Tamb ->
  collector_eq A E eta lin 0 Tamb m h_i h_o T_i T_o = 0 -> A * E * eta <= heat m h_i h_o.
Proof. exact cold_gains. Qed.
Print Assumptions C148_cold_partial.

(** C149 – where the equation of a steam turbine holds, the expansion has the dry
    efficiency as long as there is vapour only, and the dry efficiency reduced by alpha
    times the mean wetness below the saturation line. *)
Theorem C149_expansion : forall f eta_dry alpha i o,
  searches f -> his f (pp i) (hh i) (pp o) <> hh i -> eta_s_wet f eta_dry alpha i o = Ok 0 ->
  (ph i = TwoPhase -> expands f (pp i) (hh i) (pp o) (hh o) (eta_dry * (1 - alpha * (((1 - xx i) + (1 - xx o)) / 2)))) /\
  (ph i <> TwoPhase -> ph o = Gas -> expands f (pp i) (hh i) (pp o) (hh o) eta_dry) /\
  (ph i <> TwoPhase -> ph o <> Gas -> exists ps, Rmin (pp i) (pp o) <= ps <= Rmax (pp i) (pp o) /\
     expands f (pp i) (hh i) ps (hvap f ps) eta_dry /\
     expands f ps (hvap f ps) (pp o) (hh o) (eta_dry * (1 - alpha * ((1 - xx o) / 2)))).
Proof. exact turbine_solution. Qed.
Print Assumptions C149_expansion.

(** C149 – wetness never lowers the outlet enthalpy. *)
Theorem C149_wet_worse : forall f p h p' h' eta_dry alpha y,
  0 <= eta_dry -> 0 <= alpha -> 0 <= y -> his f p h p' <= h ->
  expands f p h p' h' (eta_dry * (1 - alpha * y)) -> forall hd, expands f p h p' hd eta_dry -> hd <= h'.
Proof. exact wet_worse. Qed.
Print Assumptions C149_wet_worse.

(** C149 – a dry expansion that ends on the saturation line satisfies the equation of wet expansions. *)
Theorem C149_saturated : forall f eta_dry alpha i o,
  searches f -> isentropic_at f -> ph i <> TwoPhase -> ph o <> Gas -> xx o = 1 -> hh o = hvap f (pp o) ->
  his f (pp i) (hh i) (pp o) <> hh i -> eta_s f i o = eta_dry -> eta_s_wet f eta_dry alpha i o = Ok 0.
Proof. exact at_saturation. Qed.
Print Assumptions C149_saturated.

Example C149_ex : eta_s_wet w_steam (1 / 2) 1 {| pp := 10; hh := 4; ph := Gas; xx := 1 |} {| pp := 2; hh := 0; ph := TwoPhase; xx := 1 |} = Ok 0.
Proof.
  destruct w_searches as (A & B). apply at_saturation; try exact A; try exact B; try discriminate; cbn; try reflexivity; [lra|]. unfold eta_s. cbn. field.
Qed.

(** C150 – a steam turbine with the largest alpha admitted: the enthalpy increases on
    expansion of wet steam. *)
Theorem C150_negative_refuted : exists i o, eta_s_wet w_steam 1 (5 / 2) i o = Ok 0 /\ ph i = TwoPhase /\ ph o = TwoPhase /\ 0 <= xx i <= 1 /\ 0 <= xx o <= 1 /\
  pp o < pp i /\ hh i < hh o.
Proof. exact negative_efficiency. Qed.
Print Assumptions C150_negative_refuted.

(** C150 – a dry expansion of steam hotter than the critical temperature, which CoolProp
    calls supercritical gas: the equation raises ValueError. *)
Theorem C150_hot_refuted : exists f i o eta_dry alpha, searches f /\ isentropic_at f /\ 0 < eta_dry <= 1 /\ 0 < pp o < pp i /\
  hvap f (pp o) < hh o /\ hvap f (pp i) < hh i /\ ph i = phase_ph SupercriticalGas /\ ph o = phase_ph SupercriticalGas /\
  expands f (pp i) (hh i) (pp o) (hh o) eta_dry /\ eta_s_wet f eta_dry alpha i o = Err ValueError.
Proof. exact hot_expansion. Qed.
Print Assumptions C150_hot_refuted.

(** C150 – expansion of wet steam: the outlet enthalpy lies between that of the isentropic
    expansion and the inlet if alpha times mean wetness is at most 1.
    Missing: larger products, and unrecognised phases. *)
Theorem C150_moderate_partial : forall f eta_dry alpha i o,
  searches f -> his f (pp i) (hh i) (pp o) < hh i -> eta_s_wet f eta_dry alpha i o = Ok 0 ->
  ph i = TwoPhase -> 0 <= eta_dry <= 1 -> 0 <= alpha -> 0 <= xx i <= 1 -> 0 <= xx o <= 1 -> alpha * (1 - (xx i + xx o) / 2) <= 1 ->
  his f (pp i) (hh i) (pp o) <= hh o <= hh i.
Proof. exact moderate_wetness. Qed.
Print Assumptions C150_moderate_partial.
