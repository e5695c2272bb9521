(** C270, C271: convergence checks of combustion chambers.  base.py is /repo/src/tespy/components/combustion/base.py. *)
From Coq Require Import QArith Bool List String.
From Verif Require Import Base UpdateModel UpdateSpec FlueSpec FlueProofs.
Import ListNotations.

(** C270 – the unknown fractions of the flue gas are brought into the range that can be expected, those in the range are kept, and all
    unknown fractions are divided by the sum of all. *)
Theorem C270_composition : forall g X ins o ls s s', distinct g -> apart ins o -> wf_fluids X s -> x_f X (k_fl o) <> [] ->
  convergence_check X (Combustion ins o (g_o2 g) (g_co2 g) (g_h2o g) (g_fuels g) ls) s = (s', None) ->
  exists d, ~ (sum_of d == 0)%Q /\ keys d = keys (v_f s (k_fl o))
  /\ (forall f, ~ In f (x_f X (k_fl o)) -> dget f d = dget f (v_f s (k_fl o)) /\ dget f (v_f s' (k_fl o)) = dget f (v_f s (k_fl o)))
  /\ forall f, In f (x_f X (k_fl o)) -> exists q0 q q', dget f (v_f s (k_fl o)) = Some q0 /\ dget f d = Some q
     /\ dget f (v_f s' (k_fl o)) = Some q' /\ (q' == q / sum_of d)%Q
     /\ expected g (mixed X s ins f) f q /\ (expected g (mixed X s ins f) f q0 -> q = q0).
Proof. exact flue_gas. Qed.
Print Assumptions C270_composition.

(** C270 – an unknown mass flow of the outlet is not negative, an unknown enthalpy without good starting value is that of a hot gas; other
    values are kept. *)
Theorem C270_outlet : forall g X ins o ls s s', distinct g -> apart ins o -> own_flow ins o -> wf_fluids X s ->
  convergence_check X (Combustion ins o (g_o2 g) (g_co2 g) (g_h2o g) (g_fuels g) ls) s = (s', None) ->
  (x_m X (k_m o) = true -> 0 <= v_m s' (k_m o))%Q /\ ((0 <= v_m s (k_m o))%Q -> v_m s' (k_m o) = v_m s (k_m o))
  /\ (x_h X (k_id o) = true -> k_good o = false -> 750000 <= v_h s' (k_id o))%Q
  /\ ((750000 <= v_h s (k_id o))%Q \/ k_good o = true -> v_h s' (k_id o) = v_h s (k_id o)).
Proof. exact flue_outlet. Qed.
Print Assumptions C270_outlet.

(** C270 – with an air ratio that is specified or at least two, only negative unknown mass flows of the inlets are replaced. *)
Theorem C270_inlets : forall g X ins o s s', distinct g -> apart ins o -> own_flow ins o -> wf_fluids X s ->
  convergence_check X (Combustion ins o (g_o2 g) (g_co2 g) (g_h2o g) (g_fuels g) false) s = (s', None) ->
  forall i, In i ins -> v_m s' (k_m i) = start_flow X s i.
Proof. exact flue_inlets. Qed.
Print Assumptions C270_inlets.

(** C270 – otherwise the unknown mass flow of fuel at the second inlet becomes 1/25 of that of the air at the first. *)
Theorem C270_fuel : forall g X air fuel o s s', let ins := [air; fuel] in distinct g -> apart ins o -> own_flow ins o -> wf_fluids X s ->
  k_good air = false -> k_good fuel = false -> lists (g_fuels g) s air -> lists (g_fuels g) s fuel ->
  (fuel_share (g_fuels g) s air < 3 # 4)%Q -> (3 # 4 < fuel_share (g_fuels g) s fuel)%Q -> x_m X (k_m fuel) = true ->
  convergence_check X (Combustion ins o (g_o2 g) (g_co2 g) (g_h2o g) (g_fuels g) true) s = (s', None) ->
  v_m s' (k_m fuel) = (start_flow X s air / 25)%Q.
Proof. exact flue_fuel. Qed.
Print Assumptions C270_fuel.

(** C271 – fuel at the first inlet and air at the second: the mass flow of fuel is not corrected. *)
Theorem C271_order_refuted : exists g X air fuel o s s', let ins := [fuel; air] in distinct g /\ apart ins o /\ own_flow ins o /\ wf_fluids X s
  /\ k_good air = false /\ k_good fuel = false /\ lists (g_fuels g) s air /\ lists (g_fuels g) s fuel
  /\ (fuel_share (g_fuels g) s air < 3 # 4)%Q /\ (3 # 4 < fuel_share (g_fuels g) s fuel)%Q /\ x_m X (k_m fuel) = true
  /\ convergence_check X (Combustion ins o (g_o2 g) (g_co2 g) (g_h2o g) (g_fuels g) true) s = (s', None)
  /\ ~ (v_m s' (k_m fuel) == start_flow X s air / 25)%Q.
Proof. exact flue_other_order. Qed.
Print Assumptions C271_order_refuted.

(** C271 – in this order it never is. *)
Theorem C271_order_always : forall g X air fuel o s s', let ins := [fuel; air] in distinct g -> apart ins o -> own_flow ins o -> wf_fluids X s ->
  k_good air = false -> lists (g_fuels g) s air -> (fuel_share (g_fuels g) s air < 3 # 4)%Q ->
  convergence_check X (Combustion ins o (g_o2 g) (g_co2 g) (g_h2o g) (g_fuels g) true) s = (s', None) ->
  v_m s' (k_m fuel) = start_flow X s fuel.
Proof. exact flue_order. Qed.
Print Assumptions C271_order_always.

(** C271 – after the division a fraction may be out of the range it was brought into. *)
Theorem C271_range_refuted : exists g X ins o ls s s' q, distinct g /\ apart ins o /\ own_flow ins o /\ wf_fluids X s /\ In (g_o2 g) (x_f X (k_fl o))
  /\ convergence_check X (Combustion ins o (g_o2 g) (g_co2 g) (g_h2o g) (g_fuels g) ls) s = (s', None)
  /\ dget (g_o2 g) (v_f s' (k_fl o)) = Some q /\ ~ expected g (mixed X s ins (g_o2 g)) (g_o2 g) q.
Proof. exact flue_limits. Qed.
Print Assumptions C271_range_refuted.

Example C270_ex : let s := chamber_state (-3) (mixture (1 # 2) (1 # 20) (1 # 2) (1 # 10) (1 # 10)) in
  let r := convergence_check (open every) (Combustion [flow 0; flow 1] (flow 2) "O2" "CO2" "H2O" ["CH4"] true) s in
  snd r = None /\ (v_m (fst r) 1 == 4 # 10)%Q /\ (v_m (fst r) 2 == 10)%Q /\ (v_h (fst r) 2 == 1000000)%Q
  /\ option_map (fun q => Qle_bool q (mixed (open every) s [flow 0; flow 1] "N2")) (dget "N2" (v_f (fst r) 2)) = Some true
  /\ (mixed (open every) s [flow 0; flow 1] "N2" == 750 # 1001)%Q /\ option_map Qred (dget "CH4" (v_f (fst r) 2)) = Some 0%Q.
Proof. repeat split; cbv; reflexivity. Qed.
Example C270_hyps : distinct gs /\ apart [flow 0; flow 1] (flow 2) /\ own_flow [flow 0; flow 1] (flow 2)
  /\ wf_fluids (open every) (chamber_state 1 (mixture (1 # 2) (1 # 20) (1 # 2) (1 # 10) (1 # 10))).
Proof. split; [exact gs_distinct|]. split; [exact (proj1 flows_apart)|]. split; [exact (proj2 flows_apart)|]. apply state_wf. Qed.
