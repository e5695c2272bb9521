(** Exergy and entropy balances: C37, C93-C97. *)
From Coq Require Import QArith Lqa.
From Verif Require Import Base ExergyModel ExergySpec ExergyProofs ExergyWitness.
Open Scope Q_scope.

(* ================================================================== C37 *)

(** Physical exergy: thermal and mechanical share add up to the flow exergy; the
    thermal share vanishes at ambient temperature, both at the ambient state. *)
Theorem C37_split : forall a c,
  Ex_therm a c + Ex_mech a c == flow_exergy a c /\ Ex_physical a c == flow_exergy a c
  /\ (at_state c -> x_T c = a_T a -> ex_therm a c == 0 /\ (x_p c = a_p a -> ex_mech a c == 0)).
Proof.
  exact (fun a c => conj (physical_split a c) (conj (flow_is_physical a c) (dead_state a c))).
Qed.
Print Assumptions C37_split.

(** The destruction of every component with an own balance is the exergy supplied
    minus the exergy leaving, whatever the temperatures; the turbomachines, valves
    and merges report nan in exactly the cases stated. *)
Theorem C37_turbine : forall a P i o,
  (E_D (turbine_exergy a P i o) = None <-> x_T i < a_T a < x_T o)
  /\ forall d, E_D (turbine_exergy a P i o) = Some d -> d == net a P [i] [o].
Proof. exact turbine_destruction. Qed.
Print Assumptions C37_turbine.
Theorem C37_compressor : forall a P i o,
  (E_D (compressor_exergy a P i o) = None <-> x_T o < a_T a < x_T i)
  /\ forall d, E_D (compressor_exergy a P i o) = Some d -> d == net a P [i] [o].
Proof. exact compressor_destruction. Qed.
Print Assumptions C37_compressor.
Theorem C37_valve : forall a i o,
  (E_D (valve_exergy a i o) = None <-> x_T i <= a_T a < x_T o)
  /\ forall d, E_D (valve_exergy a i o) = Some d -> d == net a 0 [i] [o].
Proof. exact valve_destruction. Qed.
Print Assumptions C37_valve.
Theorem C37_heat_exchanger : forall a i1 i2 o1 o2,
  reports (E_D (hx_exergy a i1 i2 o1 o2)) (net a 0 [i1; i2] [o1; o2]).
Proof. exact hx_destruction. Qed.
Print Assumptions C37_heat_exchanger.
Theorem C37_merge : forall a ins o,
  (E_D (merge_exergy a ins o) = None <-> x_T o == a_T a)
  /\ (sum_of ins x_m == x_m o ->
      forall d, E_D (merge_exergy a ins o) = Some d -> d == net a 0 ins [o]).
Proof. exact merge_destruction. Qed.
Print Assumptions C37_merge.
Theorem C37_drum : forall a i1 i2 o1 o2,
  reports (E_D (drum_exergy a i1 i2 o1 o2)) (net a 0 [i1; i2] [o1; o2]).
Proof. exact drum_destruction. Qed.
Print Assumptions C37_drum.
Theorem C37_combustion_chamber : forall a b i1 i2 o,
  reports (E_D (chamber_exergy a b i1 i2 o))
    (net a 0 [i1; i2] [o] + (x_m i1 * x_chem i1 + x_m i2 * x_chem i2 - x_m o * x_chem o)).
Proof. exact chamber_destruction. Qed.
Print Assumptions C37_combustion_chamber.

(** Gouy-Stodola: with the energy balance the destruction is the ambient
    temperature times the entropy production the entropy balance reports. *)
Theorem C37_entropy_turbomachine : forall a P i o, same_stream i o -> P == x_m i * (x_h o - x_h i) ->
  (forall d, E_D (turbine_exergy a P i o) = Some d -> d == a_T a * flow_entropy i o)
  /\ (forall d, E_D (compressor_exergy a P i o) = Some d -> d == a_T a * flow_entropy i o).
Proof. exact turbomachine_gouy. Qed.
Print Assumptions C37_entropy_turbomachine.
Theorem C37_entropy_valve : forall a i o, same_stream i o -> x_h o == x_h i ->
  forall d, E_D (valve_exergy a i o) = Some d -> d == a_T a * flow_entropy i o.
Proof. exact valve_gouy. Qed.
Print Assumptions C37_entropy_valve.
Theorem C37_entropy_heat_exchanger : forall a s1 s2 i1 i2 o1 o2, same_stream i1 o1 -> same_stream i2 o2 ->
  x_m i1 * (x_h o1 - x_h i1) + x_m i2 * (x_h o2 - x_h i2) == 0 ->
  reports (E_D (hx_exergy a i1 i2 o1 o2)) (a_T a * hx_entropy s1 s2 i1 i2 o1 o2).
Proof. exact hx_gouy. Qed.
Print Assumptions C37_entropy_heat_exchanger.
Theorem C37_entropy_merge : forall a f ins o, (forall c, In c (ins ++ [o])%list -> x_fluid c = f) ->
  sum_of ins x_m == x_m o -> sum_of ins (fun c => x_m c * x_h c) == x_m o * x_h o ->
  forall d, E_D (merge_exergy a ins o) = Some d -> d == a_T a * merge_entropy ins o.
Proof. exact merge_gouy. Qed.
Print Assumptions C37_entropy_merge.
Theorem C37_entropy_drum : forall a f i1 i2 o1 o2, (forall c, In c [i1; i2; o1; o2] -> x_fluid c = f) ->
  x_m i1 + x_m i2 == x_m o1 + x_m o2 ->
  x_m i1 * x_h i1 + x_m i2 * x_h i2 == x_m o1 * x_h o1 + x_m o2 * x_h o2 ->
  reports (E_D (drum_exergy a i1 i2 o1 o2)) (a_T a * produced [i1; i2] [o1; o2]).
Proof. exact drum_gouy. Qed.
Print Assumptions C37_entropy_drum.

(** A heat exchanger with closed energy balance, both sides crossing the ambient
    temperature 5: hot side 8 to 4, cold side 1 to 7. *)
Example C37_example :
  let a := {| a_p := 1; a_T := 5 |} in
  let i1 := st 0 1 1 8 in let o1 := st 0 1 1 4 in let i2 := st 0 1 1 1 in let o2 := st 0 1 1 7 in
  x_m i1 * (x_h o1 - x_h i1) + x_m i2 * (x_h o2 - x_h i2) == 0
  /\ option_map Qred (E_D (hx_exergy a i1 i2 o1 o2)) = Some 10
  /\ Qred (a_T a * hx_entropy (0, 0) (0, 0) i1 i2 o1 o2) = 10.
Proof. vm_compute. auto. Qed.

(* ============================================ C93: simple heat exchanger *)

(** Cooling below the ambient temperature without pressure loss: negative
    destruction. *)
Theorem C93_cooling_refuted : exists a Qv i o d,
  at_state i /\ at_state o /\ same_stream i o /\ x_p i = x_p o /\ Qv == x_m i * (x_h o - x_h i)
  /\ Qv < 0 /\ x_T o < x_T i < a_T a
  /\ E_D (fst (simple_exergy a Qv (Some false) i o)) = Some d /\ d < 0.
Proof.
  exists amb, (-(2800 + 50)), (st 0 1 1 290), (st 0 1 1 280). eexists.
  split; [split; reflexivity |]. split; [split; reflexivity |]. split; [split; reflexivity |].
  split; [reflexivity |]. split; [vm_compute; reflexivity |]. split; [vm_compute; reflexivity |].
  split; [split; vm_compute; reflexivity |]. split; [vm_compute; reflexivity | vm_compute; reflexivity].
Qed.
Print Assumptions C93_cooling_refuted.

(** Heating across the ambient temperature without pressure loss: negative
    destruction. *)
Theorem C93_heating_refuted : exists a Qv i o d,
  at_state i /\ at_state o /\ same_stream i o /\ x_p i = x_p o /\ Qv == x_m i * (x_h o - x_h i)
  /\ 0 < Qv /\ x_T i < a_T a < x_T o
  /\ E_D (fst (simple_exergy a Qv (Some false) i o)) = Some d /\ d < 0.
Proof.
  exists amb, (6000), (st 0 1 1 290), (st 0 1 1 310). eexists.
  split; [split; reflexivity |]. split; [split; reflexivity |]. split; [split; reflexivity |].
  split; [reflexivity |]. split; [vm_compute; reflexivity |]. split; [vm_compute; reflexivity |].
  split; [split; vm_compute; reflexivity |]. split; [vm_compute; reflexivity | vm_compute; reflexivity].
Qed.
Print Assumptions C93_heating_refuted.

(** A dissipative exchanger heated below the ambient temperature: the exergy of
    the pressure loss is not counted. *)
Theorem C93_pressure_refuted : exists a Qv i o d,
  at_state i /\ at_state o /\ same_stream i o /\ Qv == x_m i * (x_h o - x_h i)
  /\ 0 < Qv /\ x_T i < x_T o < a_T a
  /\ E_D (fst (simple_exergy a Qv (Some true) i o)) = Some d /\ ~ d == net a 0 [i] [o].
Proof.
  exists amb, (2849), (st 1 1 2 280), (st 1 1 1 290). eexists.
  split; [split; reflexivity |]. split; [split; reflexivity |]. split; [split; reflexivity |].
  split; [vm_compute; reflexivity |]. split; [vm_compute; reflexivity |].
  split; [split; vm_compute; reflexivity |]. split; [vm_compute; reflexivity |].
  intro X. vm_compute in X. discriminate X.
Qed.
Print Assumptions C93_pressure_refuted.

(** The cases in which it is consistent: destruction is the net exergy of the
    stream plus or minus the exergy of the heat on the bus. *)
Theorem C93_simple_partial : forall a Qv i o,
  (Qv < 0 -> a_T a <= x_T i -> a_T a <= x_T o ->
     reports (E_D (fst (simple_exergy a Qv (Some true) i o))) (net a 0 [i] [o])
     /\ exists e, massless_of (fst (simple_exergy a Qv (Some false) i o)) = Some e
        /\ reports (E_D (fst (simple_exergy a Qv (Some false) i o))) (net a 0 [i] [o] - e))
  /\ (forall d, 0 < Qv -> a_T a <= x_T i -> a_T a <= x_T o ->
     exists e, massless_of (fst (simple_exergy a Qv d i o)) = Some e
     /\ reports (E_D (fst (simple_exergy a Qv d i o))) (net a 0 [i] [o] + e))
  /\ (0 < Qv -> x_T i < a_T a - (1 # 1000000) -> x_T o < a_T a ->
     exists e, massless_of (fst (simple_exergy a Qv (Some false) i o)) = Some e
     /\ reports (E_D (fst (simple_exergy a Qv (Some false) i o))) (net a 0 [i] [o] - e))
  /\ (forall d, reports (E_D (fst (simple_exergy a 0 d i o))) (net a 0 [i] [o])).
Proof.
  exact (fun a Qv i o => conj (simple_rejecting a Qv i o) (conj (fun d => simple_heated a Qv d i o)
    (conj (simple_cold a Qv i o) (fun d => simple_adiabatic a d i o)))).
Qed.
Print Assumptions C93_simple_partial.

Example C93_example :
  let b := fst (simple_exergy amb (-(45000)) (Some false) (st 1 1 3 500) (st 1 1 2 400)) in
  option_map Qred (E_D b) = Some 1 /\ option_map Qred (massless_of b) = Some 15000.
Proof. vm_compute. auto. Qed.

(* ======================================================= C94: nan results *)

(** A turbine heated above, a compressor cooled below the ambient temperature and
    a merge at the ambient temperature have no destruction. *)
Theorem C94_reported_refuted :
  (exists a P i o, E_D (turbine_exergy a P i o) = None)
  /\ (exists a P i o, E_D (compressor_exergy a P i o) = None)
  /\ (exists a i o, E_D (valve_exergy a i o) = None)
  /\ (exists a i1 i2 o, at_state i1 /\ at_state i2 /\ at_state o
      /\ x_m i1 + x_m i2 == x_m o /\ x_m i1 * x_h i1 + x_m i2 * x_h i2 == x_m o * x_h o
      /\ 0 < net a 0 [i1; i2] [o] /\ E_D (merge_exergy a [i1; i2] o) = None).
Proof.
  split; [exists amb, 0, (st 0 1 1 290), (st 0 1 1 310); vm_compute; reflexivity |].
  split; [exists amb, 0, (st 0 1 1 310), (st 0 1 1 290); vm_compute; reflexivity |].
  split; [exists amb, (st 0 1 1 290), (st 0 1 1 310); vm_compute; reflexivity |].
  exists {| a_p := 1; a_T := 5 |}, (st 0 1 1 7), (st 0 1 1 1), (st 0 2 1 5).
  split; [split; reflexivity |]. split; [split; reflexivity |]. split; [split; reflexivity |].
  split; [vm_compute; reflexivity |]. split; [vm_compute; reflexivity |].
  split; vm_compute; reflexivity.
Qed.
Print Assumptions C94_reported_refuted.

(* ====================================================== C95: electrolyser *)

(** An ideal electrolyser (power equals chemical exergy gained) whose cooling
    water passes unchanged reports minus twice the exergy of the cooling water. *)
Theorem C95_electrolyzer_refuted : exists a P i1 i2 o1 o2 o3 d,
  o1 = i1 /\ P == Ex_chemical o2 + Ex_chemical o3 - Ex_chemical i2
  /\ at_state i1 /\ E_D (electrolyzer_exergy a P i1 i2 o1 o2 o3) = Some d /\ d < 0.
Proof.
  exists amb, 0, (st 0 1 1 310), (st 0 1 1 300), (st 0 1 1 310), (st 0 1 1 300), (st 0 1 1 300). eexists.
  split; [reflexivity |]. split; [vm_compute; reflexivity |]. split; [split; reflexivity |].
  split; vm_compute; reflexivity.
Qed.
Print Assumptions C95_electrolyzer_refuted.

(* ========================================== C96: entropy of the engine *)

(** Reversible heating of the cooling water at the inner temperature is reported
    as entropy production of twice the transferred entropy; mechanical losses
    count as negative production. *)
Theorem C96_engine_heat_refuted : exists T_v eta P Q1 Q2 star1 star2 i1 i2 o1 o2,
  Q1 == - (x_m i1 * (x_h o1 - x_h i1)) /\ 0 < T_v
  /\ x_m i1 * (snd star1 - fst star1) == x_m i1 * (x_h o1 - x_h i1) / T_v
  /\ ~ S_Q1irr (engine_entropy_balance T_v eta P Q1 Q2 star1 star2 i1 i2 o1 o2) == 0.
Proof.
  exists 4, 1, 0, (-(8)), 0, (3, 5), (0, 0), (st 0 1 1 3), (st 0 1 1 3), (st 0 1 1 5), (st 0 1 1 3).
  split; [vm_compute; reflexivity |]. split; [vm_compute; reflexivity |]. split; [vm_compute; reflexivity |].
  intro X. vm_compute in X. discriminate X.
Qed.
Print Assumptions C96_engine_heat_refuted.
Theorem C96_engine_mechanical_refuted : exists T_v eta P Q1 Q2 star1 star2 i1 i2 o1 o2,
  0 < T_v /\ 0 < eta < 1 /\ P < 0
  /\ S_irr_i (engine_entropy_balance T_v eta P Q1 Q2 star1 star2 i1 i2 o1 o2) < 0.
Proof.
  exists 4, (1#2), (-(8)), 0, 0, (0, 0), (0, 0), (st 0 1 1 3), (st 0 1 1 3), (st 0 1 1 3), (st 0 1 1 3).
  split; [vm_compute; reflexivity |]. split; [split; vm_compute; reflexivity |].
  split; vm_compute; reflexivity.
Qed.
Print Assumptions C96_engine_mechanical_refuted.

(* ==================================================== C97: no exceptions *)

(** The exergy balance of every combustion engine and the entropy balance of every
    combustion chamber raise; that of an engine does if flue gas, fuel or air is a mixture. *)
Theorem C97_balances_always :
  (forall a P i1 i2 i3 i4 o1 o2 o3, engine_exergy AConnection a P i1 i2 i3 i4 o1 o2 o3 = Err TypeError)
  /\ (forall mixture i1 i2 o, chamber_entropy mixture None i1 i2 o = Err (if mixture o then KeyError else AttributeError))
  /\ (forall mixture i3 i4 o3, mixture i3 = true \/ mixture i4 = true \/ mixture o3 = true ->
      engine_S_Qcomb mixture i3 i4 o3 = Err KeyError).
Proof. exact combustion_balances. Qed.
Print Assumptions C97_balances_always.

(** Engine and chamber with any ports. *)
Theorem C97_balances_refuted : exists a P i1 i2 i3 i4 o1 o2 o3 mixture,
  engine_exergy AConnection a P i1 i2 i3 i4 o1 o2 o3 = Err TypeError /\ chamber_entropy mixture None i1 i2 o1 = Err AttributeError.
Proof.
  exists amb, 0, (st 0 1 1 3), (st 0 1 1 3), (st 0 1 1 3), (st 0 1 1 3), (st 0 1 1 3), (st 0 1 1 3), (st 0 1 1 3), (fun _ => false).
  split; [apply combustion_balances | exact (proj1 (proj2 combustion_balances) _ _ _ _)].
Qed.
Print Assumptions C97_balances_refuted.

(** With the exergies of the cooling water instead of its connections the destruction of the engine would be the exergy supplied
    minus the exergy leaving. Missing: the code subtracts the connections. *)
Theorem C97_meant_partial : forall a P i1 i2 i3 i4 o1 o2 o3,
  (exists b d, engine_exergy (fun c => ANumber (Ex_physical a c)) a P i1 i2 i3 i4 o1 o2 o3 = Ok b /\ E_D b = Some d
     /\ d == net a P [i1; i2; i3; i4] [o1; o2; o3] + (x_m i3 * x_chem i3 + x_m i4 * x_chem i4 - x_m o3 * x_chem o3)).
Proof. exact engine_meant. Qed.
Print Assumptions C97_meant_partial.
