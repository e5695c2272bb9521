(** C37, C94, C96: efficiencies, merges at ambient temperature, terminals, engines. *)
From Coq Require Import QArith Lqa.
From Verif Require Import Base ExergyModel ExergySpec ExergyProofs ExergyProofs2.
Open Scope Q_scope.

(** C37 – the exergetic efficiency of every component is product over fuel. *)
Theorem C37_efficiency : forall a Pw Qv d bus i o i1 i2 o1 o2 o3 ins,
  efficient (turbine_exergy a Pw i o) /\ efficient (compressor_exergy a Pw i o)
  /\ efficient (valve_exergy a i o) /\ efficient (hx_exergy a i1 i2 o1 o2)
  /\ efficient (fst (simple_exergy a Qv d i o)) /\ efficient (merge_exergy a ins o)
  /\ efficient (drum_exergy a i1 i2 o1 o2) /\ efficient (electrolyzer_exergy a Pw i1 i2 o1 o2 o3)
  /\ efficient (chamber_exergy a bus i1 i2 o) /\ efficient (terminal_exergy a i).
Proof. exact all_efficient. Qed.
Print Assumptions C37_efficiency.

(** C37 – sources and sinks pass the exergies of their connection to a bus. *)
Theorem C37_terminals : forall a c, exists ch ph,
  E_bus (terminal_exergy a c) = Shares (Some ch) (Some ph) (Some 0)
  /\ ch == x_m c * x_chem c /\ ph == flow_exergy a c
  /\ E_F (terminal_exergy a c) = None /\ E_P (terminal_exergy a c) = None.
Proof. exact terminal_shares. Qed.
Print Assumptions C37_terminals.

(** C94 – a merge at ambient temperature: the fuel is all exergy entering, the rest is nan. *)
Theorem C94_ambient_merge_partial : forall a ins o, x_T o == a_T a ->
  reports (E_F (merge_exergy a ins o)) (sum_of ins (flow_exergy a))
  /\ E_P (merge_exergy a ins o) = None /\ E_D (merge_exergy a ins o) = None
  /\ epsilon (merge_exergy a ins o) = None.
Proof. exact merge_ambient. Qed.
Print Assumptions C94_ambient_merge_partial.

(** C96 – what the engine reports as entropy production, with the signs of the code. *)
Theorem C96_engine_partial : forall T_v eta P Q1 Q2 star1 star2 i1 i2 o1 o2,
  ~ T_v == 0 -> ~ eta == 0 ->
  let e := engine_entropy_balance T_v eta P Q1 Q2 star1 star2 i1 i2 o1 o2 in
  S_irr e * T_v == T_v * (x_m i1 * (x_s o1 - x_s i1) + x_m i2 * (x_s o2 - x_s i2))
                   - Q1 - Q2 + (1 / eta - 1) * P.
Proof. exact engine_entropy_sum. Qed.
Print Assumptions C96_engine_partial.

(** C96 – the parts of it: heat of the two cooling sides between their virtual states against
    the heat at the temperature of combustion, pressure losses of both sides, and the mechanical
    loss. *)
Theorem C96_parts_partial : forall T_v eta P Q1 Q2 star1 star2 i1 i2 o1 o2,
  let e := engine_entropy_balance T_v eta P Q1 Q2 star1 star2 i1 i2 o1 o2 in
  let heat (i : conn) (star : Q * Q) := x_m i * (snd star - fst star) in
  S_Q1irr e == heat i1 star1 - Q1 / T_v /\ S_Q2irr e == heat i2 star2 - Q2 / T_v
  /\ S_irr1 e == x_m i1 * (x_s o1 - x_s i1) - heat i1 star1
  /\ S_irr2 e == x_m i2 * (x_s o2 - x_s i2) - heat i2 star2
  /\ S_irr_i e == (1 / eta - 1) * P / T_v
  /\ S_irr e == S_irr_i e + S_irr1 e + S_irr2 e + S_Q1irr e + S_Q2irr e.
Proof. exact engine_entropy_parts. Qed.
Print Assumptions C96_parts_partial.

(** C97 – what the two would be for single fluids: changes against 298.15 K and 1 bar. *)
Theorem C97_single_partial : forall mixture q i1 i2 o,
  mixture i1 = false -> mixture i2 = false -> mixture o = false ->
  let change c := x_m c * (x_s c - f_s (x_fluid c) 100000 (29815 # 100)) in
  chamber_entropy mixture (Some q) i1 i2 o = Ok (change o)
  /\ exists S, engine_S_Qcomb mixture i1 i2 o = Ok S /\ S == change o - change i1 - change i2.
Proof. exact combustion_single. Qed.
Print Assumptions C97_single_partial.

(** Fuel 8, product 6: efficiency 0.75; no efficiency without fuel. *)
Example C37_efficiency_ex :
  match epsilon (finish (Some 8) (Some 6) no_bus) with Some e => Qeq_bool e (3#4) | None => false end = true
  /\ epsilon (finish (Some 0) (Some 6) no_bus) = None.
Proof. split; vm_compute; reflexivity. Qed.
