(** C228, C229: convergence checks of turbomachines. *)
From Coq Require Import QArith Bool List.
From Verif Require Import Base UpdateModel FeasSpec FeasProofs.
Import ListNotations.

(** C228 – after the check of a compressor the pressure does not fall, if one of both can be corrected. *)
Theorem C228_compressor_p : forall X i o s, two i o -> p_positive i o s -> p_free X i o ->
  p_rises i o (fst (convergence_check X (Compressor i o) s)).
Proof. exact compressor_p. Qed.
Print Assumptions C228_compressor_p.

(** C228 – nor the enthalpy, if both are positive. *)
Theorem C228_compressor_h : forall X i o s, two i o -> h_positive i o s -> h_free X i o ->
  h_rises i o (fst (convergence_check X (Compressor i o) s)).
Proof. exact compressor_h. Qed.
Print Assumptions C228_compressor_h.

(** C228 – after the check of a turbine the pressure falls, if the outlet can be corrected. *)
Theorem C228_turbine_p : forall X i o s, two i o -> p_positive i o s -> x_p X (k_id o) = true ->
  p_falls i o (fst (convergence_check X (Turbine i o) s)).
Proof. exact turbine_p. Qed.
Print Assumptions C228_turbine_p.

(** C228 – so does the enthalpy, if both are positive. *)
Theorem C228_turbine_h : forall X i o s, two i o -> h_positive i o s -> x_h X (k_id o) = true ->
  h_falls i o (fst (convergence_check X (Turbine i o) s)).
Proof. exact turbine_h. Qed.
Print Assumptions C228_turbine_h.

(** C228 – after the check of a pump the pressure does not fall, if the inlet can be corrected. *)
Theorem C228_pump_p : forall X i o flow s, two i o -> p_positive i o s -> x_p X (k_id i) = true ->
  p_rises i o (fst (convergence_check X (Pump i o flow) s)).
Proof. exact pump_p. Qed.
Print Assumptions C228_pump_p.

(** C228 – nor the enthalpy, if both are positive. *)
Theorem C228_pump_h : forall X i o flow s, two i o -> h_positive i o s -> x_h X (k_id i) = true ->
  h_rises i o (fst (convergence_check X (Pump i o flow) s)).
Proof. exact pump_h. Qed.
Print Assumptions C228_pump_h.

(** C228 – feasible values of a compressor are left alone. *)
Theorem C228_compressor_keeps : forall X i o s, p_rises i o s -> h_rises i o s ->
  convergence_check X (Compressor i o) s = (s, None).
Proof. exact compressor_keeps. Qed.
Print Assumptions C228_compressor_keeps.

(** C228 – those of a turbine, with good starting values. *)
Theorem C228_turbine_keeps : forall X i o s, k_good i = true -> p_falls i o s -> h_falls i o s ->
  convergence_check X (Turbine i o) s = (s, None).
Proof. exact turbine_keeps. Qed.
Print Assumptions C228_turbine_keeps.

(** C228 – those of a pump without flow characteristic. *)
Theorem C228_pump_keeps : forall X i o s, p_rises i o s -> h_rises i o s ->
  convergence_check X (Pump i o None) s = (s, None).
Proof. exact pump_keeps. Qed.
Print Assumptions C228_pump_keeps.

(** C228 – the volume flow of a pump with flow characteristic ends up in the range of the characteristic. *)
Theorem C228_pump_range : forall X i o volf x0 x1 xl s vol, 
  x_m X (k_m i) = true -> (x0 <= x1)%Q -> (x0 <= xl)%Q -> (0 < vol)%Q -> (forall s', volf s' = Ok vol) ->
  let s' := fst (convergence_check X (Pump i o (Some (volf, x0, x1, xl))) s) in
  (x0 <= v_m s' (k_m i) * vol /\ v_m s' (k_m i) * vol <= xl)%Q.
Proof. exact pump_range. Qed.
Print Assumptions C228_pump_range.

(** C229 – with negative enthalpies the check of a compressor does not reach a rising enthalpy. *)
Theorem C229_compressor_refuted : exists X i o s, two i o /\ x_h X (k_id i) = true /\ x_h X (k_id o) = true
  /\ ~ h_rises i o (fst (convergence_check X (Compressor i o) s)).
Proof. exact compressor_negative. Qed.
Print Assumptions C229_compressor_refuted.

(** C229 – nor that of a turbine a falling one. *)
Theorem C229_turbine_refuted : exists X i o s, two i o /\ x_h X (k_id i) = true /\ x_h X (k_id o) = true /\ k_good i = true
  /\ ~ h_falls i o (fst (convergence_check X (Turbine i o) s)).
Proof. exact turbine_negative. Qed.
Print Assumptions C229_turbine_refuted.

(** C229 – the unknown inlet pressure of a turbine is not corrected. *)
Theorem C229_turbine_inlet_refuted : exists X i o s, two i o /\ p_positive i o s /\ p_free X i o
  /\ ~ p_falls i o (fst (convergence_check X (Turbine i o) s)).
Proof. exact turbine_inlet. Qed.
Print Assumptions C229_turbine_inlet_refuted.

(** C229 – the unknown outlet pressure of a pump may stay below the inlet pressure. *)
Theorem C229_pump_outlet_refuted : exists X i o s, two i o /\ p_positive i o s /\ p_free X i o
  /\ ~ p_rises i o (fst (convergence_check X (Pump i o None) s)).
Proof. exact pump_outlet. Qed.
Print Assumptions C229_pump_outlet_refuted.

(** C229 – a volume flow inside the range of the characteristic is set to zero. *)
Theorem C229_pump_flow_refuted : exists X i o volf x0 x1 xl s vol, x_m X (k_m i) = true /\ (forall s', volf s' = Ok vol)
  /\ (x0 < v_m s (k_m i) * vol)%Q /\ (v_m s (k_m i) * vol < xl)%Q /\ p_rises i o s /\ h_rises i o s
  /\ (v_m (fst (convergence_check X (Pump i o (Some (volf, x0, x1, xl))) s)) (k_m i) == 0)%Q.
Proof. exact pump_stops. Qed.
Print Assumptions C229_pump_flow_refuted.

Example C228_ex : let s := st_of (two_of 3 2) (two_of 5 4) 1 in
  two (cn 0) (cn 1) /\ p_positive (cn 0) (cn 1) s /\ h_positive (cn 0) (cn 1) s /\ p_free all_free (cn 0) (cn 1)
  /\ ~ p_rises (cn 0) (cn 1) s
  /\ (v_p (fst (convergence_check all_free (Compressor (cn 0) (cn 1)) s)) 1 == 33 # 10)%Q
  /\ (v_p (fst (convergence_check all_free (Pump (cn 0) (cn 1) None) s)) 1 == 4)%Q
  /\ (v_p (fst (convergence_check all_free (Turbine (cn 1) (cn 0)) s)) 0 == 18 # 10)%Q.
Proof.
  repeat split; try discriminate; try reflexivity; [left; reflexivity|]. unfold p_rises. cbn. intros H. now apply H.
Qed.
