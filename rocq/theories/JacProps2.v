(** Jacobian rows against their residuals: C69, C190-C192. *)
From Coq Require Import Reals List String Bool Lra.
From Verif Require Import Base ReportModel SolarModel ConeModel EqnModel JacModel EqnSpec JacSpec JacWitness JacProofs4.
Import ListNotations.
Open Scope R_scope.

(** C190 – "rows cover unknown compositions" is false: temperature differences of heat exchangers have no entry for the mass fractions the temperatures depend on. *)
Theorem C190_temperature_refuted : exists isv filt P ds i1 o2 t e, cid i1 <> cid o2 /\ fixed t /\
  ~ row_matches any isv filt ds (ttd_u_func P i1 o2 t) (ttd_u_deriv isv filt P i1 o2 t e) e.
Proof.
  exists all_unknown, nothing_skipped, wP, ds0, wi, wo2, (PVal 5), we.
  split; [discriminate|]. split; [exact I|]. exact ttd_u_fractions.
Qed.
Print Assumptions C190_temperature_refuted.

(** C190 – the same for pressure losses and the specific volume. *)
Theorem C190_pressure_loss_refuted : exists isv filt P ds i o z e, cid i <> cid o /\ cm i = cm o /\
  ~ row_matches any isv filt ds (zeta_func P i o z) (zeta_deriv isv filt P ds i o z e) e.
Proof.
  exists all_unknown, nothing_skipped, wP, ds0, wi, wo, (PVal 5), we.
  split; [discriminate|]. split; [reflexivity|]. exact zeta_fractions.
Qed.
Print Assumptions C190_pressure_loss_refuted.

(** C190 – the same for efficiencies and the isentropic enthalpy. *)
Theorem C190_efficiency_refuted : exists isv filt P ds i o t e, cid i <> cid o /\ cm i = cm o /\ fixed t /\
  ~ row_matches any isv filt ds (pump_func P i o t) (pump_deriv isv filt P i o t e) e.
Proof.
  exists all_unknown, nothing_skipped, wP, ds0, wi, wo, (PVal (1 / 2)), we.
  split; [discriminate|]. split; [reflexivity|]. split; [exact I|]. exact pump_fractions.
Qed.
Print Assumptions C190_efficiency_refuted.

(** C190 – the same for a specified volumetric flow. *)
Theorem C190_volumetric_flow_refuted : exists isv filt P ds c v e,
  ~ row_matches any isv filt ds (vol_func P c v) (vol_deriv isv P c e) e.
Proof. exists all_unknown, nothing_skipped, wP, ds0, wi, 2, we. exact vol_fractions. Qed.
Print Assumptions C190_volumetric_flow_refuted.

(** C191 – "rows of characteristics are right for every parameter of the characteristic" is false: over the pressure ratio the entries of the valve stay 1 and -1. *)
Theorem C191_valve_refuted : exists isv filt P ds i o k d e, k_param k = Cpr /\ cm o = cm i /\ cid i <> cid o /\
  ~ row_matches no_fraction isv filt ds (valve_func P i o k d) (valve_deriv isv filt P i o k d e) e.
Proof.
  exists all_unknown, nothing_skipped, wP, ds0, wi, wo, {| k_param := Cpr; k_rel := false; k_fun := fun x => x |},
    (Build_cdes 1 1 1 1 1), we.
  split; [reflexivity|]. split; [reflexivity|]. split; [discriminate|]. exact valve_pr_wrong.
Qed.
Print Assumptions C191_valve_refuted.

(** C191 – the efficiency characteristic of the electrolyser over the inlet mass flow has no entry for that mass flow. *)
Theorem C191_electrolyser_refuted : exists isv filt P ds i0 o2 k d e0 eta Pw e, k_param k = Cm /\ cid i0 <> cid o2 /\ cm i0 <> cm o2 /\
  ~ row_matches any isv filt ds (el_char_func P i0 o2 k d e0 eta Pw) (el_char_deriv isv P i0 o2 k d e0 eta Pw e) e.
Proof.
  exists all_unknown, nothing_skipped, wP, ds0, wi, wo2, {| k_param := Cm; k_rel := false; k_fun := fun x => x |},
    (Build_cdes 1 1 1 1 1), 100, (1 / 2), (PVal 5), we.
  split; [reflexivity|]. split; [discriminate|]. split; [discriminate|]. exact el_char_wrong.
Qed.
Print Assumptions C191_electrolyser_refuted.

(** C192 – "the entries for fuel fractions are the derivatives" is false of the energy balance of the engine: the enthalpy at reference temperature depends on the composition as well. *)
Theorem C192_engine_refuted : exists isv filt P ds lhv fuels i1 i2 o1 o2 i3 i4 o Pw Ql e, has_column isv Pw /\ has_column isv Ql /\
  cm o1 = cm i1 /\ cm o2 = cm i2 /\ NoDup [cm i1; cm i2; cm i3; cm i4; cm o]
  /\ NoDup [cid i1; cid i2; cid i3; cid i4; cid o1; cid o2; cid o] /\
  ~ row_matches any isv filt ds (engine_energy P lhv fuels i1 i2 o1 o2 [i3; i4] o Pw Ql)
      (engine_energy_deriv isv filt P lhv fuels i1 i2 o1 o2 [i3; i4] o Pw Ql e) e.
Proof.
  exists all_unknown, nothing_skipped, wP, ds0, (fun _ => 100), ["a"%string], (Conn 10 10 10 []), (Conn 11 11 11 []),
    (Conn 12 10 10 []), (Conn 13 11 11 []), wi, wi2, (Conn 5 5 5 ["b"%string]), (PVal (-1)), (PVal (-1)), we.
  split; [exact I|]. split; [exact I|]. split; [reflexivity|]. split; [reflexivity|].
  split; [repeat constructor; cbn; intuition discriminate|].
  split; [repeat constructor; cbn; intuition discriminate|]. exact engine_fuel_wrong.
Qed.
Print Assumptions C192_engine_refuted.

(** C69 – a variable terminal temperature difference has no column. *)
Theorem C69_temperature_difference_refuted : exists isv filt P ds i1 o2 v e, cid i1 <> cid o2 /\ isv (QC v) = true /\ filt (QC v) = false /\
  ~ row_matches no_fraction isv filt ds (ttd_u_func P i1 o2 (PVar v)) (ttd_u_deriv isv filt P i1 o2 (PVar v) e) e.
Proof.
  exists all_unknown, nothing_skipped, wP, ds0, wi, wo2, 0%nat, we.
  split; [discriminate|]. split; [reflexivity|]. split; [reflexivity|]. exact ttd_u_variable.
Qed.
Print Assumptions C69_temperature_difference_refuted.

(** C69 – a variable kA of a heat exchanger with two sides has no column. *)
Theorem C69_heat_transfer_refuted : exists isv filt P ds i1 i2 o1 o2 v e, NoDup [cid i1; cid i2; cid o1; cid o2] /\ isv (QC v) = true /\
  ~ row_matches no_fraction isv filt ds (kA_func P i1 i2 o1 o2 (PVar v)) (kA_deriv isv P i1 i2 o1 o2 (PVar v) e) e.
Proof.
  exists all_unknown, nothing_skipped, wP, ds0, wi, wi2, wo, wo2, 0%nat, we2.
  split; [repeat constructor; cbn; intuition discriminate|]. split; [reflexivity|]. exact kA_variable.
Qed.
Print Assumptions C69_heat_transfer_refuted.

(** C69 – a variable UA of the moving boundary heat exchanger has no column, whatever the sections are. *)
Theorem C69_moving_boundary_refuted : exists isv filt ds l v e, isv (QC v) = true /\ forall g,
  ~ row_matches no_fraction isv filt ds (mb_func g l (PVar v)) (UA_deriv isv g l (PVar v) e) e.
Proof. exists all_unknown, nothing_skipped, ds0, [wi; wi2; wo; wo2], 0%nat, we. split; [reflexivity|]. exact UA_variable. Qed.
Print Assumptions C69_moving_boundary_refuted.

(** C69 – a variable air to fuel ratio has no column, for any fuels. *)
Theorem C69_air_ratio_refuted : exists isv filt ds inl v e, isv (QC v) = true /\ forall M nH nC fuels,
  ~ row_matches no_fraction isv filt ds (lambda_func M nH nC fuels "O2" inl (PVar v))
      (lambda_deriv isv filt M nH nC fuels "O2" inl (PVar v) e) e.
Proof. exists all_unknown, nothing_skipped, ds0, [wi; wi2], 0%nat, we. split; [reflexivity|]. exact lambda_variable. Qed.
Print Assumptions C69_air_ratio_refuted.

(** C69 – a variable efficiency of the diabatic combustion chamber has no column. *)
Theorem C69_combustion_efficiency_refuted : exists isv filt P ds lhv fuels inl o v e, isv (QC v) = true /\
  ~ row_matches no_fraction isv filt ds (comb_energy P lhv fuels inl [o] (PVar v))
      (comb_energy_deriv isv filt P lhv fuels inl o (PVar v) e) e.
Proof.
  exists all_unknown, nothing_skipped, wP, ds0, (fun _ => 100), ["a"%string], [wi; wi2], (Conn 5 5 5 []), 0%nat, we.
  split; [reflexivity|]. exact eta_variable.
Qed.
Print Assumptions C69_combustion_efficiency_refuted.

(** C69 – wherever the wet expansion equation depends on the dry efficiency, a variable dry efficiency has no column. *)
Theorem C69_wet_expansion_partial : forall ds w i o v alpha e t, 
  w (vp e i) (vh e i) (xs e i) (vp e o) (vh e o) (xs e o) t alpha
    <> w (vp e i) (vh e i) (xs e i) (vp e o) (vh e o) (xs e o) (e (QC v)) alpha ->
  ~ row_matches no_fraction all_unknown nothing_skipped ds (wet_func w i o (PVar v) (PVal alpha))
      (wet_deriv all_unknown nothing_skipped w i o (PVar v) (PVal alpha) e) e.
Proof. exact wet_variable. Qed.
Print Assumptions C69_wet_expansion_partial.

Example C190_ex : cT wP we wi = 605 / 2 /\ cT wP (EqnSpec.upd we (QF 0 "a"%string) 1) wi = 303.
Proof. unfold cT, xs, vx, vp, we. cbn. split; lra. Qed.

