(** Combustion: C36, C84-C92. *)
From Coq Require Import QArith Qabs Lqa.
From Verif Require Import Base CharModel CombModel CombSpec CombProofs CombProofs2 CombWitness.
Open Scope Q_scope.

(* ================================================================== C36 *)

(** With enough air the reaction equations conserve every element. *)
Theorem C36_elements : forall ch fl aC aH aO, complete ch fl -> chemistry ch aC aH aO ->
  reactions_hold ch fl -> air_ratio_consistent ch ->
  0 < oxygen_needed ch -> oxygen_needed ch <= moles_in ch "O2" ->
  forall a, In a [aC; aH; aO] ->
  element a (c_M ch) fl (c_out ch)
  == element a (c_M ch) fl (c_in1 ch) + element a (c_M ch) fl (c_in2 ch).
Proof. intros ch fl aC aH aO C. exact (lean_elements ch fl C aC aH aO). Qed.
Print Assumptions C36_elements.

(** The flue gas contains no fuel, inert fluids pass, the consumed oxygen is the
    oxygen needed. *)
Theorem C36_species : forall ch fl, complete ch fl ->
  reactions_hold ch fl -> air_ratio_consistent ch ->
  0 < oxygen_needed ch -> oxygen_needed ch <= moles_in ch "O2" ->
  (forall f, In f (c_fuels ch) -> flow (c_out ch) (f_name f) == 0)
  /\ (forall f, In f fl -> ~ In f ["CO2"; "H2O"; "O2"]%string -> ~ In f (map f_name (c_fuels ch)) ->
      flow (c_out ch) f == flow (c_in1 ch) f + flow (c_in2 ch) f)
  /\ (flow (c_out ch) "O2" == flow (c_in1 ch) "O2" + flow (c_in2 ch) "O2"
       - oxygen_needed ch * frac (c_M ch) "O2").
Proof. exact lean_species. Qed.
Print Assumptions C36_species.

(** With molar masses that are sums of atomic masses the total mass is conserved;
    hence normalised inlets and the mass flow equation give a normalised outlet. *)
Theorem C36_mass : forall ch fl aC aH aO wC wH wO, complete ch fl -> chemistry ch aC aH aO ->
  (forall f, In f ("CO2" :: "H2O" :: "O2" :: map f_name (c_fuels ch))%string ->
     frac (c_M ch) f == wC * aC f + wH * aH f + wO * aO f) ->
  reactions_hold ch fl -> air_ratio_consistent ch ->
  0 < oxygen_needed ch -> oxygen_needed ch <= moles_in ch "O2" ->
  sum_over fl (flow (c_out ch)) == sum_over fl (flow (c_in1 ch)) + sum_over fl (flow (c_in2 ch))
  /\ (sum_over fl (frac (s_x (c_in1 ch))) == 1 -> sum_over fl (frac (s_x (c_in2 ch))) == 1 ->
      mass_flow_func ch == 0 -> ~ s_m (c_out ch) == 0 ->
      sum_over fl (frac (s_x (c_out ch))) == 1).
Proof. exact lean_mass_normalised. Qed.
Print Assumptions C36_mass.

(** The thermal input is the heating value of all fuel supplied. *)
Theorem C36_thermal_input : forall ch fl, complete ch fl ->
  reactions_hold ch fl -> air_ratio_consistent ch ->
  0 < oxygen_needed ch -> oxygen_needed ch <= moles_in ch "O2" ->
  exists v, calc_ti ch = Ok v
  /\ v == sum_over (c_fuels ch) (fun f => (flow (c_in1 ch) (f_name f) + flow (c_in2 ch) (f_name f)) * f_LHV f).
Proof. exact lean_ti. Qed.
Print Assumptions C36_thermal_input.

Example C36_example_complete : complete ex_lean ex_fl.
Proof. apply ex_complete. reflexivity. Qed.
Example C36_example_holds : reactions_hold ex_lean ex_fl.
Proof.
  intros f F. unfold ex_fl in F. cbn [In] in F.
  destruct F as [<- | [<- | [<- | [<- | [<- | []]]]]]; do 2 eexists; (split; [vm_compute; reflexivity | reflexivity]).
Qed.
Example C36_example_air : air_ratio_consistent ex_lean
  /\ oxygen_needed ex_lean == 2 /\ moles_in ex_lean "O2" == 4.
Proof.
  split; [intros _; eexists; split; [vm_compute; reflexivity | reflexivity] |].
  split; vm_compute; reflexivity.
Qed.

(* ==================================================== C84: too little air *)

Theorem C84_fuel_rich_refuted : exists ch fl aC aH aO, complete ch fl /\ chemistry ch aC aH aO
  /\ reactions_hold ch fl /\ air_ratio_consistent ch
  /\ 0 < moles_in ch "O2" < oxygen_needed ch
  /\ ~ element aC (c_M ch) fl (c_out ch)
      == element aC (c_M ch) fl (c_in1 ch) + element aC (c_M ch) fl (c_in2 ch)
  /\ ~ sum_over fl (flow (c_out ch)) == sum_over fl (flow (c_in1 ch)) + sum_over fl (flow (c_in2 ch)).
Proof.
  exists rich_ch, ex_fl,
    (fun f => if String.eqb f "CO2" then 1 else if String.eqb f "CH4" then 1 else 0),
    (fun f => if String.eqb f "H2O" then 2 else if String.eqb f "CH4" then 4 else 0),
    (fun f => if String.eqb f "CO2" then 2 else if String.eqb f "O2" then 2 else if String.eqb f "H2O" then 1 else 0).
  split; [apply ex_complete; reflexivity |].
  split; [constructor; try reflexivity; intros f [<- | []]; reflexivity |].
  split.
  { intros f F. unfold ex_fl in F. cbn [In] in F.
    destruct F as [<- | [<- | [<- | [<- | [<- | []]]]]]; do 2 eexists; (split; [vm_compute; reflexivity | reflexivity]). }
  split; [intro X; discriminate X |].
  split; [split; vm_compute; reflexivity |].
  split; intro X; vm_compute in X; discriminate X.
Qed.
Print Assumptions C84_fuel_rich_refuted.

(** What is lost: carbon, hydrogen and oxygen in proportion to the missing oxygen. *)
Theorem C84_fuel_rich_partial : forall ch fl aC aH aO, complete ch fl -> chemistry ch aC aH aO ->
  reactions_hold ch fl -> air_ratio_consistent ch ->
  0 <= moles_in ch "O2" < oxygen_needed ch ->
  let short := oxygen_needed ch - moles_in ch "O2" in
  let hydrogen := sum_over (c_fuels ch) (fun f => moles_in ch (f_name f) * f_H f) in
  let carbon := sum_over (c_fuels ch) (fun f => moles_in ch (f_name f) * f_C f) in
  element aC (c_M ch) fl (c_in1 ch) + element aC (c_M ch) fl (c_in2 ch) - element aC (c_M ch) fl (c_out ch)
    == short * (hydrogen / 4) / oxygen_needed ch
  /\ element aH (c_M ch) fl (c_in1 ch) + element aH (c_M ch) fl (c_in2 ch) - element aH (c_M ch) fl (c_out ch)
    == 4 * short * carbon / oxygen_needed ch
  /\ element aO (c_M ch) fl (c_in1 ch) + element aO (c_M ch) fl (c_in2 ch) - element aO (c_M ch) fl (c_out ch)
    == 2 * short.
Proof. intros ch fl aC aH aO C. exact (rich_elements ch fl C aC aH aO). Qed.
Print Assumptions C84_fuel_rich_partial.

Theorem C84_negative_refuted : exists ch fl, complete ch fl /\ reactions_hold ch fl
  /\ (forall f, In f (c_fuels ch) -> f_C f == 0)
  /\ flow (c_in1 ch) "CO2" == 0 /\ flow (c_in2 ch) "CO2" == 0 /\ flow (c_out ch) "CO2" < 0.
Proof.
  exists h2_ch, ["H2"; "O2"; "CO2"; "H2O"]%string.
  split.
  { constructor.
    - repeat constructor; cbn [In]; intuition discriminate.
    - intros x. cbn [In]. tauto.
    - intros x. cbn. tauto.
    - repeat constructor. cbn. tauto.
    - cbn. intros f [<- | []]. cbn. intuition discriminate.
    - intros f s F S N. apply dget_None_notin in N. apply N. clear N.
      cbn [h2_ch c_in1 c_in2 c_out In] in S. destruct S as [<- | [<- | [<- | []]]]; exact F.
    - cbn [In]. intros f F. cbn [h2_ch c_M].
      destruct F as [<- | [<- | [<- | [<- | []]]]]; eexists; (split; [reflexivity | discriminate]). }
  split.
  { intros f F. cbn [In] in F.
    destruct F as [<- | [<- | [<- | [<- | []]]]]; do 2 eexists; (split; [vm_compute; reflexivity | reflexivity]). }
  split; [intros f [<- | []]; reflexivity |].
  split; [reflexivity | split; [reflexivity | vm_compute; reflexivity]].
Qed.
Print Assumptions C84_negative_refuted.

(* ====================================== C85: columns of the energy balance *)

(** The energy balance depends on the mass fraction of the fuel, but its row has
    no such column. *)
Theorem C85_energy_columns_refuted : exists href ch fl is_var v d h1 h2 ho r r',
  complete ch fl /\ is_var v = true /\ ~ In v (energy_columns is_var)
  /\ energy_func href ch h1 h2 ho 1 = Ok r
  /\ energy_func href (shift ch v d) h1 h2 ho 1 = Ok r' /\ ~ r' == r.
Proof.
  exists (fun _ => 0), ex_lean, ex_fl, (fun _ => true), (VX In2 "CH4"), (-(1#10)), 0, 0, 0.
  do 2 eexists. split; [exact C36_example_complete |]. split; [reflexivity |].
  split; [cbn; intuition discriminate |].
  split; [vm_compute; reflexivity |]. split; [vm_compute; reflexivity |].
  intro X. vm_compute in X. discriminate X.
Qed.
Print Assumptions C85_energy_columns_refuted.

(* ============================================== C86: shares of the engine *)

(** If the four characteristic equations and the energy balance hold, power,
    cooling heat and heat loss are the given shares of the thermal input and the
    gases take the rest. *)
Theorem C86_engine_shares : forall e ti flue x t q1 q2 ql,
  load e (e_P e) = Ok x -> cl_evaluate (e_tiP e) x = Ok t -> ~ t == 0 ->
  cl_evaluate (e_Q1c e) x = Ok q1 -> cl_evaluate (e_Q2c e) x = Ok q2 -> cl_evaluate (e_Qlc e) x = Ok ql ->
  (exists r, tiP_char_func e ti = Ok r /\ r == 0) ->
  (exists r, Q1_char_func e ti = Ok r /\ r == 0) ->
  (exists r, Q2_char_func e ti = Ok r /\ r == 0) ->
  (exists r, Qloss_char_func e ti = Ok r /\ r == 0) ->
  engine_energy e flue ti == 0 ->
  e_P e == - ti / t
  /\ e_m1 e * (e_ho1 e - e_hi1 e) == ti * q1 / t
  /\ e_m2 e * (e_ho2 e - e_hi2 e) == ti * q2 / t
  /\ e_Qloss e == - ti * ql / t
  /\ - flue == ti * (1 - (1 + q1 + q2 + ql) / t).
Proof. exact engine_shares. Qed.
Print Assumptions C86_engine_shares.

(** The reported values are the heats transferred, the power and the heat loss of
    the solution. *)
Theorem C86_engine_reported : forall e ti x t ql,
  e_design e = None \/ e_P e = - ti / t ->
  load e (e_P e) = Ok x -> cl_evaluate (e_tiP e) x = Ok t -> ~ t == 0 ->
  cl_evaluate (e_Qlc e) x = Ok ql ->
  (exists r, tiP_char_func e ti = Ok r /\ r == 0) ->
  (exists r, Qloss_char_func e ti = Ok r /\ r == 0) ->
  exists Q1 Q2 P Ql, engine_report e ti = Ok (Q1, Q2, P, Ql)
    /\ Q1 == - (e_m1 e * (e_ho1 e - e_hi1 e)) /\ Q2 == - (e_m2 e * (e_ho2 e - e_hi2 e))
    /\ P == e_P e /\ Ql == e_Qloss e.
Proof. exact engine_reported. Qed.
Print Assumptions C86_engine_reported.

(** Diabatic combustion chamber: the efficiency of a satisfied energy balance is
    reported back, the heat loss is the remainder of the thermal input. *)
Theorem C86_diabatic_reported : forall href ch fl h1 h2 ho eta, complete ch fl ->
  (exists r, energy_func href ch h1 h2 ho eta = Ok r /\ r == 0) ->
  forall ti, calc_ti ch = Ok ti -> ~ ti == 0 ->
  exists eta' q, diabatic_report href ch h1 h2 ho = Ok (eta', q)
    /\ eta' == eta /\ q == - (1 - eta) * ti.
Proof. exact diabatic_reported. Qed.
Print Assumptions C86_diabatic_reported.

Example C86_example :
  (exists r, tiP_char_func ex_engine 800 = Ok r /\ r == 0)
  /\ (exists r, Q1_char_func ex_engine 800 = Ok r /\ r == 0)
  /\ (exists r, Q2_char_func ex_engine 800 = Ok r /\ r == 0)
  /\ (exists r, Qloss_char_func ex_engine 800 = Ok r /\ r == 0)
  /\ engine_energy ex_engine (-(160)) 800 == 0.
Proof. repeat split; try (eexists; split; [vm_compute; reflexivity | reflexivity]). Qed.

(* ====================================================== C87: alternative names *)

Theorem C87_aliases_refuted : exists aliases all_fluids fuels ch f,
  setup_names aliases all_fluids = Ok fuels
  /\ map f_name (c_fuels ch) = fuels
  /\ (forall s, In s [c_in1 ch; c_in2 ch; c_out ch] -> keys (s_x s) = all_fluids)
  /\ keys (c_M ch) = all_fluids /\ In f all_fluids
  /\ stoichiometry ch f = Err KeyError.
Proof.
  exists al, ["methane"; "oxygen"; "N2"; "CO2"; "H2O"]%string, ["methane"]%string, alias_ch, "N2"%string.
  split; [vm_compute; reflexivity |]. split; [reflexivity |].
  split; [intros s [<- | [<- | [<- | []]]]; reflexivity |].
  split; [reflexivity |]. split; [cbn; tauto | vm_compute; reflexivity].
Qed.
Print Assumptions C87_aliases_refuted.

(** With the literal names the equations are defined whenever oxygen is needed. *)
Theorem C87_aliases_partial : forall ch fl f, complete ch fl -> In f fl ->
  ~ oxygen_needed ch == 0 ->
  (forall g, In g (c_fuels ch) -> ~ f_H g / 4 + f_C g == 0) ->
  exists r l, stoichiometry ch f = Ok (r, l).
Proof. exact stoichiometry_defined. Qed.
Print Assumptions C87_aliases_partial.

(* ========================================================= C88: value checks *)

(** convergence_check changes only unknowns: specified mass flows, enthalpies and
    mass fractions and all flags keep their values. *)
Theorem C88_checks_frame : forall fuels lamb ls i1 i2 o i1' i2' o',
  convergence_check fuels lamb ls i1 i2 o = Ok (i1', i2', o') ->
  forall p p', In (p, p') [(i1, i1'); (i2, i2'); (o, o')] ->
  (k_m_var p' = k_m_var p /\ k_x_var p' = k_x_var p /\ k_h_var p' = k_h_var p /\ k_good p' = k_good p)
  /\ (k_m_var p = false -> k_m p' = k_m p)
  /\ (k_h_var p = false -> k_h p' = k_h p)
  /\ (forall f, ~ In f (k_x_var p) -> dget f (k_x p') = dget f (k_x p)).
Proof. exact check_frame_ports. Qed.
Print Assumptions C88_checks_frame.

(** If all fractions at the outlet are unknowns they sum to one afterwards. *)
Theorem C88_checks_normalised : forall fuels lamb ls i1 i2 o i1' i2' o',
  convergence_check fuels lamb ls i1 i2 o = Ok (i1', i2', o') ->
  NoDup (keys (k_x o)) -> NoDup (k_x_var o) -> incl (keys (k_x o)) (k_x_var o) -> k_x o <> [] ->
  total (k_x o') == 1.
Proof. exact check_normalised. Qed.
Print Assumptions C88_checks_normalised.

Example C88_example :
  match convergence_check ["CH4"]%string 1 false (ex_i1 false) (ex_i2 false) (ex_o ex_fl) with
  | Ok (_, i2', o') => Qeq_bool (k_m i2') (2#5) && Qeq_bool (k_m o') 10 && Qeq_bool (total (k_x o')) 1
  | _ => false
  end = true.
Proof. vm_compute. reflexivity. Qed.

(* ========================================== C89: normalisation of fractions *)

(** A specified fraction at the outlet is part of the sum but not rescaled. *)
Theorem C89_normalised_refuted : exists fuels lamb ls i1 i2 o i1' i2' o',
  convergence_check fuels lamb ls i1 i2 o = Ok (i1', i2', o')
  /\ NoDup (keys (k_x o)) /\ incl (k_x_var o) (keys (k_x o)) /\ ~ total (k_x o') == 1.
Proof.
  exists ["CH4"]%string, 1, false, (ex_i1 false), (ex_i2 false), (ex_o ["CH4"; "CO2"; "H2O"; "N2"]%string).
  do 3 eexists. split; [vm_compute; reflexivity |].
  split; [cbn; repeat constructor; cbn [In]; intuition discriminate |].
  split; [intro x; cbn; tauto |]. intro X. vm_compute in X. discriminate X.
Qed.
Print Assumptions C89_normalised_refuted.

(* ================================================ C90: UnboundLocalError *)

(** An air connection with results of an earlier calculation and a new fuel
    connection: the check raises UnboundLocalError. *)
Theorem C90_unbound_refuted : exists fuels lamb i1 i2 o,
  k_good i1 = true /\ k_good i2 = false
  /\ convergence_check fuels lamb false i1 i2 o = Err UnboundLocalError.
Proof.
  exists ["CH4"]%string, 1, (ex_i1 true), (ex_i2 false), (ex_o ex_fl).
  split; [reflexivity | split; [reflexivity | vm_compute; reflexivity]].
Qed.
Print Assumptions C90_unbound_refuted.

Theorem C90_unbound_partial : forall fuels lamb ls i1 i2 o x,
  k_good i1 = false -> fuel_fraction fuels (k_x i1) = Ok x -> x < 3 # 4 ->
  convergence_check fuels lamb ls i1 i2 o <> Err UnboundLocalError.
Proof. exact no_unbound. Qed.
Print Assumptions C90_unbound_partial.

(* ============================================ C91: row of the thermal input *)

(** The row of the thermal input equation holds its exact derivative with respect
    to every unknown mass flow and mass fraction. *)
Theorem C91_ti_row : forall ch fl is_var v ti, complete ch fl -> is_var v = true ->
  exists l r, ti_deriv ch is_var = Ok l /\ ti_func ch ti = Ok r
    /\ forall d, exists r', ti_func (shift ch v d) ti = Ok r' /\ r' == r + row v l * d.
Proof. exact ti_row_exact. Qed.
Print Assumptions C91_ti_row.

Example C91_example :
  match ti_deriv ex_lean (fun _ => true) with
  | Ok l => (Qred (row (VM In2) l), Qred (row (VX In2 "CH4") l), Qred (row (VX Out "CH4") l))
  | Err _ => (0, 0, 0)
  end = (-(50), -(800), 8800).
Proof. vm_compute. reflexivity. Qed.

(* ===================================================== C92: heating values *)

(** Every accepted fuel has a heating value: the enthalpy of reaction for complete
    combustion to gaseous water per mass; it is positive for every hydrocarbon. *)
Theorem C92_heating_value : forall aliases all_fluids fuels f C H M,
  setup_names aliases all_fluids = Ok fuels -> In f fuels -> ~ M == 0 ->
  exists k hf v, In (k, hf) hf_table /\ In k (aliases f) /\ calc_lhv aliases C H M f = Ok v
    /\ v * M == 1000 * (hf - (H / 2 * -(241826#1000) + C * -(39351#100))).
Proof. exact lhv_defined. Qed.
Print Assumptions C92_heating_value.

Theorem C92_heating_value_positive : forall aliases all_fluids fuels f C H M v,
  setup_names aliases all_fluids = Ok fuels -> In f fuels -> 0 < M -> 1 <= C -> 0 < H ->
  calc_lhv aliases C H M f = Ok v -> 0 < v.
Proof. exact lhv_positive. Qed.
Print Assumptions C92_heating_value_positive.

Example C92_example :
  rmap Qred (calc_lhv (fun f => [f]) 1 4 (16#1000) "methane") = Ok 50160125.
Proof. vm_compute. reflexivity. Qed.
