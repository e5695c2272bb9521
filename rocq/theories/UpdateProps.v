(** C24: a Newton update keeps variables in their ranges.  C25: value checks
    change unknowns only.  C26: renormalised mass fractions.  C65: unknown
    pressures and enthalpies lie in the ranges of the network.  C66: unknown
    pressures and enthalpies of pure fluids lie in the ranges of the fluid.
    C67: variable compositions are complete after an iteration. *)
From Verif Require Import UpdateModel UpdateSpec UpdateProofs UpdateProofs2 UpdateWitness.
Open Scope nat_scope.
Open Scope list_scope.

(** Values that do not belong to an unknown are left alone, whatever happens. *)
Theorem C24_fixed_values_fixed : forall L inc vars s x, ~ In x (map fst vars) ->
  value x (fst (update_variables L inc vars s)) = value x s.
Proof. exact update_frame. Qed.
Print Assumptions C24_fixed_values_fixed.

(** Mass flows and enthalpies take the full step, positive pressures are at most
    halved and take the full step unless that would more than halve them, mass
    fractions end up in [0, 1], component variables within their limits (full
    step if that stays within). *)
Theorem C24_update_ranges : forall L inc vars s, NoDup (map fst vars) -> Forall (in_reach inc s) vars ->
  (forall c, In (UP c) (map fst vars) -> (0 < v_p s c)%Q) ->
  exists s', update_variables L inc vars s = (s', None) /\
  (forall a col, In (UM a, col) vars -> v_m s' a = (v_m s a + nth col inc 0%Q)%Q) /\
  (forall c col, In (UH c, col) vars -> v_h s' c = (v_h s c + nth col inc 0%Q)%Q) /\
  (forall c col, In (UP c, col) vars -> (v_p s c / 2 <= v_p s' c)%Q /\
     ((- (v_p s c / 2) <= nth col inc 0%Q)%Q -> (v_p s' c == v_p s c + nth col inc 0%Q)%Q)) /\
  (forall a f col, In (UF a f, col) vars -> exists q, dget f (v_f s' a) = Some q /\ between 0 q 1) /\
  (forall a col, In (UC a, col) vars -> (c_min L a <= c_max L a)%Q -> between (c_min L a) (v_c s' a) (c_max L a) /\
     (between (c_min L a) (v_c s a + nth col inc 0%Q) (c_max L a) -> v_c s' a = (v_c s a + nth col inc 0%Q)%Q)).
Proof. exact update_result. Qed.
Print Assumptions C24_update_ranges.

Example ex_update : snd ex_after = None /\
  Qred (v_m (fst ex_after) 0) = (-1)%Q /\ Qred (v_p (fst ex_after) 0) = 50%Q /\ Qred (v_p (fst ex_after) 1) = 80%Q /\
  Qred (v_h (fst ex_after) 0) = 57%Q /\ v_f (fst ex_after) 0 = [("O2"%string, 0%Q); ("N2"%string, (7 # 10)%Q)] /\
  v_c (fst ex_after) 0 = 2%Q /\ v_m (fst ex_after) 1 = 3%Q.
Proof. repeat split. Qed.
Example ex_update_hyp : NoDup (map fst ex_vars) /\ Forall (in_reach [-4; -90; -20; 7; -1; 8]%Q ex_s) ex_vars.
Proof.
  split.
  - repeat constructor; cbn; intuition discriminate.
  - repeat constructor; cbn; try lia; discriminate.
Qed.

(** Bound checks, including the convergence checks of the components, change
    unknowns only, even if an exception ends them. *)
Theorem C25_only_unknowns_changed : forall N X conns comps s,
  only_unknowns_changed X s (fst (check_variable_bounds N X conns comps s)).
Proof. exact (fun N X conns comps s => ch_bounds X N conns comps s). Qed.
Print Assumptions C25_only_unknowns_changed.

(** Afterwards each unknown mass flow is in the network's range. *)
Theorem C25_mass_flow_in_range : forall N X conns comps s s', (m_lo N <= m_hi N)%Q ->
  check_variable_bounds N X conns comps s = (s', None) ->
  forall c, In c conns -> x_m X (k_m c) = true -> between (m_lo N) (v_m s' (k_m c)) (m_hi N).
Proof. exact bounds_m. Qed.
Print Assumptions C25_mass_flow_in_range.

(** In the first four iterations without good starting values so are the unknown
    pressures of mixtures, and the unknown enthalpies of those without specified
    temperature. *)
Theorem C25_mixture_in_range : forall N X conns comps s s', NoDup (map k_id conns) ->
  (p_lo N <= p_hi N)%Q -> (h_lo N <= h_hi N)%Q -> iter N < 4 ->
  check_variable_bounds N X conns comps s = (s', None) ->
  forall c, In c conns -> single_fluid (v_fd s' (k_id c)) = None -> k_good c = false ->
  (x_p X (k_id c) = true -> between (p_lo N) (v_p s' (k_id c)) (p_hi N)) /\
  (x_h X (k_id c) = true -> k_T c = false -> between (h_lo N) (v_h s' (k_id c)) (h_hi N)).
Proof. exact bounds_mix. Qed.
Print Assumptions C25_mixture_in_range.

(** C26: unless specified fractions are in the way the fractions sum to one
    afterwards, for every connection with variable composition. *)
Theorem C26_sum_is_one : forall N X conns comps s s', wf_fluids X s ->
  check_variable_bounds N X conns comps s = (s', None) ->
  forall c, In c conns -> x_f X (k_fl c) <> [] -> (sum_fixed X (k_fl c) (v_f s (k_fl c)) == 0)%Q ->
  (sum_of (v_f s' (k_fl c)) == 1)%Q.
Proof. exact bounds_sum. Qed.
Print Assumptions C26_sum_is_one.

(** No fraction becomes negative. *)
Theorem C26_no_negative_fraction : forall N X conns comps s s', wf_fluids X s ->
  (forall a, x_m X a = false -> (0 <= v_m s a)%Q) -> nonneg s ->
  check_variable_bounds N X conns comps s = (s', None) -> nonneg s'.
Proof. exact bounds_nonneg. Qed.
Print Assumptions C26_no_negative_fraction.

(** Specified fractions keep their values. *)
Theorem C26_fixed_fractions_kept : forall N X conns comps s a f, ~ In f (x_f X a) ->
  dget f (v_f (fst (check_variable_bounds N X conns comps s)) a) = dget f (v_f s a).
Proof. exact (fun N X conns comps s a f H => ch_f _ _ _ (ch_bounds X N conns comps s) a f H). Qed.
Print Assumptions C26_fixed_fractions_kept.

Example ex_bounds : snd ex_checked = None /\
  Qred (v_m (fst ex_checked) 0) = 5%Q /\ Qred (v_p (fst ex_checked) 0) = 150000%Q /\
  Qred (v_p (fst ex_checked) 1) = 135000%Q /\ Qred (v_h (fst ex_checked) 0) = 2000000%Q /\
  Qred (v_h (fst ex_checked) 1) = 1800000%Q /\
  map (fun x => Qred (snd x)) (v_f (fst ex_checked) 0) = [(1 # 3)%Q; (2 # 3)%Q].
Proof. vm_compute. repeat split. Qed.
Example ex_wf : wf_fluids ex_X ex_s2 /\ nonneg ex_s2.
Proof.
  split.
  - intros a. cbn. repeat split; try (repeat constructor; cbn; intuition discriminate). intros x H; exact H.
  - intros a f q. cbn. destruct (String.eqb f "O2"); [intros H; inversion H; discriminate|].
    destruct (String.eqb f "N2"); [intros H; inversion H; discriminate|discriminate].
Qed.

(** C65: for a pure fluid the ranges of the network are not looked at. *)
Theorem C65_network_range_refuted : exists N X conns s s', (p_lo N < p_hi N)%Q /\ (h_lo N < h_hi N)%Q /\
  check_variable_bounds N X conns [] s = (s', None) /\
  exists c, In c conns /\ x_p X (k_id c) = true /\ x_h X (k_id c) = true /\
    (p_hi N < v_p s' (k_id c))%Q /\ (h_hi N < v_h s' (k_id c))%Q.
Proof.
  exists {| m_lo := -5; m_hi := 5; p_lo := 10; p_hi := 20; h_lo := 1000; h_hi := 2000; iter := 0 |}.
  exists {| x_m := fun _ => true; x_p := fun _ => true; x_h := fun _ => true; x_f := fun _ => [] |}.
  exists [ex_c 0 0].
  exists {| v_m := fun _ => 1%Q; v_p := fun _ => 900000%Q; v_h := fun _ => 500000%Q;
            v_f := fun _ => [("O2"%string, 1%Q)]; v_c := fun _ => 1%Q; v_fd := fun _ => [] |}.
  eexists. split; [reflexivity|split; [reflexivity|split; [vm_compute; reflexivity|]]].
  exists (ex_c 0 0). cbn. split; [auto|]. repeat split.
Qed.
Print Assumptions C65_network_range_refuted.

(** Nor for a mixture from the fifth iteration on. *)
Theorem C65_late_iteration_refuted : exists N X conns s s', (p_lo N < p_hi N)%Q /\ iter N = 4 /\
  check_variable_bounds N X conns [] s = (s', None) /\
  exists c, In c conns /\ x_p X (k_id c) = true /\ single_fluid (v_fd s' (k_id c)) = None /\ (v_p s' (k_id c) < 0)%Q /\ (0 < p_lo N)%Q.
Proof.
  exists (ex_N 4), ex_X, [ex_c 0 0; ex_c 1 0].
  exists {| v_m := fun _ => 1%Q; v_p := fun _ => (-1)%Q; v_h := fun _ => 500000%Q;
            v_f := fun _ => [("O2"%string, (1 # 2)%Q); ("N2"%string, (1 # 2)%Q)]; v_c := fun _ => 1%Q; v_fd := fun _ => [] |}.
  eexists. split; [reflexivity|split; [reflexivity|split; [vm_compute; reflexivity|]]].
  exists (ex_c 1 0). cbn. split; [auto|]. repeat split.
Qed.
Print Assumptions C65_late_iteration_refuted.

(** C66: an enthalpy above a negative upper limit is moved to a value that is
    still above it. *)
Theorem C66_negative_upper_limit_refuted : exists w c s s' hmin hmax,
  check_enthalpy_bounds w c s = (s', None) /\
  hmin_of w (v_p s (k_id c)) = Ok hmin /\ hmax_of w (v_p s (k_id c)) = Ok hmax /\ (hmin < hmax)%Q /\
  (hmax < v_h s' (k_id c))%Q.
Proof.
  exists {| w_pmin := 1; w_pmax := 1000000; w_Tmin := 200; w_Tmax := 500;
     w_Tph := fun _ h => Ok h; w_hpT := fun _ T => Ok (T - 1000)%Q; w_hpQ := fun _ _ => Err ValueError |}.
  exists (ex_c 0 0), ex_s. eexists. eexists. eexists.
  split; [vm_compute; reflexivity|]. split; [vm_compute; reflexivity|]. split; [vm_compute; reflexivity|]. split; reflexivity.
Qed.
Print Assumptions C66_negative_upper_limit_refuted.

(** A connection specified as superheated with negative vapour enthalpy is moved
    further into the wet steam region. *)
Theorem C66_two_phase_refuted : exists w c s s' hs,
  check_two_phase_bounds w c s = (s', None) /\ k_state c = Some "g"%string /\
  w_hpQ w (v_p s (k_id c)) 1 = Ok hs /\ (v_h s' (k_id c) < hs)%Q /\ (hs - v_h s (k_id c) < hs - v_h s' (k_id c))%Q.
Proof.
  exists {| w_pmin := 1; w_pmax := 1000000; w_Tmin := 200; w_Tmax := 500;
     w_Tph := fun _ h => Ok h; w_hpT := fun _ T => Ok (T - 1000)%Q; w_hpQ := fun _ _ => Ok (-10000)%Q |}.
  exists {| k_id := 0; k_m := 0; k_fl := 0; k_good := false; k_T := false; k_Td := false; k_Tdv := 0; k_state := Some "g"%string;
     k_wrap := []; k_hmix := fun _ T _ => Ok T |}.
  exists {| v_m := fun _ => 1%Q; v_p := fun _ => 1%Q; v_h := fun _ => (-10050)%Q; v_f := fun _ => []; v_c := fun _ => 1%Q; v_fd := fun _ => [] |}.
  eexists. eexists. split; [vm_compute; reflexivity|]. repeat split.
Qed.
Print Assumptions C66_two_phase_refuted.

(** It holds for a non negative upper limit at some distance of the lower one. *)
Theorem C66_enthalpy_partial : forall w c s s' hmin hmax, check_enthalpy_bounds w c s = (s', None) ->
  hmin_of w (v_p s (k_id c)) = Ok hmin -> hmax_of w (v_p s (k_id c)) = Ok hmax ->
  (0 <= hmax)%Q -> (hmin * (10001 # 10000) <= hmax)%Q -> (hmin * (9999 # 10000) <= hmax)%Q -> (hmin <= hmax * (9999 # 10000))%Q ->
  between hmin (v_h s' (k_id c)) hmax.
Proof. exact enthalpy_bounds. Qed.
Print Assumptions C66_enthalpy_partial.

(** Pressures of pure fluids do not exceed the maximum, and are not below the
    minimum unless the fluid properties can be evaluated there. *)
Theorem C66_pressure_partial : forall w c s s', (w_pmin w + 10 <= w_pmax w)%Q -> check_pressure_bounds w c s = (s', None) ->
  (v_p s' (k_id c) <= w_pmax w)%Q /\
  ((w_pmin w <= v_p s' (k_id c))%Q \/ exists T, w_Tph w (v_p s' (k_id c)) (v_h s' (k_id c)) = Ok T).
Proof. exact pressure_bounds. Qed.
Print Assumptions C66_pressure_partial.
Theorem C66_pure_pressure_partial : forall N X w c s s', (w_pmin w + 10 <= w_pmax w)%Q -> x_p X (k_id c) = true ->
  check_pure N X w c s = (s', None) -> (v_p s' (k_id c) <= w_pmax w)%Q.
Proof. exact pure_p. Qed.
Print Assumptions C66_pure_pressure_partial.

(* Hypotheses of the partial theorems are satisfiable: 1000 K * 1000 and 200.1 K * 1000. *)
Example ex_pure_limits : hmin_of ex_w 5 = Ok (1000 * (200 + (1 # 10)))%Q /\ hmax_of ex_w 5 = Ok (1000 * 1000)%Q /\
  (w_pmin ex_w + 10 <= w_pmax ex_w)%Q.
Proof. vm_compute. repeat split. discriminate. Qed.

(** C67: with a specified fraction the sum is not one. *)
Theorem C67_specified_fraction_refuted : exists N X conns s s', wf_fluids X s /\ nonneg s /\
  check_variable_bounds N X conns [] s = (s', None) /\
  exists c, In c conns /\ x_f X (k_fl c) <> [] /\ (1 + (6 # 100) < sum_of (v_f s' (k_fl c)))%Q.
Proof.
  exists (ex_N 9).
  exists {| x_m := fun _ => true; x_p := fun _ => true; x_h := fun _ => true; x_f := fun _ => ["O2"%string; "CO2"%string] |}.
  exists [ex_c 0 0].
  exists {| v_m := fun _ => 1%Q; v_p := fun _ => 1%Q; v_h := fun _ => 500000%Q;
            v_f := fun _ => [("N2"%string, (3 # 10)%Q); ("O2"%string, (1 # 2)%Q); ("CO2"%string, (1 # 2)%Q)];
            v_c := fun _ => 1%Q; v_fd := fun _ => [] |}.
  eexists. split; [|split; [|split; [vm_compute; reflexivity|]]].
  - intros a. cbn. repeat split; try (repeat constructor; cbn; intuition discriminate).
    intros x [<-|[<-|[]]]; cbn; auto.
  - intros a f q. cbn. destruct (String.eqb f "N2"); [intros H; inversion H; discriminate|].
    destruct (String.eqb f "O2"); [intros H; inversion H; discriminate|].
    destruct (String.eqb f "CO2"); [intros H; inversion H; discriminate|discriminate].
  - exists (ex_c 0 0). split; [left; reflexivity|]. split; [discriminate|]. reflexivity.
Qed.
Print Assumptions C67_specified_fraction_refuted.

(** An update that takes all variable fractions to zero ends in a
    ZeroDivisionError. *)
Theorem C67_all_zero_refuted : exists N X conns inc s, wf_fluids X s /\ (sum_of (v_f s 0) == 1)%Q /\
  let s1 := update_variables {| c_min := fun _ => 0%Q; c_max := fun _ => 1%Q |} inc [(UF 0 "O2", 0); (UF 0 "N2", 1)] s in
  snd s1 = None /\ snd (check_variable_bounds N X conns [] (fst s1)) = Some ZeroDivisionError.
Proof.
  exists (ex_N 0), ex_X, [ex_c 0 0; ex_c 1 0], [-1; -1]%Q, ex_s. split; [|split; [reflexivity|vm_compute; split; reflexivity]].
  intros a. cbn. repeat split; try (repeat constructor; cbn; intuition discriminate). intros x H; exact H.
Qed.
Print Assumptions C67_all_zero_refuted.

(** What one normalisation does: the sum becomes fixed + variable / old sum. *)
Theorem C67_new_sum_partial : forall X a s s', wf_fluids X s -> x_f X a <> [] -> normalise X a s = (s', None) ->
  (sum_of (v_f s' a) == sum_fixed X a (v_f s a) + (sum_of (v_f s a) - sum_fixed X a (v_f s a)) / sum_of (v_f s a))%Q.
Proof. exact normalise_total. Qed.
Print Assumptions C67_new_sum_partial.

(** C25: a value out of range is moved to the nearest limit, others stay. *)
Theorem C25_mass_flow_nearest : forall N X c s s', (m_lo N <= m_hi N)%Q -> x_m X (k_m c) = true -> check_connection_properties N X c s = (s', None) ->
  nearest (m_lo N) (m_hi N) (v_m s (k_m c)) (v_m s' (k_m c)).
Proof. exact connection_m. Qed.
Print Assumptions C25_mass_flow_nearest.
Theorem C25_mixture_nearest : forall N X c s s', (p_lo N <= p_hi N)%Q -> (h_lo N <= h_hi N)%Q -> iter N < 4 -> k_good c = false ->
  single_fluid (v_fd s (k_id c)) = None -> check_connection_properties N X c s = (s', None) ->
  (x_p X (k_id c) = true -> nearest (p_lo N) (p_hi N) (v_p s (k_id c)) (v_p s' (k_id c))) /\
  (x_h X (k_id c) = true -> k_T c = false -> nearest (h_lo N) (h_hi N) (v_h s (k_id c)) (v_h s' (k_id c))).
Proof. exact connection_mix. Qed.
Print Assumptions C25_mixture_nearest.
Example ex_nearest :
  let s := {| v_m := fun _ => (-9)%Q; v_p := fun _ => 4%Q; v_h := fun _ => 5000%Q;
              v_f := v_f ex_s; v_c := v_c ex_s; v_fd := fun _ => v_f ex_s 0 |} in
  let r := check_connection_properties (ex_N 0) ex_X (ex_c 1 0) s in
  snd r = None /\ v_m (fst r) 0 = (-5)%Q /\ v_p (fst r) 1 = 10%Q /\ v_h (fst r) 1 = 5000%Q.
Proof. vm_compute. repeat split. Qed.

(** C66: the limits of an enthalpy are those of the fluid: five per cent above the
    minimum temperature if there are no properties 0.1 K above it, the first step
    below the maximum temperature with properties. *)
Theorem C66_limits_partial : forall w c s s' l u, check_enthalpy_bounds w c s = (s', None) ->
  lowest w (v_p s (k_id c)) l -> highest w (v_p s (k_id c)) u ->
  (0 <= u)%Q -> (l * (10001 # 10000) <= u)%Q -> (l * (9999 # 10000) <= u)%Q -> (l <= u * (9999 # 10000))%Q ->
  between l (v_h s' (k_id c)) u /\ ((l <= v_h s (k_id c))%Q -> (v_h s (k_id c) <= u)%Q -> v_h s' (k_id c) = v_h s (k_id c)).
Proof. exact enthalpy_limits. Qed.
Print Assumptions C66_limits_partial.
Example ex_limits : lowest ex_narrow 5 (1000 * (200 * (105 # 100)))%Q /\ highest ex_narrow 5 (1000 * (1000 * (99 # 100) * (99 # 100)))%Q.
Proof.
  split; [right; split; reflexivity|]. exists 2. split; [reflexivity|]. intros [|[|m]] H; [reflexivity|reflexivity|lia].
Qed.

(** C25: the enthalpy of a mixture with specified temperature is moved to the nearest
    value between one per cent above the highest minimum and one per cent below the
    lowest maximum temperature of the fluids it contains. *)
Theorem C25_temperature_range : forall c s s', check_temperature_bounds c s = (s', None) ->
  exists Tl Tu l u, T_lower c s Tl /\ T_upper c s Tu /\
    k_hmix c (v_p s (k_id c)) (Tl * (101 # 100)) (v_fd s (k_id c)) = Ok l /\ k_hmix c (v_p s (k_id c)) (Tu * (99 # 100)) (v_fd s (k_id c)) = Ok u /\
    ((l <= u)%Q -> nearest l u (v_h s (k_id c)) (v_h s' (k_id c))).
Proof. exact temperature_range. Qed.
Print Assumptions C25_temperature_range.
(** C25: without any fluid there is no such range, the check raises ValueError. *)
Theorem C25_temperature_nothing : forall c s, (forall f w, In (f, w) (k_wrap c) -> dget f (v_f s (k_fl c)) <> None) -> (forall w, ~ counts c s w) ->
  check_temperature_bounds c s = (s, Some ValueError).
Proof. exact temperature_nothing. Qed.
Print Assumptions C25_temperature_nothing.
Example ex_temperature : let r := check_temperature_bounds (ex_c 0 0) ex_s in
  snd r = None /\ Qred (v_h (fst r) 0) = 202000%Q /\ snd (check_temperature_bounds (ex_c 0 0) {| v_m := v_m ex_s; v_p := v_p ex_s; v_h := v_h ex_s; v_f := fun _ => [("O2"%string, 0%Q); ("N2"%string, 0%Q)]; v_c := v_c ex_s; v_fd := v_fd ex_s |}) = Some ValueError.
Proof. vm_compute. auto. Qed.

(** C66 – the search for the upper limit of the enthalpy ends: further rounds change nothing. *)
Theorem C66_search_ends : forall w p n, (0 < w_Tmin w)%Q -> hmax_fuel w <= n ->
  hmax_loop n w p (w_Tmax w) = hmax_of w p.
Proof. exact hmax_fuel_enough. Qed.
Print Assumptions C66_search_ends.
