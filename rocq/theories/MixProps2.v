(** C39, C104, C106-C108: formulas of the mixing rules and difference quotients. *)
From Coq Require Import QArith Lqa.
From Verif Require Import Base NewtonModel MixModel MixSpec MixSpec2 MixProofs4 MixWitness.
Open Scope Q_scope.

(** C39 – enthalpy and entropy of an ideal mixture: every fluid at its partial pressure, weighted by mass. *)
Theorem C39_ideal : forall p T fd, valid fd -> exists xs h s, molar_fractions fd = Ok xs
  /\ h_ideal p T fd = Ok h /\ s_ideal p T fd = Ok s
  /\ h == sum_present fd (fun k e => e_frac e * w_hpT (e_wr e) (p * value k xs) T)
  /\ s == sum_present fd (fun k e => e_frac e * w_spT (e_wr e) (p * value k xs) T).
Proof. exact ideal_formulas. Qed.
Print Assumptions C39_ideal.

(** C39 – the rule forced-gas: as the ideal mixture, but water below its saturation temperature is saturated steam. *)
Theorem C39_forced_gas : forall p T fd, valid fd -> exists xs h hw, molar_fractions fd = Ok xs
  /\ h_forced_gas p T fd = Ok h
  /\ (forall e, dget "H2O"%string fd = Some e -> forced_water (e_wr e) (p * value "H2O"%string xs) T hw)
  /\ h == sum_present fd (fun k e => e_frac e *
            (if String.eqb k "H2O" then hw else w_hpT (e_wr e) (p * value k xs) T)).
Proof. exact forced_gas_formula. Qed.
Print Assumptions C39_forced_gas.

(** C39 – incompressible mixtures: every fluid at the common pressure, weighted by mass; volumes, not densities, add up. *)
Theorem C39_incompressible : forall p T fd,
  (forall k e, In (k, e) fd -> ~ w_dpT (e_wr e) p T == 0) -> exists h s v m,
  h_incompressible p T fd = Ok h /\ s_incompressible p T fd = Ok s /\ v_incompressible p T fd = Ok v
  /\ viscosity_incompressible p T fd = Ok m
  /\ h == sum_present fd (fun _ e => e_frac e * w_hpT (e_wr e) p T)
  /\ s == sum_present fd (fun _ e => e_frac e * w_spT (e_wr e) p T)
  /\ v == sum_present fd (fun _ e => e_frac e / w_dpT (e_wr e) p T)
  /\ m == sum_present fd (fun _ e => e_frac e * w_vis (e_wr e) p T).
Proof. exact incompressible_formulas. Qed.
Print Assumptions C39_incompressible.

(** C39 – viscosity of gas mixtures: average weighted by molar fraction times root of the molar mass. *)
Theorem C39_viscosity : forall (root : Q -> Q) p T fd, valid fd -> (forall m, 0 < m -> 0 < root m) ->
  (exists k e, In (k, e) fd /\ larger (e_frac e) = true) -> exists xs m, molar_fractions fd = Ok xs
  /\ viscosity_ideal root p T fd = Ok m
  /\ m * sum_present fd (fun k e => value k xs * root (w_M (e_wr e)))
     == sum_present fd (fun k e => value k xs * root (w_M (e_wr e)) * w_vis (e_wr e) p T).
Proof. exact viscosity_formula. Qed.
Print Assumptions C39_viscosity.

(** C39 – the name of the mixing rule selects its function. *)
Theorem C39_rules : forall names p T fd, number_of_fluids fd <> 1%nat ->
  h_mix_pT names p T fd (Some "ideal"%string) = h_ideal p T fd
  /\ h_mix_pT names p T fd (Some "ideal-cond"%string) = h_ideal_cond names p T fd
  /\ h_mix_pT names p T fd (Some "incompressible"%string) = h_incompressible p T fd
  /\ h_mix_pT names p T fd (Some "forced-gas"%string) = h_forced_gas p T fd.
Proof. exact enthalpy_rules. Qed.
Print Assumptions C39_rules.

(** Half nitrogen, half water under the name H2O at 4 bar and 300 K: the water is
    forced to be steam at the dew line; at 700 K it is an ordinary gas. *)
Example C39_rules_ex :
  let wet := renamed (fun k => if String.eqb k "water" then "H2O" else k)%string air in
  rmap Qred (h_forced_gas 4 300 wet) = Ok 1750 /\ rmap Qred (h_forced_gas 4 700 wet) = Ok 2300
  /\ rmap Qred (h_incompressible 4 300 wet) = Ok 1700 /\ number_of_fluids wet = 2%nat.
Proof. vm_compute. auto. Qed.


(** C104 – the volume of a condensing mixture is the reciprocal of the average by mass of the density of the liquid and the sum of the densities in the gas.  Missing: that volumes add up, refuted. *)
Theorem C104_volume_partial : forall names p T fd water ew, valid fd -> condenses p T fd water ew ->
  water_in names fd = Some water -> exists c, cond_check p T fd water = Ok c
  /\ let d := c_mass_liquid c * w_dQT (e_wr ew) 0 T + (1 - c_mass_liquid c) *
        (w_dQT (e_wr ew) 1 T + sum_others fd water (fun k e => w_dpT (e_wr e) (p * value k (c_molar_gas c)) T)) in
     (~ d == 0 -> exists v, v_ideal_cond names p T fd = Ok v /\ v * d == 1)
     /\ (d == 0 -> v_ideal_cond names p T fd = Err ZeroDivisionError).
Proof. exact volume_cond. Qed.
Print Assumptions C104_volume_partial.

(** C106 – the three rules ideal, ideal-cond and incompressible serve all properties but the chemical exergy, forced-gas only the enthalpy; chemical exergy only ideal-cond.  Missing: one set of rules for all properties, refuted. *)
Theorem C106_rules_partial : forall q r fd pure mix, number_of_fluids fd <> 1%nat ->
  (In r ["ideal"; "ideal-cond"; "incompressible"]%string /\ q <> PChemical
   \/ r = "forced-gas"%string /\ q = PEnthalpy \/ r = "ideal-cond"%string /\ q = PChemical ->
   dispatch q (Some r) fd pure mix = mix r)
  /\ (~ (In r ["ideal"; "ideal-cond"; "incompressible"]%string /\ q <> PChemical
   \/ r = "forced-gas"%string /\ q = PEnthalpy \/ r = "ideal-cond"%string /\ q = PChemical) ->
   dispatch q (Some r) fd pure mix = Err KeyError).
Proof. exact rule_tables. Qed.
Print Assumptions C106_rules_partial.

(** C107 – the derivative by a mass fraction is the slope where the temperature is affine in the fraction.  Missing: restoring the composition when the property function raises, refuted. *)
Theorem C107_quotient_partial : forall (T : fluids -> option Q -> res Q) k fd T0 s b, (exists e, dget k fd = Some e) ->
  (forall fd' x t, with_fraction k x fd fd' -> exists y, T fd' t = Ok y /\ y == s * x + b) ->
  exists fd' d, dT_dfluid T k fd T0 = (fd', Ok d) /\ d == s.
Proof. exact dfluid_affine. Qed.
Print Assumptions C107_quotient_partial.

(** C108 – the derivatives by enthalpy are the slope where the function is affine and independent of the start value.  Missing: start values that are temperatures, refuted. *)
Theorem C108_quotient_partial : forall (f : Q -> option Q -> res Q) s b h T0,
  (forall h t, exists y, f h t = Ok y /\ y == s * h + b) ->
  (exists d, dT_pdh f h T0 = Ok d /\ d == s) /\ (exists d, dv_pdh f h T0 = Ok d /\ d == s).
Proof. exact quotients_affine. Qed.
Print Assumptions C108_quotient_partial.
