(** Mixture properties: C39, C102-C109. *)
From Coq Require Import QArith Lqa.
From Verif Require Import Base NewtonModel MixModel MixSpec MixProofs MixProofs2 MixProofs3 MixWitness.
Open Scope Q_scope.

(* ================================================================== C39 *)

(** Molar fractions: in proportion to the amounts, sum one; with the molar mass of
    the mixture they give back the mass fractions. *)
Theorem C39_molar_fractions : forall fd, valid fd -> exists xs M,
  molar_fractions fd = Ok xs /\ keys xs = keys fd /\ sumd xs (fun _ x => x) == 1
  /\ molar_mass_mixture fd xs = Ok M /\ M * moles fd == 1
  /\ forall k e, dget k fd = Some e -> exists x, dget k xs = Some x
     /\ 0 <= x <= 1 /\ x * moles fd == amount e /\ x * w_M (e_wr e) == e_frac e * M.
Proof. exact molar_spec. Qed.
Print Assumptions C39_molar_fractions.

(** Condensation: the gas is saturated, both compositions of the gas sum to one,
    and liquid plus gas contain every fluid in the amount of the mixture, by moles
    and by mass. *)
Theorem C39_condensation : forall p T fd water ew, valid fd -> condenses p T fd water ew ->
  exists xs c, molar_fractions fd = Ok xs /\ cond_check p T fd water = Ok c
  /\ 0 < c_molar_liquid c < 1 /\ 0 < c_mass_liquid c < 1
  /\ sumd (c_molar_gas c) (fun _ x => x) == 1 /\ sumd (c_mass_gas c) (fun _ x => x) == 1
  /\ p * value water (c_molar_gas c) == w_psat (e_wr ew) T
  /\ c_molar_liquid c + (1 - c_molar_liquid c) * value water (c_molar_gas c) == value water xs
  /\ c_mass_liquid c + (1 - c_mass_liquid c) * value water (c_mass_gas c) == e_frac ew
  /\ forall k e, dget k fd = Some e -> k <> water ->
     (1 - c_molar_liquid c) * value k (c_molar_gas c) == value k xs
     /\ (1 - c_mass_liquid c) * value k (c_mass_gas c) == e_frac e.
Proof. exact wet_spec. Qed.
Print Assumptions C39_condensation.

(** Without saturation or above the critical temperature nothing condenses. *)
Theorem C39_no_condensation : forall p T fd water ew, valid fd -> dget water fd = Some ew ->
  (w_below (e_wr ew) T = false \/ p * amount ew <= w_psat (e_wr ew) T * moles fd) ->
  exists xs, molar_fractions fd = Ok xs /\ cond_check p T fd water = Ok
    {| c_mass_gas := map (fun e => (fst e, e_frac (snd e))) fd; c_molar_gas := xs; c_mass_liquid := 0; c_molar_liquid := 0 |}.
Proof. exact dry_spec. Qed.
Print Assumptions C39_no_condensation.

(** Enthalpy and entropy of a condensing mixture are those of its liquid, its
    vapour and its other gases, each with its mass. *)
Theorem C39_enthalpy : forall names p T fd water ew, valid fd -> condenses p T fd water ew ->
  water_in names fd = Some water -> exists c, cond_check p T fd water = Ok c
  /\ ((1 # 1000000) < c_mass_liquid c -> exists h, h_ideal_cond names p T fd = Ok h
      /\ h == c_mass_liquid c * w_hQT (e_wr ew) 0 T + (e_frac ew - c_mass_liquid c) * w_hQT (e_wr ew) 1 T
              + sum_others fd water (fun k e => e_frac e * w_hpT (e_wr e) (p * value k (c_molar_gas c)) T)).
Proof. exact enthalpy_cond. Qed.
Print Assumptions C39_enthalpy.
Theorem C39_entropy : forall names p T fd water ew, valid fd -> condenses p T fd water ew ->
  water_in names fd = Some water -> exists c s, cond_check p T fd water = Ok c
  /\ s_ideal_cond names p T fd = Ok s
  /\ s == c_mass_liquid c * w_sQT (e_wr ew) 0 T + (e_frac ew - c_mass_liquid c) * w_sQT (e_wr ew) 1 T
              + sum_others fd water (fun k e => e_frac e * w_spT (e_wr e) (p * value k (c_molar_gas c)) T).
Proof. exact entropy_cond. Qed.
Print Assumptions C39_entropy.

(** A mixture of ideal gases is an ideal gas with the molar mass of the mixture. *)
Theorem C39_ideal_gas : forall R p T fd, valid fd -> 0 < R -> 0 < p -> 0 < T ->
  (forall k e, dget k fd = Some e -> (e_frac e == 0 \/ (1 # 1000000) < e_frac e)
     /\ forall pp, w_dpT (e_wr e) pp T == pp * w_M (e_wr e) / (R * T)) ->
  exists v xs M, v_ideal p T fd = Ok v /\ molar_fractions fd = Ok xs /\ molar_mass_mixture fd xs = Ok M
  /\ v == R * T / (p * M).
Proof. exact ideal_gas. Qed.
Print Assumptions C39_ideal_gas.

Example C39_example : condenses 4 300 air "water" {| e_frac := 1#2; e_wr := steam |}
  /\ match cond_check 4 300 air "water" with
     | Ok c => Qred (c_molar_liquid c) = (1#3) /\ Qred (value "water" (c_molar_gas c)) = (1#4)
               /\ Qred (value "N2" (c_molar_gas c)) = (3#4)
     | Err _ => False
     end
  /\ rmap Qred (h_ideal_cond names 4 300 air) = Ok (3250 # 3).
Proof.
  split; [split; [reflexivity |]; repeat (split; [vm_compute; reflexivity |]); vm_compute; reflexivity |].
  split; vm_compute; auto.
Qed.

(** One fluid: the rule is not consulted.  A mixture needs a known rule, and has
    no saturation properties. *)
Theorem C39_dispatch_pure : forall q r r' fd pure mix mix', number_of_fluids fd = 1%nat ->
  dispatch q r fd pure mix = dispatch q r' fd pure mix'
  /\ exists e, pure_fluid fd = Some e /\ dispatch q r fd pure mix = pure e /\ larger (e_frac e) = true.
Proof. exact dispatch_pure. Qed.
Print Assumptions C39_dispatch_pure.
Theorem C39_dispatch_mixture : forall q fd pure mix, number_of_fluids fd <> 1%nat ->
  dispatch q None fd pure mix = Err KeyError
  /\ (forall r, ~ In r (rules q) -> dispatch q (Some r) fd pure mix = Err KeyError)
  /\ (forall r, In r (rules q) -> dispatch q (Some r) fd pure mix = mix r)
  /\ saturation fd pure = Err ValueError.
Proof. exact dispatch_mixture. Qed.
Print Assumptions C39_dispatch_mixture.

(* ======================================== C102: temperature of a mixture *)

(** For fluids with constant heat capacities the temperature computed from the
    enthalpy is exact, from every start value. *)
Theorem C102_roundtrip : forall fd cp b p T T0 lo hi, valid fd -> linear_h fd cp b ->
  temperature_range fd = Ok (lo, hi) -> lo <= T <= hi * 2 ->
  (exists h o, h_ideal p T fd = Ok h
     /\ inverse_temperature fd (fun t => h_ideal p t fd) h T0 = Ok (Some (Ok o)) /\ no_x o == T)
  /\ (exists h o, h_incompressible p T fd = Ok h
     /\ inverse_temperature fd (fun t => h_incompressible p t fd) h T0 = Ok (Some (Ok o)) /\ no_x o == T).
Proof. exact temperature_roundtrip. Qed.
Print Assumptions C102_roundtrip.
(** The common range lies inside the range of every fluid present. *)
Theorem C102_range : forall fd lo hi, temperature_range fd = Ok (lo, hi) ->
  forall k e, In (k, e) fd -> larger (e_frac e) = true ->
  w_Tmin (e_wr e) + (1#10) <= lo /\ hi <= w_Tmax (e_wr e) - (1#10).
Proof. exact range_inside. Qed.
Print Assumptions C102_range.
Example C102_example : temperature_range air = Ok (200 + (1#10), 1000 - (1#10))
  /\ match h_ideal 4 350 air with
     | Ok h => match inverse_temperature air (fun t => h_ideal 4 t air) h None with
               | Ok (Some (Ok o)) => Qred (no_x o) = 350
               | _ => False
               end
     | Err _ => False
     end.
Proof. vm_compute. auto. Qed.

(* ================================ C103: temperatures in the common range *)

(** The temperature returned can lie above the range of every fluid, up to twice
    the upper end. *)
Theorem C103_range_refuted : exists fd h o, valid fd
  /\ inverse_temperature fd (fun t => h_ideal 4 t fd) h None = Ok (Some (Ok o))
  /\ forall k e, In (k, e) fd -> w_Tmax (e_wr e) < no_x o.
Proof.
  exists air, (1250 + 3 * 1500 / 2). eexists. split; [exact air_valid |]. split; [vm_compute; reflexivity |].
  intros k e [E | [E | []]]; injection E as <- <-; vm_compute; reflexivity.
Qed.
Print Assumptions C103_range_refuted.
Theorem C103_range_partial : forall fd f target T0 lo hi o, temperature_range fd = Ok (lo, hi) -> lo <= hi * 2 ->
  inverse_temperature fd f target T0 = Ok (Some (Ok o)) -> lo <= no_x o <= hi * 2.
Proof. exact inverse_bounds. Qed.
Print Assumptions C103_range_partial.

(* ==================================== C104: volume of a wet gas mixture *)

(** The volume of a condensing mixture is not that of its liquid plus that of its
    gas: the densities are averaged by mass. *)
Theorem C104_volume_refuted : exists names p T fd water ew c v, valid fd /\ condenses p T fd water ew
  /\ water_in names fd = Some water /\ cond_check p T fd water = Ok c /\ v_ideal_cond names p T fd = Ok v
  /\ 100 * v < c_mass_liquid c / w_dQT (e_wr ew) 0 T
          + (1 - c_mass_liquid c) / (w_dQT (e_wr ew) 1 T
              + sum_others fd water (fun k e => w_dpT (e_wr e) (p * value k (c_molar_gas c)) T)).
Proof.
  exists names, 4, 300, air, "water"%string, {| e_frac := 1#2; e_wr := steam |}. do 2 eexists.
  split; [exact air_valid |]. split; [exact (proj1 C39_example) |]. split; [vm_compute; reflexivity |].
  split; [vm_compute; reflexivity |]. split; [vm_compute; reflexivity |]. vm_compute. reflexivity.
Qed.
Print Assumptions C104_volume_refuted.

(* ============================================== C105: names of the fluids *)

(** The rule 'forced-gas' recognises water only under the name H2O. *)
Theorem C105_names_refuted : exists fd r p T, valid fd
  /\ (forall a b, In a (keys fd) -> In b (keys fd) -> r a = r b -> a = b)
  /\ In (r "water"%string) names
  /\ exists h h', h_forced_gas p T fd = Ok h /\ h_forced_gas p T (renamed r fd) = Ok h' /\ ~ h == h'.
Proof.
  exists air, (fun k => if String.eqb k "water" then "H2O" else k)%string, 4, 300.
  split; [exact air_valid |]. split.
  { intros a b [<- | [<- | []]] [<- | [<- | []]]; cbn; congruence. }
  split; [now left |]. do 2 eexists. split; [vm_compute; reflexivity |]. split; [vm_compute; reflexivity |].
  vm_compute. discriminate.
Qed.
Print Assumptions C105_names_refuted.
(** The rule 'ideal' does not depend on names.  Missing: the rules with water. *)
Theorem C105_names_partial : forall r fd p T,
  (forall a b, In a (keys fd) -> In b (keys fd) -> r a = r b -> a = b) ->
  valid fd -> h_ideal p T (renamed r fd) = h_ideal p T fd.
Proof. exact renamed_ideal. Qed.
Print Assumptions C105_names_partial.

(* ================================================== C106: mixing rules *)

(** A mixture with the rule 'forced-gas' has an enthalpy but neither temperature,
    entropy nor volume. *)
Theorem C106_rules_refuted : exists names p T fd rule h, h_mix_pT names p T fd rule = Ok h
  /\ forall q pure mix, q <> PEnthalpy -> dispatch q rule fd pure mix = Err KeyError.
Proof.
  exists names, 4, 300, air, (Some "forced-gas"%string). eexists. split; [vm_compute; reflexivity |].
  intros q pure mix N. destruct q; try congruence; reflexivity.
Qed.
Print Assumptions C106_rules_refuted.

(* ===================================== C107: derivatives by composition *)

(** The derivative by a mass fraction leaves the composition as it was if the
    property function returns. *)
Theorem C107_restored_partial : forall T k fd T0 fd' y,
  dT_dfluid T k fd T0 = (fd', Ok y) -> same_composition fd fd'.
Proof. exact dfluid_restores. Qed.
Print Assumptions C107_restored_partial.
(** If it raises the fraction stays shifted. *)
Theorem C107_restored_refuted : exists T k fd T0 fd' e,
  dT_dfluid T k fd T0 = (fd', Err e) /\ ~ same_composition fd fd'.
Proof.
  exists (fun _ _ => Err ValueError), "N2"%string, air, None. do 2 eexists. split; [reflexivity |].
  intros (_ & S). destruct (S "N2"%string _ eq_refl) as (e' & D & _ & F). cbn in D. injection D as <-.
  vm_compute in F. discriminate F.
Qed.
Print Assumptions C107_restored_refuted.

(* ============================================ C108: start temperatures *)

(** The derivatives of the specific volume pass a volume as start temperature of
    the second evaluation: a function defined for all start temperatures of at
    least 200 K raises. *)
Theorem C108_start_refuted : exists (v : Q -> option Q -> res Q) h T0, 200 <= T0
  /\ (forall h t, 200 <= t -> exists y, v h (Some t) = Ok y)
  /\ exists e, dv_pdh v h (Some T0) = Err e.
Proof.
  exists (fun h t => match t with Some x => if Qle_bool 200 x then Ok (h / 1000) else Err ValueError | None => Ok 1 end), 800, 300.
  split; [lra |]. split.
  - intros h t L. apply Qle_bool_iff in L. rewrite L. eexists. reflexivity.
  - eexists. vm_compute. reflexivity.
Qed.
Print Assumptions C108_start_refuted.
(** The derivatives of the temperature pass temperatures only. *)
Theorem C108_start_partial : forall (T : Q -> option Q -> res Q) (ok : Q -> Prop) h T0,
  (forall h t, (match t with None => True | Some x => ok x end) -> exists y, T h t = Ok y /\ ok y) ->
  ok T0 -> exists d, dT_pdh T h (Some T0) = Ok d.
Proof. exact dT_starts. Qed.
Print Assumptions C108_start_partial.

(* ================================================== C109: saturation *)

(** Saturation pressure and temperature of the iapws wrapper are not inverse even
    if those of the library are. *)
Theorem C109_iapws_refuted : exists (lib_p lib_T : Q -> Q) p_crit T_crit T,
  (forall t, lib_T (lib_p t) == t) /\ T < T_crit /\ lib_p T < p_crit
  /\ ~ T_sat lib_T p_crit (iapws_p_sat lib_p T_crit T) == T.
Proof.
  exists (fun t => t), (fun t => t), 600, 600, 300. split; [intro; reflexivity |].
  split; [lra |]. split; [lra |]. vm_compute. discriminate.
Qed.
Print Assumptions C109_iapws_refuted.
(** The saturation temperature decreases when the pressure passes the critical
    pressure. *)
Theorem C109_monotone_refuted : exists (lib : Q -> Q) p_crit p p',
  (forall a b, a < b -> lib a < lib b) /\ 0 < p_crit /\ p < p' /\ T_sat lib p_crit p' < T_sat lib p_crit p.
Proof.
  exists (fun t => t), 100, 100, 101. split; [auto |]. repeat (split; [lra |]). vm_compute. reflexivity.
Qed.
Print Assumptions C109_monotone_refuted.
(** Incompressible fluids of the CoolProp wrapper have no saturation pressure: the
    comparison with the critical temperature raises. *)
Theorem C109_incompressible_always : forall lib T, coolprop_p_sat lib None T = Err TypeError.
Proof. exact (fun _ _ => eq_refl). Qed.
Print Assumptions C109_incompressible_always.
(** Pressures are limited to the critical pressure, lower ones unchanged. *)
Theorem C109_limit_partial : forall pc p, 0 < pc -> subcritical pc p <= pc
  /\ (p <= pc -> subcritical pc p = p) /\ subcritical pc (subcritical pc p) = subcritical pc p.
Proof. exact subcritical_spec. Qed.
Print Assumptions C109_limit_partial.
