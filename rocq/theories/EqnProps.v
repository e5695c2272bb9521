(** Component and connection equations: conservation (C27, C28), Jacobian rows
    (C29, C30), equation counts (C31), and the parts that fail (C68-C74). *)
From Coq Require Import Reals List String Bool Arith Lra Lia.
From Verif Require Import Base EqnModel EqnSpec EqnProofs EqnProofs2 EqnProofs3 EqnProofs4 EqnWitness.
Import ListNotations.
Open Scope R_scope.

(* ================================================================ C27: mass *)

(** Splitter, separator, droplet separator, merge with an announced balance. *)
Theorem C27_node_mass : forall inl outl e,
  node_mass_func inl outl e = 0 <-> mass_total e inl = mass_total e outl.
Proof. exact node_mass_conserved. Qed.
Print Assumptions C27_node_mass.

(** Merge: species are balanced by the fluid equations. *)
Theorem C27_merge_species : forall inl o e f,
  all_zero (merge_fluid_func inl o e) -> In f (ckeys o) ->
  species_total e f inl = species_total e f [o].
Proof. exact merge_species. Qed.
Print Assumptions C27_merge_species.

(** Merge without mass balance equation: the fluid equations imply it. *)
Theorem C27_merge_mass : forall inl o e,
  all_zero (merge_fluid_func inl o e) ->
  (forall c, In c (inl ++ [o]) -> normalised e (ckeys o) c) ->
  mass_total e inl = mass_total e [o].
Proof. exact merge_mass_by_fluids. Qed.
Print Assumptions C27_merge_mass.

(** Separator: the fluids with a balance are conserved, and so is one further
    fluid. *)
Theorem C27_separator_species : forall i0 outl fl e f,
  all_zero (separator_fluid_func i0 outl fl e) -> In f fl ->
  species_total e f [i0] = species_total e f outl.
Proof. exact separator_species. Qed.
Print Assumptions C27_separator_species.

Theorem C27_separator_last_species : forall i0 outl fl g e,
  node_mass_func [i0] outl e = 0 ->
  all_zero (separator_fluid_func i0 outl fl e) ->
  (forall c, In c (i0 :: outl) -> normalised e (fl ++ [g]) c) ->
  species_total e g [i0] = species_total e g outl.
Proof. exact separator_last. Qed.
Print Assumptions C27_separator_last_species.

(** Drum: with its equation, or in the case of a closed loop, where the topology
    reduction puts in1 and out2 on one container. *)
Theorem C27_drum_mass : forall i0 i1 o0 o1 e,
  (drum_num_mass_eq i1 o0 = 1%nat -> drum_mass_func i0 i1 o0 o1 e = 0) ->
  (drum_num_mass_eq i1 o0 = 0%nat -> cm i0 = cm o1) ->
  mass_total e [i0; i1] = mass_total e [o0; o1].
Proof. exact drum_mass_conserved. Qed.
Print Assumptions C27_drum_mass.

(** Fuel cell: mass and the molar ratio of two hydrogen to one oxygen. *)
Theorem C27_fuel_cell_mass : forall isv Mo2 Mh2 i1 i2 o1 e,
  Mo2 + 2 * Mh2 <> 0 ->
  isv (QM (cm o1)) = true \/ (isv (QM (cm i1)) = true /\ isv (QM (cm i2)) = true) ->
  all_zero (fuel_cell_mass_func isv Mo2 Mh2 i1 i2 o1 e) ->
  mass_total e [i1; i2] = mass_total e [o1] /\
  vm e i1 * (2 * Mh2) = vm e i2 * Mo2.
Proof. exact fuel_cell_mass_conserved. Qed.
Print Assumptions C27_fuel_cell_mass.

Theorem C27_electrolyzer_mass : forall isv Mo2 Mh2 i1 o1 o2 e,
  Mo2 + 2 * Mh2 <> 0 ->
  isv (QM (cm i1)) = true \/ (isv (QM (cm o1)) = true /\ isv (QM (cm o2)) = true) ->
  all_zero (electrolyzer_mass_func isv Mo2 Mh2 i1 o1 o2 e) ->
  mass_total e [i1] = mass_total e [o1; o2] /\
  vm e o1 * (2 * Mh2) = vm e o2 * Mo2.
Proof. exact electrolyzer_mass_conserved. Qed.
Print Assumptions C27_electrolyzer_mass.

Example ex_merge_fluids : all_zero (merge_fluid_func [ex_c 0; ex_c 1] (ex_c 2) ex_merge) /\
  (forall c, In c ([ex_c 0; ex_c 1] ++ [ex_c 2]) -> normalised ex_merge (ckeys (ex_c 2)) c).
Proof.
  split.
  - unfold merge_fluid_func, merge_fluid_eq, acc_add, all_zero, vx, vm. simpl.
    repeat constructor; lra.
  - unfold normalised, vx. intros c [<-|[<-|[<-|[]]]]; simpl; lra.
Qed.

(** The fuel cell burns 8 kg/s oxygen with 1 kg/s hydrogen. *)
Example ex_fuel_cell :
  all_zero (fuel_cell_mass_func (fun _ => true) 32 2 (ex_c 0) (ex_c 1) (ex_c 2)
    (fun q => match q with QM 0 => 8 | QM 1 => 1 | QM 2 => 9 | _ => 0 end)).
Proof. unfold fuel_cell_mass_func, o2_share, vm, all_zero. simpl. repeat constructor; lra. Qed.

(* ============================================================== C28: energy *)
Theorem C28_heat_exchanger : forall i1 i2 o1 o2 e, cm i1 = cm o1 -> cm i2 = cm o2 ->
  (hx_energy_func i1 i2 o1 o2 e = 0 <->
   enthalpy_total e [i1; i2] = enthalpy_total e [o1; o2]).
Proof. exact hx_energy_conserved. Qed.
Print Assumptions C28_heat_exchanger.

Theorem C28_merge : forall inl o e,
  merge_energy_func inl o e = 0 <-> enthalpy_total e inl = enthalpy_total e [o].
Proof. exact merge_energy_conserved. Qed.
Print Assumptions C28_merge.

Theorem C28_droplet_separator : forall inl outl e,
  droplet_energy_func inl outl e = 0 <-> enthalpy_total e inl = enthalpy_total e outl.
Proof. exact droplet_energy_conserved. Qed.
Print Assumptions C28_droplet_separator.

(** Droplet separator: saturated liquid at the first, saturated vapour at the second outlet, in the
    proportion given by the vapour fraction of the inlet. *)
Theorem C28_droplet_outlets : forall hs i o0 o1 e x,
  node_mass_func [i] [o0; o1] e = 0 -> droplet_energy_func [i] [o0; o1] e = 0 ->
  all_zero (node_pressure_func i (node_others [i] [o0; o1]) e) -> all_zero (droplet_outlet_func hs o0 o1 e) ->
  hs 0 (vp e i) < hs 1 (vp e i) -> vh e i = hs 0 (vp e i) + x * (hs 1 (vp e i) - hs 0 (vp e i)) ->
  vm e o1 = x * vm e i /\ vm e o0 = (1 - x) * vm e i /\ vh e o0 = hs 0 (vp e i) /\ vh e o1 = hs 1 (vp e i).
Proof. exact droplet_split. Qed.
Print Assumptions C28_droplet_outlets.

Theorem C28_splitter : forall i0 outl e,
  node_mass_func [i0] outl e = 0 -> all_zero (splitter_energy_func i0 outl e) ->
  enthalpy_total e [i0] = enthalpy_total e outl.
Proof. exact splitter_energy_conserved. Qed.
Print Assumptions C28_splitter.

(** Separator: all outlets have the temperature of the inlet. *)
Theorem C28_separator : forall T i0 outl e,
  all_zero (separator_energy_func T i0 outl e) <->
  forall o, In o outl -> T o (vp e o) (vh e o) = T i0 (vp e i0) (vh e i0).
Proof. exact separator_temperatures. Qed.
Print Assumptions C28_separator.

Theorem C28_drum : forall i0 i1 o0 o1 e,
  (drum_num_mass_eq i1 o0 = 0%nat -> cm i0 = cm o1) ->
  (drum_energy_func i0 i1 o0 o1 e = 0 <->
   enthalpy_total e [i0; i1] = enthalpy_total e [o0; o1]).
Proof. exact drum_energy_conserved. Qed.
Print Assumptions C28_drum.

(** Valve, cycle closer and subsystem interface: equal enthalpies port by port. *)
Theorem C28_valve : forall ports e,
  Forall (fun io => cm (fst io) = cm (snd io)) ports ->
  all_zero (enthalpy_equality_func ports e) ->
  enthalpy_total e (map fst ports) = enthalpy_total e (map snd ports).
Proof. exact equality_energy_conserved. Qed.
Print Assumptions C28_valve.

(** Turbomachines (power) and simple heat exchangers (heat). *)
Theorem C28_power_and_heat : forall i o P e, cm i = cm o ->
  (flow_energy_func i o P e = 0 <->
   enthalpy_total e [o] - enthalpy_total e [i] = pval e P).
Proof. exact flow_energy_conserved. Qed.
Print Assumptions C28_power_and_heat.

(** Fuel cell and electrolyser: power and reaction energy, relative to the
    reference enthalpies. *)
Theorem C28_fuel_cell : forall hw ho hh e0 i0 i1 i2 o0 o1 P e, cm i0 = cm o0 ->
  (fuel_cell_energy_func hw ho hh e0 i0 i1 i2 o0 o1 P e = 0 <->
   enthalpy_total e [i0; i1; i2] - enthalpy_total e [o0; o1]
   = pval e P + vm e i2 * e0 + (vm e i2 * hh + vm e i1 * ho - vm e o1 * hw)).
Proof. exact fuel_cell_energy_conserved. Qed.
Print Assumptions C28_fuel_cell.

Theorem C28_electrolyzer : forall hw ho hh e0 i0 i1 o0 o1 o2 P e, cm i0 = cm o0 ->
  (electrolyzer_energy_func hw ho hh e0 i0 i1 o0 o1 o2 P e = 0 <->
   enthalpy_total e [o0; o1; o2] - enthalpy_total e [i0; i1]
   = pval e P - vm e o2 * e0 + (vm e o1 * ho + vm e o2 * hh - vm e i1 * hw)).
Proof. exact electrolyzer_energy_conserved. Qed.
Print Assumptions C28_electrolyzer.

Example ex_splitter : node_mass_func [ex_c 0] [ex_c 1; ex_c 2]
    (fun q => match q with QM 0 => 3 | QM 1 => 1 | QM 2 => 2 | QH _ => 7 | _ => 0 end) = 0 /\
  all_zero (splitter_energy_func (ex_c 0) [ex_c 1; ex_c 2]
    (fun q => match q with QM 0 => 3 | QM 1 => 1 | QM 2 => 2 | QH _ => 7 | _ => 0 end)).
Proof.
  unfold node_mass_func, acc_sub, acc_add, splitter_energy_func, all_zero, vm, vh. simpl.
  split; [lra|]. repeat constructor; lra.
Qed.

(* ======================================================= C29: Jacobian rows *)
Theorem C29_node_mass : forall isv inl outl e, NoDup (map cm (inl ++ outl)) ->
  row_is_gradient isv (node_mass_func inl outl) (node_mass_writes isv inl outl) e.
Proof. exact node_mass_gradient. Qed.
Print Assumptions C29_node_mass.

Theorem C29_node_pressure : forall isv i0 o e, cid i0 <> cid o ->
  row_is_gradient isv (fun e => vp e i0 - vp e o) (node_pressure_row isv i0 o) e.
Proof. exact node_pressure_gradient. Qed.
Print Assumptions C29_node_pressure.

Theorem C29_merge_fluid : forall isv inl o f e,
  NoDup (map cm (inl ++ [o])) -> NoDup (map cf (inl ++ [o])) ->
  row_is_gradient isv (merge_fluid_eq inl o f) (merge_fluid_writes isv inl o f e) e.
Proof. exact merge_fluid_gradient. Qed.
Print Assumptions C29_merge_fluid.

Theorem C29_merge_energy : forall isv inl o e,
  NoDup (map cm (inl ++ [o])) -> NoDup (map cid (inl ++ [o])) ->
  row_is_gradient isv (merge_energy_func inl o) (merge_energy_writes isv inl o e) e.
Proof. exact merge_energy_gradient. Qed.
Print Assumptions C29_merge_energy.

Theorem C29_splitter_energy : forall isv i0 o e, cid i0 <> cid o ->
  row_is_gradient isv (fun e => vh e i0 - vh e o) (splitter_energy_row isv i0 o) e.
Proof. exact splitter_energy_gradient. Qed.
Print Assumptions C29_splitter_energy.

Theorem C29_separator_fluid : forall isv i0 outl f e,
  NoDup (map cm (i0 :: outl)) -> NoDup (map cf (i0 :: outl)) ->
  row_is_gradient isv (separator_fluid_eq i0 outl f)
    (separator_fluid_writes isv i0 outl f e) e.
Proof. exact separator_fluid_gradient. Qed.
Print Assumptions C29_separator_fluid.

(** Separator temperatures: entries of mass flows, pressures and enthalpies; the dependence on
    the composition has no entries in the code. *)
Theorem C29_separator_energy : forall T Tp Th isv i0 outl o k e,
  cid i0 <> cid o -> nth_error outl k = Some o ->
  (forall c p h, derivable_pt_lim (fun t => T c t h) p (Tp c p h)) ->
  (forall c p h, derivable_pt_lim (fun t => T c p t) h (Th c p h)) ->
  forall q, isv q = true -> (forall a f, q <> QF a f) ->
  partial_is (fun e => nth k (separator_energy_func T i0 outl e) 0) e q (entry (separator_energy_row isv Tp Th i0 o e) q).
Proof. exact separator_row. Qed.
Print Assumptions C29_separator_energy.

Theorem C29_droplet_energy : forall isv inl outl e,
  NoDup (map cm (inl ++ outl)) -> NoDup (map cid (inl ++ outl)) ->
  row_is_gradient isv (droplet_energy_func inl outl)
    (droplet_energy_writes isv inl outl e) e.
Proof. exact droplet_energy_gradient. Qed.
Print Assumptions C29_droplet_energy.

(** The enthalpy entry is assigned in the first iteration only and stays valid. *)
Theorem C29_droplet_outlet : forall isv hs dhs q o states n,
  isv (QH (cid o)) = true ->
  exists v, row_after (fun it e => droplet_outlet_row isv dhs q o it e) states n (QH (cid o)) = Some v
    /\ partial_is (fun e => hs q (vp e o) - vh e o) (states n) (QH (cid o)) v.
Proof. exact droplet_outlet_row_ok. Qed.
Print Assumptions C29_droplet_outlet.

Theorem C29_drum_mass : forall isv i0 i1 o0 o1 e,
  (if drum_loop i1 o0 then cm i0 <> cm o1
   else NoDup (map cm [i0; i1; o0; o1])) ->
  row_is_gradient isv (drum_mass_func i0 i1 o0 o1)
    (drum_mass_writes isv i0 i1 o0 o1) e.
Proof. exact drum_mass_gradient. Qed.
Print Assumptions C29_drum_mass.

(** Closed loop (shared containers) and open drum. *)
Theorem C29_drum_energy : forall isv i0 i1 o0 o1 e,
  (if drum_loop i1 o0 then cm i0 = cm o1 /\ cm i0 <> cm o0
   else NoDup (map cm [i0; i1; o0; o1])) ->
  NoDup (map cid [i0; i1; o0; o1]) ->
  row_is_gradient isv (drum_energy_func i0 i1 o0 o1)
    (drum_energy_writes isv i0 i1 o0 o1 e) e.
Proof. exact drum_energy_gradient. Qed.
Print Assumptions C29_drum_energy.

Theorem C29_equality_rows : forall isv ports e k i o,
  nth_error ports k = Some (i, o) -> cid i <> cid o ->
  row_is_gradient isv (fun e => nth k (pressure_equality_func ports e) 0)
    (pressure_equality_row isv i o) e /\
  row_is_gradient isv (fun e => nth k (enthalpy_equality_func ports e) 0)
    (enthalpy_equality_row isv i o) e.
Proof. exact equal_rows_gradient. Qed.
Print Assumptions C29_equality_rows.

(** Pressure ratio between an inlet and the outlet of the same position, fixed or
    variable. *)
Theorem C29_pressure_ratio : forall isv inl outl k i o pr e,
  nth_error inl k = Some i -> nth_error outl k = Some o -> cid i <> cid o ->
  exists f ws, (forall e, pr_func inl outl pr k k e = Ok (f e) /\ (f e = 0 <-> vp e o = pval e pr * vp e i))
  /\ pr_deriv isv inl outl pr k k
      (Some (match pr with PVar v => Some v | PVal _ => None end)) e
    = Ok (map (fun w => (Some (fst w), snd w)) ws)
  /\ row_is_gradient isv f ws e
  /\ ((forall c, pr = PVar c -> isv (QC c) = true) -> only_unknowns isv ws).
Proof. exact pr_gradient. Qed.
Print Assumptions C29_pressure_ratio.

Theorem C29_pressure_difference : forall isv i o dp e, cid i <> cid o ->
  row_is_gradient isv (dp_func i o dp) (dp_writes isv i o) e.
Proof. exact dp_gradient. Qed.
Print Assumptions C29_pressure_difference.

(** Turbomachine power and simple heat exchanger heat, fixed or variable; the
    ports may share the mass flow container. *)
Theorem C29_power_and_heat : forall isv i o P e, cid i <> cid o ->
  (forall v, P = PVar v -> isv (QC v) = true) ->
  row_is_gradient isv (flow_energy_func i o P) (flow_energy_writes isv i o P e) e.
Proof. exact flow_energy_gradient. Qed.
Print Assumptions C29_power_and_heat.

Theorem C29_heat_exchanger_heat : forall isv i o Q e, cid i <> cid o ->
  row_is_gradient isv (flow_energy_func i o (PVal Q)) (hx_hot_writes isv i o e) e.
Proof. exact hx_hot_gradient. Qed.
Print Assumptions C29_heat_exchanger_heat.

Theorem C29_heat_exchanger_energy : forall isv filt i1 i2 o1 o2 e,
  cm i1 <> cm i2 -> NoDup (map cid [i1; i2; o1; o2]) ->
  row_is_gradient_filtered isv filt (hx_energy_func i1 i2 o1 o2)
    (hx_energy_writes isv filt i1 i2 o1 o2 e) e.
Proof. exact hx_energy_gradient. Qed.
Print Assumptions C29_heat_exchanger_energy.

(** Hand-written entries of equations whose other entries are numerical: for
    arbitrary property functions. *)
Theorem C29_kA_entry : forall isv td i1 o1 kA e,
  (forall e1 e2, (forall c, e1 (QP c) = e2 (QP c)) ->
     (forall c, e1 (QH c) = e2 (QH c)) -> td e1 = td e2) ->
  entries_correct (hx_kA_func td i1 o1 kA) (hx_kA_entry isv i1 o1 e) e.
Proof. exact hx_kA_entry_ok. Qed.
Print Assumptions C29_kA_entry.

Theorem C29_eff_cold_entry : forall isv hpT Tph i1 i2 o2 eff e,
  cid i2 <> cid i1 -> cid i2 <> cid o2 ->
  entries_correct (hx_eff_cold_func hpT Tph i1 i2 o2 eff)
    (hx_eff_cold_entry isv i2 eff) e.
Proof. exact hx_eff_cold_entry_ok. Qed.
Print Assumptions C29_eff_cold_entry.

Theorem C29_eff_hot_entry : forall isv hpT Tph i1 i2 o1 eff e,
  cid i1 <> cid i2 -> cid i1 <> cid o1 ->
  entries_correct (hx_eff_hot_func hpT Tph i1 i2 o1 eff)
    (hx_eff_hot_entry isv i1 eff) e.
Proof. exact hx_eff_hot_entry_ok. Qed.
Print Assumptions C29_eff_hot_entry.

Theorem C29_saturation_entry : forall isv hs o e,
  entries_correct (sat_func hs o) (sat_entry isv o) e.
Proof. exact sat_entry_ok. Qed.
Print Assumptions C29_saturation_entry.

Theorem C29_pump_eta_entry : forall isv his filt i o eta e, cid i <> cid o ->
  entries_correct (pump_eta_func his i o eta) (pump_eta_entry isv filt o eta e) e.
Proof. exact pump_eta_entry_ok. Qed.
Print Assumptions C29_pump_eta_entry.

(** The turbine writes its entry in the first iteration only. *)
Theorem C29_turbine_eta_entry : forall isv his i o eta states n, cid i <> cid o ->
  isv (QH (cid o)) = true ->
  exists v, row_after (fun it _ => turbine_eta_entry isv o it) states n (QH (cid o)) = Some v
    /\ partial_is (turbine_eta_func his i o eta) (states n) (QH (cid o)) v.
Proof. exact turbine_eta_row_ok. Qed.
Print Assumptions C29_turbine_eta_entry.

Theorem C29_cone_entry : forall isv g i o e,
  entries_correct (cone_func g i o) (cone_entry isv i) e.
Proof. exact cone_entry_ok. Qed.
Print Assumptions C29_cone_entry.

Theorem C29_char_map_entry : forall isv g prd filt i o e, cid i <> cid o ->
  entries_correct (char_map_pr_func g prd i o) (char_map_pr_entry isv filt i o e) e.
Proof. exact char_map_pr_entry_ok. Qed.
Print Assumptions C29_char_map_entry.

Theorem C29_valve_dp_char_entries : forall isv g filt i o e, cid i <> cid o ->
  entries_correct (dp_char_func g i o) (dp_char_entries isv filt i o) e.
Proof. exact dp_char_entries_ok. Qed.
Print Assumptions C29_valve_dp_char_entries.

(** Connections: references between mass flows, pressures, enthalpies;
    volumetric flow; vapour mass fraction. *)
Theorem C29_reference : forall isv q r factor delta e, q <> r ->
  row_is_gradient isv (ref_func q r factor delta) (ref_writes isv q r factor) e.
Proof. exact ref_gradient. Qed.
Print Assumptions C29_reference.

Theorem C29_volume_flow_entry : forall isv vol c v e,
  entries_correct (v_func vol c v) (v_entry isv vol c e) e.
Proof. exact v_entry_ok. Qed.
Print Assumptions C29_volume_flow_entry.

Theorem C29_volume_flow_reference_entries : forall isv volc volr c r factor dl e,
  cm c <> cm r ->
  entries_correct (vref_func volc volr c r factor dl) (vref_entries isv volc volr c r factor e) e.
Proof. exact vref_entries_ok. Qed.
Print Assumptions C29_volume_flow_reference_entries.

Theorem C29_quality_entry : forall isv hq c e,
  entries_correct (x_func hq c) (x_entry isv c) e.
Proof. exact x_entry_ok. Qed.
Print Assumptions C29_quality_entry.

(** Reactors. *)
Theorem C29_fuel_cell_mass : forall isv Mo2 Mh2 i1 i2 o1 e j,
  NoDup (map cm [i1; i2; o1]) ->
  (j < List.length (fuel_cell_mass_func isv Mo2 Mh2 i1 i2 o1 e))%nat ->
  row_is_gradient isv (fun e => nth j (fuel_cell_mass_func isv Mo2 Mh2 i1 i2 o1 e) 0)
    (nth j (fuel_cell_mass_rows isv Mo2 Mh2 i1 i2 o1) []) e.
Proof. exact fuel_cell_mass_gradient. Qed.
Print Assumptions C29_fuel_cell_mass.

Theorem C29_electrolyzer_mass : forall isv Mo2 Mh2 i1 o1 o2 e j,
  NoDup (map cm [i1; o1; o2]) ->
  (j < List.length (electrolyzer_mass_func isv Mo2 Mh2 i1 o1 o2 e))%nat ->
  row_is_gradient isv (fun e => nth j (electrolyzer_mass_func isv Mo2 Mh2 i1 o1 o2 e) 0)
    (nth j (electrolyzer_mass_rows isv Mo2 Mh2 i1 o1 o2) []) e.
Proof. exact electrolyzer_mass_gradient. Qed.
Print Assumptions C29_electrolyzer_mass.

Theorem C29_fuel_cell_energy : forall isv hw ho hh e0 i0 i1 i2 o0 o1 P e,
  NoDup (map cm [i0; i1; i2; o1]) -> NoDup (map cid [i0; i1; i2; o0; o1]) ->
  row_is_gradient isv (fuel_cell_energy_func hw ho hh e0 i0 i1 i2 o0 o1 P)
    (fuel_cell_energy_writes isv hw ho hh e0 i0 i1 i2 o0 o1 P e) e.
Proof. exact fuel_cell_energy_gradient. Qed.
Print Assumptions C29_fuel_cell_energy.

Theorem C29_electrolyzer_energy : forall isv hw ho hh e0 i0 i1 o0 o1 o2 P e,
  NoDup (map cm [i0; i1; o1; o2]) -> NoDup (map cid [i0; i1; o0; o1; o2]) ->
  row_is_gradient isv (electrolyzer_energy_func hw ho hh e0 i0 i1 o0 o1 o2 P)
    (electrolyzer_energy_writes isv hw ho hh e0 i0 i1 o0 o1 o2 P e) e.
Proof. exact electrolyzer_energy_gradient. Qed.
Print Assumptions C29_electrolyzer_energy.

Theorem C29_specific_energy : forall isv hc P en e,
  (forall v w, P = PVar v -> en = PVar w -> v <> w) ->
  row_is_gradient isv (spec_energy_func hc P en) (spec_energy_writes isv hc P en e) e.
Proof. exact spec_energy_gradient. Qed.
Print Assumptions C29_specific_energy.

Theorem C29_fuel_cell_efficiency : forall isv e0 hc P eta e,
  (forall v, eta = PVar v -> False) ->
  row_is_gradient isv (fuel_cell_eta_func e0 hc P eta)
    (fuel_cell_eta_writes isv e0 hc P eta e) e.
Proof. exact fuel_cell_eta_gradient. Qed.
Print Assumptions C29_fuel_cell_efficiency.

Theorem C29_electrolyzer_efficiency : forall isv e0 hc P eta e,
  (forall v, eta = PVar v -> False) ->
  row_is_gradient isv (electrolyzer_eta_func e0 hc P eta)
    (electrolyzer_eta_writes isv e0 hc P eta e) e.
Proof. exact electrolyzer_eta_gradient. Qed.
Print Assumptions C29_electrolyzer_efficiency.

Example ex_distinct : NoDup (map cm ([ex_c 0; ex_c 1] ++ [ex_c 2])) /\
  NoDup (map cf ([ex_c 0; ex_c 1] ++ [ex_c 2])).
Proof. simpl. split; repeat constructor; simpl; intuition discriminate. Qed.

(** the row of oxygen of the merge above: 1/4, 1, -13/16 for the mass flows and
    1, 3, -4 for the mass fractions *)
Example ex_merge_row :
  let r := entry (merge_fluid_writes (fun _ => true) [ex_c 0; ex_c 1] (ex_c 2) "O2" ex_merge) in
  r (QM 0) = 1/4 /\ r (QM 2) = - (13/16) /\ r (QF 1 "O2") = 3 /\ r (QF 2 "O2") = - 4 /\
  r (QF 0 "N2") = 0.
Proof. unfold entry, merge_fluid_writes, vx, vm. simpl. repeat split; lra. Qed.

(* ==================================================== C30: columns written *)
Theorem C30_nodes : forall isv inl outl i0 o f e,
  only_unknowns isv (node_mass_writes isv inl outl) /\
  only_unknowns isv (node_pressure_row isv i0 o) /\
  only_unknowns isv (merge_fluid_writes isv inl o f e) /\
  only_unknowns isv (merge_energy_writes isv inl o e) /\
  only_unknowns isv (splitter_energy_row isv i0 o) /\
  only_unknowns isv (separator_fluid_writes isv i0 outl f e) /\
  only_unknowns isv (droplet_energy_writes isv inl outl e).
Proof. exact ou_nodes. Qed.
Print Assumptions C30_nodes.

Theorem C30_drum : forall isv i0 i1 o0 o1 e dhs q it,
  only_unknowns isv (drum_mass_writes isv i0 i1 o0 o1) /\
  only_unknowns isv (drum_energy_writes isv i0 i1 o0 o1 e) /\
  only_unknowns isv (droplet_outlet_row isv dhs q o0 it e).
Proof. exact ou_drum. Qed.
Print Assumptions C30_drum.

Theorem C30_components : forall isv filt i o i1 i2 o1 o2 eff it eta e,
  only_unknowns isv (pressure_equality_row isv i o) /\
  only_unknowns isv (enthalpy_equality_row isv i o) /\
  only_unknowns isv (dp_writes isv i o) /\
  only_unknowns isv (hx_hot_writes isv i o e) /\
  only_unknowns isv (hx_energy_writes isv filt i1 i2 o1 o2 e) /\
  only_unknowns isv (hx_kA_entry isv i1 o1 e) /\
  only_unknowns isv (hx_eff_cold_entry isv i2 eff) /\
  only_unknowns isv (hx_eff_hot_entry isv i1 eff) /\
  only_unknowns isv (sat_entry isv o) /\
  only_unknowns isv (pump_eta_entry isv filt o eta e) /\
  only_unknowns isv (turbine_eta_entry isv o it) /\
  only_unknowns isv (cone_entry isv i) /\
  only_unknowns isv (char_map_pr_entry isv filt i o e) /\
  only_unknowns isv (dp_char_entries isv filt i o).
Proof. exact ou_components. Qed.
Print Assumptions C30_components.

Theorem C30_connections : forall isv q r factor vol c e,
  only_unknowns isv (ref_writes isv q r factor) /\
  only_unknowns isv (v_entry isv vol c e) /\ only_unknowns isv (x_entry isv c).
Proof. exact ou_connections. Qed.
Print Assumptions C30_connections.

Theorem C30_component_variables : forall isv i o hw ho hh e0 i0 i1 i2 o0 o1 o2 hc P en e,
  (forall c, P = PVar c -> isv (QC c) = true) ->
  (forall c, en = PVar c -> isv (QC c) = true) ->
  only_unknowns isv (flow_energy_writes isv i o P e) /\
  only_unknowns isv (fuel_cell_energy_writes isv hw ho hh e0 i0 i1 i2 o0 o1 P e) /\
  only_unknowns isv (electrolyzer_energy_writes isv hw ho hh e0 i0 i1 o0 o1 o2 P e) /\
  only_unknowns isv (fuel_cell_eta_writes isv e0 hc P en e) /\
  only_unknowns isv (electrolyzer_eta_writes isv e0 hc P en e) /\
  only_unknowns isv (spec_energy_writes isv hc P en e).
Proof. exact ou_params. Qed.
Print Assumptions C30_component_variables.

Theorem C30_reactor_mass : forall isv Mo2 Mh2 i1 i2 o1 o2,
  Forall (only_unknowns isv) (fuel_cell_mass_rows isv Mo2 Mh2 i1 i2 o1) /\
  Forall (only_unknowns isv) (electrolyzer_mass_rows isv Mo2 Mh2 i1 o1 o2).
Proof. exact ou_reactor_mass. Qed.
Print Assumptions C30_reactor_mass.

(** Two unknowns and two fixed quantities: two entries. *)
Example ex_only : flow_energy_writes (fun q => match q with QM _ => true | QH 1 => true | _ => false end)
    (Conn 0 0 0 []) (Conn 1 0 0 []) (PVal 5) (fun q => match q with QM _ => 2 | QH 1 => 7 | QH _ => 4 | _ => 0 end)
  = [(QM 0, 7 - 4); (QH 1, 2)].
Proof. reflexivity. Qed.

(* ================================================================ C31: counts *)
Theorem C31_node_pressure : forall i0 rest outl e, (1 <= List.length (i0 :: rest))%nat ->
  List.length (node_pressure_func i0 (node_others (i0 :: rest) outl) e)
  = (List.length (i0 :: rest) + List.length outl - 1)%nat.
Proof. exact node_pressure_count. Qed.
Print Assumptions C31_node_pressure.

(** Merge: exactly when no fluid or every fluid is an unknown somewhere. *)
Theorem C31_merge_fluids : forall isv inl o i0 e,
  List.length (ckeys i0) = List.length (ckeys o) ->
  (merge_num_fluid_eq isv inl o i0 = List.length (merge_fluid_func inl o e) <->
   merge_variable_fluids isv inl o = [] \/
   List.length (merge_variable_fluids isv inl o) = List.length (ckeys o)).
Proof. exact merge_fluid_count. Qed.
Print Assumptions C31_merge_fluids.

(** Merge: the mass balance is announced exactly if some fraction at a port is an unknown. *)
Theorem C31_merge_mass : forall isv inl o,
  (merge_num_mass_eq isv inl o = 1%nat <-> exists c f, In c (inl ++ [o]) /\ In f (ckeys c) /\ isv (QF (cf c) f) = true) /\
  (merge_num_mass_eq isv inl o = 0%nat <-> forall c f, In c (inl ++ [o]) -> In f (ckeys c) -> isv (QF (cf c) f) = false).
Proof. exact merge_mass_count. Qed.
Print Assumptions C31_merge_mass.

Theorem C31_separator_fluids : forall isv i0 outl fset fl e,
  separator_fluids isv i0 outl fset = Ok fl ->
  List.length (separator_fluid_func i0 outl fl e) = List.length fl /\ fl <> [] /\ NoDup fl.
Proof. exact separator_fluid_count. Qed.
Print Assumptions C31_separator_fluids.

Theorem C31_electrolyzer : forall isv Mo2 Mh2 i1 o1 o2 e,
  List.length (electrolyzer_mass_func isv Mo2 Mh2 i1 o1 o2 e)
  = electrolyzer_num_mass_eq isv i1 o1 o2.
Proof. exact electrolyzer_count. Qed.
Print Assumptions C31_electrolyzer.

Theorem C31_fuel_cell : forall isv Mo2 Mh2 i1 i2 o0 o1 e, isv (QM (cm i1)) = true ->
  fuel_cell_num_mass_eq isv i1 [o0; o1] = Ok 2%nat /\
  (List.length (fuel_cell_mass_func isv Mo2 Mh2 i1 i2 o1 e) = 2%nat <->
   isv (QM (cm i2)) = true \/ isv (QM (cm o1)) = true).
Proof. exact fuel_cell_count. Qed.
Print Assumptions C31_fuel_cell.

Example ex_merge_count : forall e,
  merge_num_fluid_eq (fun q => match q with QF 2 _ => true | _ => false end)
    [ex_c 0; ex_c 1] (ex_c 2) (ex_c 0) = 2%nat /\
  List.length (merge_fluid_func [ex_c 0; ex_c 1] (ex_c 2) e) = 2%nat.
Proof. intros e. split; vm_compute; reflexivity. Qed.

(* ====================================================== C68: shared unknowns *)

(** A recuperator: both sides of the heat exchanger carry the same mass flow. *)
Theorem C68_heat_exchanger_refuted : exists isv filt i1 i2 o1 o2 e,
  cm i1 = cm i2 /\ NoDup (map cid [i1; i2; o1; o2]) /\
  isv (QM (cm i1)) = true /\ filt (QM (cm i1)) = false /\
  hx_energy_func i1 i2 o1 o2 e = 0 /\
  ~ row_is_gradient_filtered isv filt (hx_energy_func i1 i2 o1 o2)
      (hx_energy_writes isv filt i1 i2 o1 o2 e) e.
Proof.
  exists (fun _ => true), (fun _ => false), (Conn 0 0 0 []), (Conn 1 0 0 []),
    (Conn 2 0 0 []), (Conn 3 0 0 []),
    (fun q => match q with QM _ => 1 | QH 0 => 100 | QH 1 => 10 | QH 2 => 60 | QH 3 => 50 | _ => 0 end).
  do 4 (split; [try reflexivity; simpl; repeat constructor; simpl; intuition discriminate|]).
  split; [unfold hx_energy_func, vm, vh; simpl; lra|].
  match goal with |- ~ row_is_gradient_filtered ?isv ?filt (hx_energy_func ?i1 ?i2 ?o1 ?o2) _ ?e =>
    destruct (hx_shared_partial isv filt i1 i2 o1 o2 e eq_refl eq_refl eq_refl) as [D E];
    apply (not_gradient_filt isv filt _ _ e (QM (cm i1)) _ eq_refl eq_refl D); rewrite E end.
  unfold vh. simpl. lra.
Qed.
Print Assumptions C68_heat_exchanger_refuted.

(** What the entry is in that case: the contribution of the cold side only. *)
Theorem C68_heat_exchanger_partial : forall isv filt i1 i2 o1 o2 e, cm i1 = cm i2 ->
  isv (QM (cm i1)) = true -> filt (QM (cm i1)) = false ->
  partial_is (hx_energy_func i1 i2 o1 o2) e (QM (cm i1))
    ((vh e o1 - vh e i1) + (vh e o2 - vh e i2)) /\
  entry (hx_energy_writes isv filt i1 i2 o1 o2 e) (QM (cm i1)) = vh e o2 - vh e i2.
Proof. exact hx_shared_partial. Qed.
Print Assumptions C68_heat_exchanger_partial.

(** A merge of two streams that come from one splitter and so share a variable
    composition. *)
Theorem C68_merge_refuted : exists isv i1 i2 o f e,
  cf i1 = cf i2 /\ NoDup (map cm [i1; i2; o]) /\ isv (QF (cf i1) f) = true /\
  ~ row_is_gradient isv (merge_fluid_eq [i1; i2] o f)
      (merge_fluid_writes isv [i1; i2] o f e) e.
Proof.
  exists (fun _ => true), (Conn 0 0 0 ["a"%string]), (Conn 1 1 0 ["a"%string]),
    (Conn 2 2 2 ["a"%string]), "a"%string,
    (fun q => match q with QM 0 => 1 | QM 1 => 2 | QM 2 => 3 | _ => 1 end).
  split; [reflexivity|]. split; [simpl; repeat constructor; simpl; intuition discriminate|].
  split; [reflexivity|].
  match goal with |- ~ row_is_gradient ?isv (merge_fluid_eq [?i1; ?i2] ?o ?f) _ ?e =>
    destruct (merge_shared_partial isv i1 i2 o f e eq_refl ltac:(discriminate) eq_refl) as [D E];
    apply (not_gradient isv _ _ e (QF (cf i1) f) _ eq_refl D); rewrite E end.
  unfold vm. simpl. lra.
Qed.
Print Assumptions C68_merge_refuted.

(* ================================================= C69: component variables *)

(** eta_s of a pump or compressor as a variable: its column stays empty. *)
Theorem C69_pump_efficiency_refuted : exists isv his filt i o v e,
  isv (QC v) = true /\ cid i <> cid o /\
  ~ (forall q, isv q = true -> (exists c, q = QC c) ->
      partial_is (pump_eta_func his i o (PVar v)) e q
        (entry (pump_eta_entry isv filt o (PVar v) e) q)).
Proof.
  exists (fun _ => true), (fun _ _ _ => 3), (fun _ => false), (Conn 0 0 0 []),
    (Conn 1 0 0 []), 0%nat, (fun q => match q with QH 0 => 1 | QH _ => 5 | QC _ => 1/2 | _ => 1 end).
  split; [reflexivity|]. split; [discriminate|]. intros H.
  specialize (H (QC 0) eq_refl (ex_intro _ 0%nat eq_refl)).
  match goal with H : partial_is _ ?e ?q _ |- _ =>
    assert (D : partial_is (pump_eta_func (fun _ _ _ => 3) (Conn 0 0 0 []) (Conn 1 0 0 []) (PVar 0)) e q 4) end.
  { eapply p_eq.
    - unfold pump_eta_func. apply p_sub.
      + apply p_mul; [presp|presp|apply p_sub; apply p_qty|apply p_qty].
      + apply p_sub; [apply p_const|apply p_qty].
    - unfold delta, vh. simpl. lra. }
  pose proof (uniqueness_limite _ _ _ _ H D) as U.
  unfold entry, pump_eta_entry in U. simpl in U. unfold set_entry in U. simpl in U. lra.
Qed.
Print Assumptions C69_pump_efficiency_refuted.

(** The heat of a two-stream heat exchanger as a variable. *)
Theorem C69_heat_refuted : exists isv i o v e, isv (QC v) = true /\ cid i <> cid o /\
  ~ row_is_gradient isv (flow_energy_func i o (PVar v)) (hx_hot_writes isv i o e) e.
Proof.
  exists (fun _ => true), (Conn 0 0 0 []), (Conn 1 0 0 []), 0%nat, (fun _ => 1).
  split; [reflexivity|]. split; [discriminate|].
  eapply (not_gradient _ _ _ _ (QC 0) (-1)); [reflexivity| |].
  - eapply p_eq.
    + unfold flow_energy_func. apply p_sub; [|apply p_qty].
      apply p_mul; [presp|presp|apply p_qty|apply p_sub; apply p_qty].
    + unfold delta, vh, vm. simpl. lra.
  - unfold entry, hx_hot_writes, is_variable. simpl. unfold set_entry. simpl. lra.
Qed.
Print Assumptions C69_heat_refuted.

(** The efficiency of a fuel cell as a variable. *)
Theorem C69_fuel_cell_efficiency_refuted : exists isv e0 hc P v e, isv (QC v) = true /\
  ~ row_is_gradient isv (fuel_cell_eta_func e0 hc P (PVar v))
      (fuel_cell_eta_writes isv e0 hc P (PVar v) e) e.
Proof.
  exists (fun _ => true), 10, (Conn 0 0 0 []), (PVal 5), 0%nat, (fun _ => 1).
  split; [reflexivity|].
  eapply (not_gradient _ _ _ _ (QC 0) (-10)); [reflexivity| |].
  - eapply p_eq.
    + unfold fuel_cell_eta_func. apply p_sub; [apply (p_param (PVal 5))|].
      apply p_mul; [presp|presp| |apply p_const].
      apply p_mul; [presp|presp|apply (p_param (PVar 0))|apply p_qty].
    + unfold delta, vm. simpl. lra.
  - unfold entry, fuel_cell_eta_writes. simpl. unfold set_entry. simpl. lra.
Qed.
Print Assumptions C69_fuel_cell_efficiency_refuted.

(** The pressure ratio of the hot side of a heat exchanger as a variable: the
    derivative looks for an attribute "pr" the heat exchanger does not have. *)
Theorem C69_pressure_ratio_refuted : exists isv inl outl v r e,
  pr_func inl outl (PVar v) 0 0 e = Ok r /\
  pr_deriv isv inl outl (PVar v) 0 0 None e = Err AttributeError.
Proof.
  exists (fun _ => true), [ex_c 0; ex_c 1], [ex_c 2; ex_c 3], 0%nat. eexists. exists (fun _ => 1).
  split; reflexivity.
Qed.
Print Assumptions C69_pressure_ratio_refuted.

(** The pressure ratio between the first inlet and the second outlet: the derivative
    is written to the column of the first outlet. *)
Theorem C69_outlet_index_refuted : exists isv inl outl x o0 o1 e,
  nth_error outl 0 = Some o0 /\ nth_error outl 1 = Some o1 /\ cid o0 <> cid o1 /\
  (forall i, In i inl -> cid i <> cid o0 /\ cid i <> cid o1) /\
  exists f ws, (forall e, pr_func inl outl (PVal x) 0 1 e = Ok (f e)) /\
    pr_deriv isv inl outl (PVal x) 0 1 None e = Ok (map (fun w => (Some (fst w), snd w)) ws) /\
    ~ row_is_gradient isv f ws e.
Proof.
  exists (fun _ => true), [ex_c 0; ex_c 1], [ex_c 2; ex_c 3], 1, (ex_c 2), (ex_c 3), (fun _ => 1).
  split; [reflexivity|]. split; [reflexivity|]. split; [discriminate|]. split; [intros i [<-|[<-|[]]]; split; discriminate|].
  exists (fun e => vp e (ex_c 0) * 1 - vp e (ex_c 3)). eexists. split; [reflexivity|]. split; [unfold pr_deriv; simpl; change [(Some (QP 0), 1); (Some (QP 2), -1)] with (map (fun w : write => (Some (fst w), snd w)) [(QP 0, 1); (QP 2, -1)]); reflexivity|].
  eapply (not_gradient _ _ _ _ (QP 3) (-1)); [reflexivity| |].
  - eapply p_eq.
    + apply p_sub; [apply p_mul; [presp|presp|apply p_qty|apply p_const]|apply p_qty].
    + unfold delta. simpl. lra.
  - unfold entry. simpl. unfold set_entry, empty_row. simpl. lra.
Qed.
Print Assumptions C69_outlet_index_refuted.

(* ================================================ C70: composition columns *)
Theorem C70_fluid_balance_refuted : exists isv a fixed vars e,
  NoDup vars /\ (forall f, In f vars -> isv (QF a f) = true /\ ~ In f fixed) /\
  fluid_balance_func a fixed vars e = 0 /\
  ~ row_is_gradient isv (fluid_balance_func a fixed vars) (fluid_balance_writes a vars e) e.
Proof.
  exists (fun _ => true), 0%nat, ["Ar"%string], ["N2"%string; "O2"%string],
    (fun q => match q with QF _ f => if String.eqb f "N2" then 1/2 else 1/4 | _ => 0 end).
  split; [repeat constructor; simpl; intuition discriminate|].
  split; [intros f [<-|[<-|[]]]; split; auto; simpl; intuition discriminate|].
  split; [unfold fluid_balance_func; simpl; lra|].
  eapply (not_gradient _ _ _ _ (QF 0 "N2") (-1)); [reflexivity| |].
  - apply fluid_balance_partial; [repeat constructor; simpl; intuition discriminate|simpl; auto|
      simpl; intuition discriminate].
  - rewrite fluid_balance_entry; [simpl; lra|repeat constructor; simpl; intuition discriminate|simpl; auto].
Qed.
Print Assumptions C70_fluid_balance_refuted.

(** True derivative -1, entry minus the fraction: right only for a fraction of
    one. *)
Theorem C70_fluid_balance_partial : forall a fixed vars f e,
  NoDup vars -> In f vars -> ~ In f fixed ->
  partial_is (fluid_balance_func a fixed vars) e (QF a f) (-1) /\
  entry (fluid_balance_writes a vars e) (QF a f) = - e (QF a f).
Proof.
  intros a fixed vars f e N I NI. split;
  [exact (fluid_balance_partial a fixed vars f e N I NI)|exact (fluid_balance_entry a vars f e N I)].
Qed.
Print Assumptions C70_fluid_balance_partial.

(** Temperature reference: the entry of the referenced composition lacks the
    factor. *)
Theorem C70_temperature_reference_refuted : exists isv filt Tc Tr dTc dTr a b f factor dl e,
  (forall x, derivable_pt_lim Tr x (dTr x)) /\ a <> b /\ isv (QF b f) = true /\ filt (QF b f) = false /\
  ~ row_is_gradient isv (tref_fluid_func Tc Tr a b f factor dl)
      (tref_fluid_writes isv filt dTc dTr a b f e) e.
Proof.
  exists (fun _ => true), (fun _ => false), (fun x => x), (fun x => x), (fun _ => 1), (fun _ => 1),
    0%nat, 1%nat, "N2"%string, 2, 0, (fun _ => 1/2).
  split; [intros x; apply derivable_pt_lim_id|]. split; [discriminate|].
  split; [reflexivity|]. split; [reflexivity|].
  eapply (not_gradient _ _ _ _ (QF 1 "N2") (-2)); [reflexivity| |].
  - eapply p_eq.
    + unfold tref_fluid_func. apply p_sub; [apply p_qty|]. apply p_add; [|apply p_const].
      apply p_mul; [presp|presp|apply p_qty|apply p_const].
    + unfold delta. simpl. lra.
  - unfold entry, tref_fluid_writes. simpl. unfold set_entry. simpl. lra.
Qed.
Print Assumptions C70_temperature_reference_refuted.

(* =============================================== C71: the increment filter *)

(** The entry of an unknown whose increment was negligible is not renewed even
    though the derivative has changed with other unknowns. *)
Theorem C71_stale_entry_refuted : exists isv (filt : nat -> qty -> bool) i1 i2 o1 o2 states,
  cm i1 <> cm i2 /\ NoDup (map cid [i1; i2; o1; o2]) /\ isv (QM (cm i2)) = true /\
  (forall n q, filt (S n) q = true -> states (S n) q = states n q) /\
  ~ (forall n, exists v,
       row_after (fun it e => hx_energy_writes isv (filt it) i1 i2 o1 o2 e) states n (QM (cm i2)) = Some v /\
       partial_is (hx_energy_func i1 i2 o1 o2) (states n) (QM (cm i2)) v).
Proof.
  exists (fun _ => true),
    (fun n q => match n, q with S _, QM _ => true | _, _ => false end),
    (Conn 0 0 0 []), (Conn 1 1 0 []), (Conn 2 0 0 []), (Conn 3 1 0 []),
    (fun n q => match q with QM _ => 1 | QH 0 => 100 | QH 1 => 10 | QH 2 => 60
                | QH 3 => match n with O => 50 | _ => 70 end | _ => 0 end).
  split; [discriminate|]. split; [simpl; repeat constructor; simpl; intuition discriminate|].
  split; [reflexivity|]. split.
  { intros n q. destruct q; try discriminate. reflexivity. }
  intros H. destruct (H 1%nat) as (v & R & D).
  cbn in R. unfold set_entry in R. cbn in R.
  injection R as <-.
  match type of D with partial_is ?f ?e ?q _ => assert (D2 : partial_is f e q 60) end.
  { eapply p_eq.
    - unfold hx_energy_func. apply p_add; (apply p_mul; [presp|presp|apply p_qty|apply p_sub; apply p_qty]).
    - unfold delta, vm, vh. cbn. lra. }
  pose proof (uniqueness_limite _ _ _ _ D D2) as U. unfold vh in U. cbn in U. lra.
Qed.
Print Assumptions C71_stale_entry_refuted.

(* ================================================= C72: columns of a separator *)
Theorem C72_separator_refuted : exists isv Tp Th i0 o e,
  isv (QP (cid o)) = false /\ In (QP (cid o)) (map fst (separator_energy_row isv Tp Th i0 o e)) /\
  ~ only_unknowns isv (separator_energy_row isv Tp Th i0 o e).
Proof.
  exists (fun _ => false), (fun _ _ _ => 1), (fun _ _ _ => 1), (ex_c 0), (ex_c 1), (fun _ => 1).
  split; [reflexivity|]. split; [simpl; auto|].
  intros H. specialize (H (QP 1) (-1)). simpl in H. discriminate H. auto.
Qed.
Print Assumptions C72_separator_refuted.

Theorem C72_separator_partial : forall isv Tp Th i0 o e,
  isv (QP (cid o)) = true -> isv (QH (cid o)) = true ->
  only_unknowns isv (separator_energy_row isv Tp Th i0 o e).
Proof.
  intros isv Tp Th i0 o e A B. unfold separator_energy_row.
  apply ou_app; [apply ou_wr_var|]. apply ou_app; [apply ou_wr_var|].
  intros q v [H|[H|[]]]; injection H as <- _; assumption.
Qed.
Print Assumptions C72_separator_partial.

(* ============================================================== C73: counts *)

Theorem C73_merge_refuted : exists isv inl o i0,
  (forall c, In c (inl ++ [o]) -> ckeys c = ckeys o) /\ In i0 inl /\
  merge_num_fluid_eq isv inl o i0 = 2%nat /\
  forall e, List.length (merge_fluid_func inl o e) = 3%nat.
Proof.
  exists (fun q => match q with QF 2 f => negb (String.eqb f "Ar") | _ => false end),
    [ex_c3 0; ex_c3 1], (ex_c3 2), (ex_c3 0).
  split; [intros c [<-|[<-|[<-|[]]]]; reflexivity|]. split; [simpl; auto|].
  split; [vm_compute; reflexivity|]. reflexivity.
Qed.
Print Assumptions C73_merge_refuted.

(** Fuel cell with specified oxygen mass flow: registration fails. *)
Theorem C73_fuel_cell_refuted : exists isv i1 o0 o1, isv (QM (cm o1)) = true /\
  fuel_cell_num_mass_eq isv i1 [o0; o1] = Err IndexError.
Proof.
  exists (fun q => match q with QM 0 => false | _ => true end), (ex_c 0), (ex_c 2), (ex_c 3).
  split; [reflexivity|]. now apply fuel_cell_raises.
Qed.
Print Assumptions C73_fuel_cell_refuted.

(** Fuel cell with specified hydrogen and water mass flow: two equations, one
    residual. *)
Theorem C73_fuel_cell_count_refuted : exists isv i1 i2 o0 o1,
  fuel_cell_num_mass_eq isv i1 [o0; o1] = Ok 2%nat /\
  forall Mo2 Mh2 e, List.length (fuel_cell_mass_func isv Mo2 Mh2 i1 i2 o1 e) = 1%nat.
Proof.
  exists (fun q => match q with QM 0 => true | _ => false end), (ex_c 0), (ex_c 1), (ex_c 2), (ex_c 3).
  split; reflexivity.
Qed.
Print Assumptions C73_fuel_cell_count_refuted.

(* ================================================ C74: equations left out *)

(** Electrolyser with specified water and oxygen mass flows: its equations hold,
    mass is not conserved. *)
Theorem C74_electrolyzer_refuted : exists isv i1 o1 o2 e,
  isv (QM (cm o2)) = true /\
  all_zero (electrolyzer_mass_func isv 32 2 i1 o1 o2 e) /\
  mass_total e [i1] <> mass_total e [o1; o2].
Proof.
  exists (fun q => match q with QM 2 => true | _ => false end), (ex_c 0), (ex_c 1), (ex_c 2),
    (fun q => match q with QM 0 => 9 | QM 1 => 4 | QM 2 => 1 | _ => 0 end).
  split; [reflexivity|]. split.
  - unfold electrolyzer_mass_func, all_zero, o2_share, vm. simpl. repeat constructor. lra.
  - unfold mass_total, vm. simpl. lra.
Qed.
Print Assumptions C74_electrolyzer_refuted.

(** Separator with specified compositions of three fluids: only the first one
    is balanced. *)
Theorem C74_separator_refuted : exists isv i0 o1 o2 fset fl e,
  separator_fluids isv i0 [o1; o2] fset = Ok fl /\ (forall f, In f (ckeys i0) <-> In f fset) /\
  node_mass_func [i0] [o1; o2] e = 0 /\ all_zero (separator_fluid_func i0 [o1; o2] fl e) /\
  (forall c, In c [i0; o1; o2] -> normalised e fset c) /\
  exists f, In f fset /\ species_total e f [i0] <> species_total e f [o1; o2].
Proof.
  exists (fun _ => false), (ex_c3 0), (ex_c3 1), (ex_c3 2), ["N2"%string; "O2"%string; "Ar"%string],
   ["N2"%string],
   (fun q => match q with
     | QM 0 => 2 | QM _ => 1
     | QF 0 f => if String.eqb f "N2" then 1/2 else 1/4
     | QF _ f => if String.eqb f "Ar" then 0 else 1/2
     | _ => 0 end).
  split; [reflexivity|]. split; [reflexivity|].
  split; [unfold node_mass_func, acc_sub, acc_add, vm; simpl; lra|].
  split; [unfold separator_fluid_func, separator_fluid_eq, acc_sub, all_zero, vx, vm; simpl; repeat constructor; lra|].
  split; [intros c [<-|[<-|[<-|[]]]]; unfold normalised, vx; simpl; lra|].
  exists "O2"%string. split; [simpl; auto|]. unfold species_total, vx, vm. simpl. lra.
Qed.
Print Assumptions C74_separator_refuted.
