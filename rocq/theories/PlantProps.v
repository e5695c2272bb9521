(** Balances of whole plants: C193 to C199. *)
From Coq Require Import Reals List String Bool Arith Permutation Lra.
From Verif Require Import Base EqnModel JacModel PlantModel EqnSpec PlantSpec PlantWitness PlantProofs
  PlantProofs2 PlantProofs3.
Import ListNotations.
Open Scope R_scope.
Open Scope string_scope.

(** C193 – what the sources supply beyond what the sinks receive is what the cycle closers lose. *)
Theorem C193_plant_mass : forall isv pl e,
  wired pl -> solved isv pl e -> Forall (regular isv e) pl ->
  mass_total e (sources pl) - mass_total e (sinks pl)
  = rsum (map (fun io => vm e (fst io) - vm e (snd io)) (closers pl)).
Proof. exact plant_mass. Qed.
Print Assumptions C193_plant_mass.

(** C193 – without cycle closers the sinks receive what the sources supply. *)
Theorem C193_without_closer : forall isv pl e,
  wired pl -> solved isv pl e -> Forall (regular isv e) pl -> closers pl = [] ->
  mass_total e (sources pl) = mass_total e (sinks pl).
Proof. exact plant_mass_closed. Qed.
Print Assumptions C193_without_closer.

(** C193 – the imbalance is bounded by the reported deviations. *)
Theorem C193_reported : forall isv pl e lim,
  wired pl -> solved isv pl e -> Forall (regular isv e) pl ->
  Forall (fun d => d <= lim) (reported_deviations pl e) ->
  Rabs (mass_total e (sources pl) - mass_total e (sinks pl))
  <= INR (List.length (closers pl)) * lim.
Proof. exact plant_mass_bound. Qed.
Print Assumptions C193_reported.

(** C193 – with one cycle closer its report is the imbalance. *)
Theorem C193_single_closer : forall isv pl e i o,
  wired pl -> solved isv pl e -> Forall (regular isv e) pl ->
  closers pl = [(i, o)] ->
  mass_deviation i o e = Rabs (mass_total e (sources pl) - mass_total e (sinks pl)).
Proof. exact plant_single_closer. Qed.
Print Assumptions C193_single_closer.

Example C193_ex : mass_deviation (r 4 0) (r 0 0) rankine_env = 0 /\
  mass_total rankine_env (sources rankine) = 14 /\ mass_total rankine_env (sinks rankine) = 14.
Proof.
  destruct rankine_ok as (W & S & Rg).
  rewrite (C193_single_closer allvar rankine rankine_env (r 4 0) (r 0 0) W S Rg eq_refl).
  unfold mass_total. cbn. split; [|split; lra].
  replace (14 + 0 - (14 + 0)) with 0 by lra. apply Rabs_R0.
Qed.


(** C194 – enthalpy gained between sources and sinks is the heat and power supplied inside. *)
Theorem C194_plant_energy : forall isv pl e,
  wired pl -> solved isv pl e ->
  (forall p, In p pl -> ideal e p /\ is_fuel_cell p = false) ->
  enthalpy_total e (sinks pl) - enthalpy_total e (sources pl)
  = rsum (map (fun p => supplied p e) pl)
    - rsum (map (fun io => (vm e (fst io) - vm e (snd io)) * vh e (fst io)) (closers pl)).
Proof. exact plant_energy. Qed.
Print Assumptions C194_plant_energy.

(** C194 – the same without cycle closers. *)
Theorem C194_without_closer : forall isv pl e,
  wired pl -> solved isv pl e ->
  (forall p, In p pl -> ideal e p /\ is_fuel_cell p = false) ->
  closers pl = [] ->
  enthalpy_total e (sinks pl) - enthalpy_total e (sources pl)
  = rsum (map (fun p => supplied p e) pl).
Proof. exact plant_energy_closed. Qed.
Print Assumptions C194_without_closer.

(** C194 – a cycle without sources and sinks rejects what it receives, and its closer reports no deviation. *)
Theorem C194_cycle : forall isv pl e i o,
  wired pl -> solved isv pl e -> Forall (regular isv e) pl ->
  (forall p, In p pl -> ideal e p /\ is_fuel_cell p = false) ->
  sources pl = [] -> sinks pl = [] -> closers pl = [(i, o)] ->
  mass_deviation i o e = 0 /\ rsum (map (fun p => supplied p e) pl) = 0.
Proof. exact cycle_energy. Qed.
Print Assumptions C194_cycle.

Example C194_ex : enthalpy_total rankine_env (sinks rankine) - enthalpy_total rankine_env (sources rankine)
  = 2 * 10 + 2 * 2390 - 2 * 1000 - 0.
Proof.
  destruct rankine_ok as (W & S & Rg).
  rewrite (C194_plant_energy allvar rankine rankine_env W S).
  - unfold supplied, duty. cbn. lra.
  - intros p I. unfold rankine in I. repeat (destruct I as [<-|I]; [split; [exact Logic.I|reflexivity]|]). destruct I.
Qed.


(** C195 – every fluid of a plant without reactions is balanced. *)
Theorem C195_plant_species : forall isv pl e f,
  wired pl -> solved isv pl e ->
  (forall p, In p pl -> is_reacting p = false) -> Forall (carries f e) pl ->
  species_total e f (sources pl) - species_total e f (sinks pl)
  = rsum (map (fun io => vx e (fst io) f * vm e (fst io) - vx e (snd io) f * vm e (snd io))
            (closers pl)).
Proof. exact plant_species. Qed.
Print Assumptions C195_plant_species.

Example C195_ex : species_total separate_env "NH3" (sources separate) = 3 /\
  species_total separate_env "NH3" (sinks separate) = 3.
Proof.
  destruct separate_ok as (W & S & _ & _ & K).
  assert (H := C195_plant_species allvar separate separate_env "NH3" W S).
  assert (A : forall p, In p separate -> is_reacting p = false).
  { intros p I. unfold separate in I. repeat (destruct I as [<-|I]; [reflexivity|]). destruct I. }
  specialize (H A K). cbn in H. unfold species_total in *. cbn in *. split; lra.
Qed.


(** C196 – false: a solved plant with a cycle closer need not conserve mass. *)
Theorem C196_cycle_closer_refuted : exists pl e, wired pl /\ solved allvar pl e /\ Forall (regular allvar e) pl /\
    mass_total e (sources pl) <> mass_total e (sinks pl).
Proof. exact closer_refuted. Qed.
Print Assumptions C196_cycle_closer_refuted.

(** C196 – one cycle closer allows every imbalance. *)
Theorem C196_any_imbalance : forall a b : R,
  exists pl e, wired pl /\ solved allvar pl e /\ Forall (regular allvar e) pl /\
    Forall (carries "water" e) pl /\ List.length (closers pl) = 1%nat /\
    mass_total e (sources pl) = a /\ mass_total e (sinks pl) = b.
Proof. exact closer_imbalance. Qed.
Print Assumptions C196_any_imbalance.

(** C197 – false: a drum does not balance the fluids of its two inlets. *)
Theorem C197_drum_species_refuted : exists pl e hs i0 i1 o0 o1, pl = [PSource i0; PSource i1; PDrum i0 i1 o0 o1; PSink o0; PSink o1] /\
    wired pl /\ solved allvar pl e /\ Forall (regular allvar e) pl /\ Forall shares_fluid pl /\
    all_zero (node_pressure_func i0 [i1; o0; o1] e) /\ all_zero (droplet_outlet_func hs o0 o1 e) /\
    Forall (normalised e ["water"; "NH3"]) (sources pl ++ sinks pl) /\
    species_total e "water" (sources pl) <> species_total e "water" (sinks pl).
Proof. exact drum_refuted. Qed.
Print Assumptions C197_drum_species_refuted.

(** C198 – false: a solved fuel cell with negative power and efficiency below one gives off more heat and power than the reaction releases. *)
Theorem C198_fuel_cell_refuted : exists rc i0 i1 i2 o0 o1 P e eta,
    let pl := [PSource i0; PSource i1; PSource i2; PFuelCell rc i0 i1 i2 o0 o1 P; PSink o0; PSink o1] in
    wired pl /\ solved allvar pl e /\ Forall (regular allvar e) pl /\
    fuel_cell_eta_func (r_e0 rc) i2 P (PVal eta) e = 0 /\ 0 < eta < 1 /\
    pval e P < 0 /\ r_e0 rc < 0 /\ 0 < vm e i2 /\
    vh e i1 = r_ho rc /\ vh e i2 = r_hh rc /\ vh e o1 = r_hw rc /\
    duty i0 o0 e + (- pval e P) > vm e i2 * (- r_e0 rc).
Proof. exact fuel_cell_refuted. Qed.
Print Assumptions C198_fuel_cell_refuted.

(** C198 – how much more, in every solution at reference conditions: twice the power. *)
Theorem C198_fuel_cell_excess : forall hw ho hh e0 i0 i1 i2 o0 o1 P e,
  fuel_cell_energy_func hw ho hh e0 i0 i1 i2 o0 o1 P e = 0 ->
  vh e i1 = ho -> vh e i2 = hh -> vh e o1 = hw ->
  duty i0 o0 e + (- pval e P) = vm e i2 * (- e0) + 2 * (- pval e P).
Proof. exact fuel_cell_excess. Qed.
Print Assumptions C198_fuel_cell_excess.

(** C198 – the balance is right only if power given off is counted positive. *)
Theorem C198_positive_power_partial : forall hw ho hh e0 i0 i1 i2 o0 o1 P e,
  fuel_cell_energy_func hw ho hh e0 i0 i1 i2 o0 o1 P e = 0 ->
  vh e i1 = ho -> vh e i2 = hh -> vh e o1 = hw ->
  duty i0 o0 e + pval e P = vm e i2 * (- e0).
Proof. exact fuel_cell_positive. Qed.
Print Assumptions C198_positive_power_partial.

(** C199 – the reported deviation of the composition is not negative and vanishes exactly if the fractions agree. *)
Theorem C199_fluid_deviation : forall i o e d,
  fluid_deviation i o e = Ok d ->
  0 <= d /\ (d = 0 <-> forall f, In f (ckeys i) -> vx e i f = vx e o f).
Proof. exact fluid_deviation_zero. Qed.
Print Assumptions C199_fluid_deviation.

(** C199 – the report exists exactly if the outlet knows all fluids of the inlet. *)
Theorem C199_total : forall i o e,
  (forall f, In f (ckeys i) -> In f (ckeys o)) <-> exists d, fluid_deviation i o e = Ok d.
Proof. exact fluid_deviation_total. Qed.
Print Assumptions C199_total.

(** C199 – otherwise the report raises KeyError. *)
Theorem C199_unknown_fluid : forall i o e f, In f (ckeys i) -> ~ In f (ckeys o) -> fluid_deviation i o e = Err KeyError.
Proof. exact fluid_deviation_unknown. Qed.
Print Assumptions C199_unknown_fluid.

(** C199 – fluids the inlet does not know do not escape the report. *)
Theorem C199_covers : forall i o e,
  NoDup (ckeys i) -> normalised e (ckeys i) i -> normalised e (ckeys o) o ->
  (forall f, In f (ckeys o) -> 0 <= vx e o f) ->
  fluid_deviation i o e = Ok 0 ->
  forall f, In f (ckeys o) -> ~ In f (ckeys i) -> vx e o f = 0.
Proof. exact fluid_deviation_covers. Qed.
Print Assumptions C199_covers.

Example C199_ex : exists x, fluid_deviation (d 0 0) (d 1 1) drum_env = Ok x /\ x <> 0.
Proof.
  destruct (proj1 (C199_total (d 0 0) (d 1 1) drum_env) (fun _ H => H)) as [x X].
  exists x. split; [exact X|]. intros Z.
  apply (C199_fluid_deviation _ _ _ _ X) with (f := "water") in Z; [|now left].
  cbn in Z. lra.
Qed.

