From Coq Require Import Reals List String Bool Arith Permutation Lra.
From Verif Require Import Base EqnModel JacModel PlantModel EqnSpec PlantSpec PlantWitness PlantProofs.
Import ListNotations.
Open Scope R_scope.
Open Scope string_scope.

Lemma loop_regular a b : Forall (regular allvar (loop_env a b)) loop.
Proof.
  unfold loop. repeat constructor. cbn. intros _ c H.
  repeat (destruct H as [<-|H]; [unfold normalised; cbn; lra|]). destruct H.
Qed.

Lemma loop_carries a b : Forall (carries "water" (loop_env a b)) loop.
Proof. unfold loop, carries. repeat constructor. Qed.

Lemma closer_imbalance : forall a b : R,
  exists pl e, wired pl /\ solved allvar pl e /\ Forall (regular allvar e) pl /\
    Forall (carries "water" e) pl /\ List.length (closers pl) = 1%nat /\
    mass_total e (sources pl) = a /\ mass_total e (sinks pl) = b.
Proof.
  intros a b. exists loop, (loop_env a b).
  split; [apply loop_wired|]. split; [apply loop_solved|]. split; [apply loop_regular|].
  split; [apply loop_carries|]. split; [reflexivity|]. split; unfold mass_total; cbn; lra.
Qed.

Lemma closer_refuted :
  exists pl e, wired pl /\ solved allvar pl e /\ Forall (regular allvar e) pl /\
    mass_total e (sources pl) <> mass_total e (sinks pl).
Proof.
  destruct (closer_imbalance 1 4) as (pl & e & W & S & Rg & _ & _ & A & B).
  exists pl, e. repeat (split; [assumption|]). rewrite A, B. lra.
Qed.

Lemma drum_refuted :
  exists pl e hs i0 i1 o0 o1, pl = [PSource i0; PSource i1; PDrum i0 i1 o0 o1; PSink o0; PSink o1] /\
    wired pl /\ solved allvar pl e /\ Forall (regular allvar e) pl /\ Forall shares_fluid pl /\
    all_zero (node_pressure_func i0 [i1; o0; o1] e) /\ all_zero (droplet_outlet_func hs o0 o1 e) /\
    Forall (normalised e ["water"; "NH3"]) (sources pl ++ sinks pl) /\
    species_total e "water" (sources pl) <> species_total e "water" (sinks pl).
Proof.
  exists drum_plant, drum_env, (fun q _ => 2 * q), (d 0 0), (d 1 1), (d 2 0), (d 3 0).
  split; [reflexivity|].
  split; [unfold wired, drum_plant; cbn; perm|].
  split.
  { unfold solved, drum_plant. repeat constructor; try (cbn; intros; lra); cbn; intros; discriminate. }
  split; [unfold drum_plant; repeat constructor|].
  split; [unfold drum_plant; repeat constructor|].
  split; [repeat constructor; cbn; lra|].
  split; [repeat constructor; cbn; lra|].
  split; [repeat constructor; unfold normalised; cbn; lra|].
  unfold species_total; cbn. lra.
Qed.

Lemma fuel_cell_refuted :
  exists rc i0 i1 i2 o0 o1 P e eta,
    let pl := [PSource i0; PSource i1; PSource i2; PFuelCell rc i0 i1 i2 o0 o1 P; PSink o0; PSink o1] in
    wired pl /\ solved allvar pl e /\ Forall (regular allvar e) pl /\
    fuel_cell_eta_func (r_e0 rc) i2 P (PVal eta) e = 0 /\ 0 < eta < 1 /\
    pval e P < 0 /\ r_e0 rc < 0 /\ 0 < vm e i2 /\
    vh e i1 = r_ho rc /\ vh e i2 = r_hh rc /\ vh e o1 = r_hw rc /\
    duty i0 o0 e + (- pval e P) > vm e i2 * (- r_e0 rc).
Proof.
  exists cell, (fc 0 0), (fc 1 1), (fc 2 2), (fc 3 0), (fc 4 4), (PVal (-45)), cell_env, (45/100).
  cbv zeta.
  split; [unfold wired; cbn; perm|].
  split.
  { assert (Sh : o2_share 16 1 = 8 / 9) by (unfold o2_share; field).
    unfold solved. repeat (apply Forall_cons; [split; [cbn; auto|]|]); try apply Forall_nil.
    cbn. rewrite Sh. repeat (apply Forall_cons; [unfold fuel_cell_energy_func, vm, vh; cbn; lra|]). apply Forall_nil. }
  split.
  { repeat (constructor; [cbn; repeat split; try lra; auto|]). constructor. }
  unfold duty, fuel_cell_eta_func; cbn. repeat split; try lra.
Qed.

(** Instances of the balances. *)
Ltac plant_solved :=
  unfold solved; repeat (apply Forall_cons; [split; [cbn; auto|]|]); try apply Forall_nil;
  unfold all_zero; cbn;
  repeat (apply Forall_cons;
    [unfold hx_energy_func, node_mass_func, separator_fluid_eq, vm, vh, vp, vx; cbn; lra|]);
  apply Forall_nil.

Lemma rankine_ok : wired rankine /\ solved allvar rankine rankine_env /\
  Forall (regular allvar rankine_env) rankine.
Proof.
  split; [unfold wired; cbn; perm|]. split.
  - unfold rankine. plant_solved.
  - repeat constructor.
Qed.

Lemma separate_ok : wired separate /\ solved allvar separate separate_env /\
  Forall (regular allvar separate_env) separate /\ Forall (ideal separate_env) separate /\
  Forall (carries "NH3" separate_env) separate.
Proof.
  split; [unfold wired; cbn; perm|]. split.
  { unfold separate. plant_solved. }
  split; [repeat constructor|]. split.
  - repeat constructor. exists ["water"; "NH3"], (fun _ _ => 7). split.
    + intros c H. repeat (destruct H as [<-|H]; [cbn; lra|]). destruct H.
    + intros f [<-|[<-|[]]]; [left; now left|right].
      intros c H. repeat (destruct H as [<-|H]; [unfold normalised; cbn; lra|]). destruct H.
  - apply Forall_cons; [split; exact Logic.I|]. apply Forall_cons; [split; [exact Logic.I|]|].
    + right. intros c H. repeat (destruct H as [<-|H]; [unfold normalised; cbn; lra|]). destruct H.
    + repeat (apply Forall_cons; [split; exact Logic.I|]). apply Forall_nil.
Qed.
