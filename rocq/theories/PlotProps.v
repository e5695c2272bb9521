(** C220: plotting data. *)
From Coq Require Import String List Bool Arith Lia.
From Verif Require Import Base PlotModel PlotSpec PlotProofs.
Import ListNotations.
Open Scope nat_scope.
Open Scope string_scope.

(** C220 – every line runs from the state of an inlet to the state of an outlet, fixed by two different properties (entry 1 of a drum excepted). *)
Theorem C220_lines : forall V cls num_in (li lo : nat -> sprop -> V) d k l,
  plotting_data cls num_in li lo = Some d -> In (k, l) d -> cls <> "Drum" \/ k <> 1 ->
  exists i j, i < n_in (pclass_of cls) num_in /\ j < n_out (pclass_of cls)
    /\ starts_at l (li i) /\ ends_at l (lo j).
Proof. exact every_line. Qed.
Print Assumptions C220_lines.

(** C220 – entry 1 of a drum runs from the first outlet to the second. *)
Theorem C220_drum : forall V num_in (li lo : nat -> sprop -> V),
  exists d l, plotting_data "Drum" num_in li lo = Some d /\ In (1, l) d /\ starts_at l (lo 0) /\ ends_at l (lo 1).
Proof. exact drum_first. Qed.
Print Assumptions C220_drum.

(** C220 – every inlet is the start of a line. *)
Theorem C220_inlets : forall V cls num_in (li lo : nat -> sprop -> V) d i,
  plotting_data cls num_in li lo = Some d -> i < n_in (pclass_of cls) num_in ->
  exists j, j < n_out (pclass_of cls) /\ some_line d (fun l => starts_at l (li i) /\ ends_at l (lo j)).
Proof. exact every_inlet. Qed.
Print Assumptions C220_inlets.

(** C220 – every outlet is the end of a line. *)
Theorem C220_outlets : forall V cls num_in (li lo : nat -> sprop -> V) d j,
  plotting_data cls num_in li lo = Some d -> j < n_out (pclass_of cls) -> 0 < num_in ->
  exists i, i < n_in (pclass_of cls) num_in /\ some_line d (fun l => starts_at l (li i) /\ ends_at l (lo j)).
Proof. exact every_outlet. Qed.
Print Assumptions C220_outlets.

(** C220 – the entries are numbered from 1. *)
Theorem C220_keys : forall V cls num_in (li lo : nat -> sprop -> V) d,
  plotting_data cls num_in li lo = Some d -> map fst d = seq 1 (List.length d).
Proof. exact keys_numbered. Qed.
Print Assumptions C220_keys.

(** C220 – the number of an entry is the number of its inlet and outlet wherever the class has more than one of them. *)
Theorem C220_index : forall V cls num_in (li lo : nat -> sprop -> V) d k l,
  plotting_data cls num_in li lo = Some d -> In (k, l) d -> cls <> "Drum" ->
  starts_at l (li (if Nat.eqb (n_in (pclass_of cls) num_in) 1 then 0 else k - 1))
  /\ ends_at l (lo (if Nat.eqb (n_out (pclass_of cls)) 1 then 0 else k - 1)).
Proof. exact connection_index. Qed.
Print Assumptions C220_index.

(** C220 – if the enthalpy is unchanged, the line of a valve is an isoline. *)
Theorem C220_valve : forall V num_in (li lo : nat -> sprop -> V) d k l,
  plotting_data "Valve" num_in li lo = Some d -> In (k, l) d -> li 0 Sh = lo 0 Sh -> isoline l.
Proof. exact valve_isoline. Qed.
Print Assumptions C220_valve.

(** C220 – if all pressures are equal, the lines of nodes are isolines. *)
Theorem C220_nodes : forall V cls num_in (li lo : nat -> sprop -> V) d k l P,
  In cls ["Drum"; "DropletSeparator"; "Merge"] ->
  plotting_data cls num_in li lo = Some d -> In (k, l) d ->
  (forall i, i < n_in (pclass_of cls) num_in -> li i Sp = P) -> (forall j, j < n_out (pclass_of cls) -> lo j Sp = P) ->
  isoline l.
Proof. exact node_isoline. Qed.
Print Assumptions C220_nodes.

(** C220 – the other classes have no plotting data. *)
Theorem C220_nothing : forall V cls num_in (li lo : nat -> sprop -> V),
  In cls ["Source"; "Sink"; "CycleCloser"; "Splitter"; "Separator"; "SubsystemInterface"; "CombustionChamber";
          "DiabaticCombustionChamber"; "CombustionEngine"; "FuelCell"; "WaterElectrolyzer"] ->
  plotting_data cls num_in li lo = None.
Proof. exact nothing_for. Qed.
Print Assumptions C220_nothing.

(** C220 – exactly the listed classes have plotting data. *)
Theorem C220_classes : forall V cls num_in (li lo : nat -> sprop -> V), (exists d, plotting_data cls num_in li lo = Some d) <-> In cls plotted.
Proof. exact plotted_classes. Qed.
Print Assumptions C220_classes.

Example C220_ex :
  plotting_data "Merge" 3 (fun i q => (10 + i, q)) (fun j q => (20 + j, q))
  = Some [(1, line Sp Sv (fun q => (10, q)) (fun q => (20, q))); (2, line Sp Sv (fun q => (11, q)) (fun q => (20, q)));
          (3, line Sp Sv (fun q => (12, q)) (fun q => (20, q)))]
  /\ plotting_data "Condenser" 2 (fun i q => (10 + i, q)) (fun j q => (20 + j, q))
  = Some [(1, line Sp Sv (fun q => (10, q)) (fun q => (20, q))); (2, line Sp Sv (fun q => (11, q)) (fun q => (21, q)))].
Proof. split; reflexivity. Qed.
