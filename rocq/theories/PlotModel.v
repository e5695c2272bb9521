(** Plotting data of components (get_plotting_data of the component classes). *)
From Coq Require Import String List Bool Arith.
From Verif Require Import Base.
Import ListNotations.
Open Scope nat_scope.
Open Scope string_scope.

(** A state property of a connection in the units of the network, as read by
    the components: p, h, s, vol (connections/connection.py 640-660). *)
Inductive sprop := Sp | Sh | Ss | Sv.

(** One entry of the dictionary: the keywords of calc_individual_isoline
    (components/heat_exchangers/base.py 1385-1393). *)
Record pline (V : Type) := {
  iso_property : sprop;
  iso_value : V;
  iso_value_end : V;
  start_property : sprop;
  start_value : V;
  end_property : sprop;
  end_value : V }.
Arguments iso_property {V}.
Arguments iso_value {V}.
Arguments iso_value_end {V}.
Arguments start_property {V}.
Arguments start_value {V}.
Arguments end_property {V}.
Arguments end_value {V}.

(** The literal dictionary of an entry: isoline [iso], second property [pt], from the
    connection with values [a] to the one with values [b]
    (components/nodes/drum.py 437-445; the seven keys are the same everywhere). *)
Definition line {V : Type} (iso pt : sprop) (a b : sprop -> V) : pline V :=
  {| iso_property := iso; iso_value := a iso; iso_value_end := b iso;
     start_property := pt; start_value := a pt;
     end_property := pt; end_value := b pt |}.

(** The classes as far as get_plotting_data is inherited by them: the method of
    Component returns nothing (component.py 877-878). *)
Inductive pclass := PcHeatExchanger | PcSimple | PcDrum | PcSeparator2 | PcMerge | PcValve | PcTurbo | PcNone.

(** Which of them a class resolves to: class statements of components
    (heat_exchangers/base.py 31, condenser.py 29, desuperheater.py 22,
    movingboundary.py 26, simple.py 33, simple.py 1165, pipe.py 18, solar_collector.py 22,
    parabolic_trough.py 22, drum.py 23, droplet_separator.py 22, merge.py 23, valve.py 24,
    turbomachinery/base.py 21, compressor.py 28, pump.py 25, turbine.py 26,
    steam_turbine.py 27); every other class inherits from Component only. *)
Definition pclass_of (cls : string) : pclass :=
  if smem cls ["HeatExchanger"; "Condenser"; "Desuperheater"; "MovingBoundaryHeatExchanger"] then PcHeatExchanger
  else if smem cls ["SimpleHeatExchanger"; "HeatExchangerSimple"; "Pipe"; "SolarCollector"; "ParabolicTrough"] then PcSimple
  else if String.eqb cls "Drum" then PcDrum
  else if String.eqb cls "DropletSeparator" then PcSeparator2
  else if String.eqb cls "Merge" then PcMerge
  else if String.eqb cls "Valve" then PcValve
  else if smem cls ["Turbomachine"; "Pump"; "Compressor"; "Turbine"; "SteamTurbine"] then PcTurbo
  else PcNone.

(** Number of inlets and outlets (inlets and outlets of the classes:
    heat_exchangers/base.py 308-313, simple.py 246-251, drum.py 168-173,
    droplet_separator.py 171-176, merge.py 172-181, valve.py 166-171,
    turbomachinery/base.py 98-103); for Merge the parameter num_in. *)
Definition n_in (k : pclass) (num_in : nat) : nat :=
  match k with PcHeatExchanger | PcDrum => 2 | PcMerge => num_in | PcNone => 0 | _ => 1 end.
(** Number of outlets (drum.py 168-173, droplet_separator.py 171-176,
    heat_exchangers/base.py 308-313, merge.py 172-181). *)
Definition n_out (k : pclass) : nat :=
  match k with PcHeatExchanger | PcDrum | PcSeparator2 => 2 | PcNone => 0 | _ => 1 end.

(** get_plotting_data: keys with their entries; None is the return value of
    Component (component.py 877-878; heat_exchangers/base.py 1384-1393;
    simple.py 1152-1162; drum.py 436-482; droplet_separator.py 403-412;
    merge.py 494-503; valve.py 410-420; turbomachinery/base.py 271-281). [li] and [lo]
    are the states at self.inl and self.outl. *)
Definition plotting_data {V : Type} (cls : string) (num_in : nat) (li lo : nat -> sprop -> V)
  : option (list (nat * pline V)) :=
  match pclass_of cls with
  | PcHeatExchanger => Some (map (fun i => (i + 1, line Sp Sv (li i) (lo i))) (seq 0 2))
  | PcSimple => Some [(1, line Sp Ss (li 0) (lo 0))]
  | PcDrum => Some [(1, line Sp Sv (lo 0) (lo 1)); (2, line Sp Sv (li 0) (lo 0)); (3, line Sp Sv (li 0) (lo 1));
                    (4, line Sp Sv (li 1) (lo 0)); (5, line Sp Sv (li 1) (lo 1))]
  | PcSeparator2 => Some (map (fun i => (i + 1, line Sp Sv (li 0) (lo i))) (seq 0 2))
  | PcMerge => Some (map (fun i => (i + 1, line Sp Sv (li i) (lo 0))) (seq 0 num_in))
  | PcValve => Some [(1, line Sh Sv (li 0) (lo 0))]
  | PcTurbo => Some [(1, line Ss Sv (li 0) (lo 0))]
  | PcNone => None
  end.
