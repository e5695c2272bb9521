(** What the documentation of the components promises as starting values. *)
From Coq Require Import QArith.
From Verif Require Import Base UnitsModel StateModel StateSpec InitModel.
Open Scope string_scope.
Open Scope list_scope.

(** A documented value: a number in SI units, the enthalpy of a vapour content or of
    a temperature at the pressure of the connection. *)
Inductive doc := Value (q : Q) | Saturated (x : Q) | AtTemperature (T : Q).
(** [v] is the documented value for fluid [f] at pressure [p]. *)
Definition means (f : fluid) (p : num) (d : doc) (v : Q) : Prop :=
  match d with
  | Value q => v == q
  | Saturated x => exists p', p = Some p' /\ f_hpQ f p' x = Ok v
  | AtTemperature T => exists p' T', p = Some p' /\ T' == T /\ f_hpT f p' T' = Ok v
  end.
(** The heat flow specified for a component: [Lt] heat is rejected, [Gt] absorbed. *)
Definition heat_sign (o : comp) : comparison :=
  if o_Qset o then match o_Q o with Some q => (q ?= 0)%Q | None => Eq end else Eq.
(** The tables in the docstrings of the methods for the outlets (pressure and enthalpy)
    of the classes, components without one propose 0, that is nothing. *)
Definition documented_out (o : comp) (id : string) : doc * doc :=
  match o_cls o with
  | Component | Sink | Source | SubsystemInterface | CycleCloser | Turbomachine => (Value 0, Value 0)
  | Valve => (Value 400000, Value 500000)
  | NodeBase | Splitter | Merge | Separator => (Value 100000, Value 500000)
  | DropletSeparator | Drum => (Value 1000000, Saturated (if String.eqb id "out1" then 1 else 0))
  | HeatExchanger | Condenser | Desuperheater | MovingBoundary =>
      (Value 400000, AtTemperature (if String.eqb id "out1" then 200 else 250))
  | SimpleHX | HXSimple | Pipe | SolarCollector | ParabolicTrough =>
      (Value 100000, Value (match heat_sign o with Lt => 100000 | Eq => 300000 | Gt => 500000 end))
  | CombustionChamber | DiabaticChamber | CombustionEngine => (Value 500000, Value 1000000)
  | FuelCell => (Value 500000, AtTemperature (29315 # 100))
  | Electrolyzer => (Value 500000, AtTemperature (32315 # 100))
  | Pump => (Value 1000000, Value 300000)
  | Compressor => (Value 1000000, Value 600000)
  | Turbine | SteamTurbine => (Value 50000, Value 1500000)
  end.
(** The same for the inlets. *)
Definition documented_in (o : comp) (id : string) : doc * doc :=
  match o_cls o with
  | Component | Sink | Source | SubsystemInterface | CycleCloser | Turbomachine => (Value 0, Value 0)
  | Valve => (Value 500000, Value 500000)
  | NodeBase | Splitter | Merge | Separator => (Value 100000, Value 500000)
  | DropletSeparator => (Value 1000000, Saturated (1 # 2))
  | Drum => (Value 1000000, Saturated (if String.eqb id "in1" then 0 else 7 # 10))
  | HeatExchanger | Condenser | Desuperheater | MovingBoundary =>
      (Value 400000, AtTemperature (if String.eqb id "in1" then 300 else 220))
  | SimpleHX | HXSimple | Pipe | SolarCollector | ParabolicTrough =>
      (Value 100000, Value (match heat_sign o with Lt => 500000 | Eq => 300000 | Gt => 100000 end))
  | CombustionChamber | DiabaticChamber | CombustionEngine => (Value 500000, Value 500000)
  | FuelCell => (Value 500000, AtTemperature (32315 # 100))
  | Electrolyzer => (Value 500000, AtTemperature (29315 # 100))
  | Pump => (Value 100000, Value 290000)
  | Compressor => (Value 100000, Value 400000)
  | Turbine | SteamTurbine => (Value 2500000, Value 2000000)
  end.
Definition entry_of (k : string) (d : doc * doc) : doc := if String.eqb k "p" then fst d else snd d.
(** Families of classes. *)
Definition turbomachine (o : comp) : Prop := In (o_cls o) [Pump; Compressor; Turbine; SteamTurbine].
Definition exchanger (o : comp) : Prop := In (o_cls o) [HeatExchanger; Condenser; Desuperheater; MovingBoundary].
Definition phase_separator (o : comp) : Prop := In (o_cls o) [DropletSeparator; Drum].
(** Nothing is known about an unknown: no value of the user, no earlier result. *)
Definition fresh (c : conn) (k : string) : Prop := k_var (n_c c k) = true /\ k_val0 (n_c c k) = None /\ n_good c = false.
