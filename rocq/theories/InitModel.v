(** Starting values that the component classes propose for their ports.
    Source: /repo/src/tespy/components: component.py 734-784, nodes/base.py 145-203,
    nodes/droplet_separator.py 328-390, nodes/drum.py 316-348, piping/valve.py 258-314,
    heat_exchangers/base.py 1049-1115, heat_exchangers/simple.py 808-883,
    combustion/base.py 1278-1336, combustion/engine.py 1238-1296,
    reactors/fuel_cell.py 775-833, reactors/water_electrolyzer.py 1098-1156,
    turbomachinery/compressor.py 590-648, turbomachinery/pump.py 442-500,
    turbomachinery/turbine.py 462-520; networks/network.py 1693-1698, 1792-1832.
    Attribute lookup of Python is modelled: a method is searched by its name in the
    class of the component and then in the classes it inherits from.  Numbers are
    exact rationals, 273.15 is 5463/20. *)
From Coq Require Import QArith.
From Verif Require Import Base UnitsModel StateModel.
Open Scope string_scope.
Open Scope list_scope.

(** The classes, /repo/src/tespy/components: the class statements of all modules, e.g.
    turbomachinery/pump.py 25. *)
Inductive cls :=
| Component | Sink | Source | SubsystemInterface | CycleCloser | Valve
| NodeBase | Splitter | Merge | Separator | DropletSeparator | Drum
| HeatExchanger | Condenser | Desuperheater | MovingBoundary
| SimpleHX | HXSimple | Pipe | SolarCollector | ParabolicTrough
| CombustionChamber | DiabaticChamber | CombustionEngine | FuelCell | Electrolyzer
| Turbomachine | Pump | Compressor | Turbine | SteamTurbine.
(** The base class of each class, the same class statements, e.g. nodes/drum.py 23. *)
Definition base (c : cls) : option cls :=
  match c with
  | Component => None
  | Splitter | Merge | Separator | DropletSeparator => Some NodeBase
  | Drum => Some DropletSeparator
  | Condenser | Desuperheater | MovingBoundary => Some HeatExchanger
  | HXSimple | Pipe | SolarCollector | ParabolicTrough => Some SimpleHX
  | DiabaticChamber | CombustionEngine => Some CombustionChamber
  | Pump | Compressor | Turbine => Some Turbomachine
  | SteamTurbine => Some Turbine
  | _ => Some Component
  end.
(** A component: its class, the value of Q and its flag; heat_exchangers/simple.py 206. *)
Record comp := { o_cls : cls; o_Q : num; o_Qset : bool }.

(** [if key == 'p': return a elif key == 'h': return b], e.g. piping/valve.py 282-285. *)
Definition consts (a b : Q) (k : string) : res Q := Ok (if String.eqb k "p" then a else b).
(** the same with an enthalpy that is calculated, e.g. heat_exchangers/base.py 1074-1081 *)
Definition either (a : Q) (b : res Q) (k : string) : res Q := if String.eqb k "p" then Ok a else b.
(** [h_mix_pT(c.p.val_SI, T, ...)] with T in degree Celsius, heat_exchangers/base.py 1081 *)
Definition h_at_C (c : conn) (T : Q) : res Q := call2 (f_hpT (n_fluid c)) (SI c "p") (Some (T + (5463 # 20))%Q).
(** [h_mix_pQ(c.p.val_SI, x, ...)], nodes/drum.py 346 *)
Definition h_at_x (c : conn) (x : Q) : res Q := call2 (f_hpQ (n_fluid c)) (SI c "p") (Some x).
(** [self.Q.val < 0 and self.Q.is_set], heat_exchangers/simple.py 840 *)
Definition cools (o : comp) : bool := nlt (o_Q o) (Some 0%Q) && o_Qset o.
(** [self.Q.val > 0 and self.Q.is_set], heat_exchangers/simple.py 842 *)
Definition heats (o : comp) : bool := nlt (Some 0%Q) (o_Q o) && o_Qset o.
(** A method: self, the connection, the port name of the connection at self, the key;
    component.py 734. *)
Definition method := comp -> conn -> string -> string -> res Q.

(** The methods in the bodies of the classes, by their names; the files and lines
    above.  Names that are not listed are looked up in the base class. *)
Definition body (c : cls) (name : string) : option method :=
  let is := String.eqb name in
  match c with
  | Component => if is "initialise_source" || is "initialise_target" then Some (fun _ _ _ _ => Ok 0%Q) else None
  | Valve => if is "initialise_source" then Some (fun _ _ _ => consts 400000 500000)
             else if is "initialise_target" then Some (fun _ _ _ => consts 500000 500000) else None
  | NodeBase => if is "initialise_source" || is "initialise_target" then Some (fun _ _ _ => consts 100000 500000) else None
  | DropletSeparator =>
      if is "initialise_source" then Some (fun _ c id => either 1000000 (if String.eqb id "out1" then h_at_x c 0 else h_at_x c 1))
      else if is "initialise_target" then Some (fun _ c id => either 1000000 (h_at_x c (1 # 2))) else None
  | Drum => if is "initialise_target" then Some (fun _ c id => either 1000000 (if String.eqb id "in1" then h_at_x c 0 else h_at_x c (7 # 10))) else None
  | HeatExchanger =>
      if is "initialise_source" then Some (fun _ c id => either 5000000 (h_at_C c (if String.eqb id "out1" then 200 else 250)))
      else if is "initialise_target" then Some (fun _ c id => either 5000000 (h_at_C c (if String.eqb id "in1" then 300 else 220))) else None
  | SimpleHX =>
      if is "initialise_source" then Some (fun o _ _ => consts 100000 (if cools o then 100000 else if heats o then 500000 else 300000))
      else if is "initialise_target" then Some (fun o _ _ => consts 100000 (if cools o then 500000 else if heats o then 100000 else 300000)) else None
  | CombustionChamber | CombustionEngine =>
      if is "initialise_source" then Some (fun _ _ _ => consts 500000 1000000)
      else if is "initialise_target" then Some (fun _ _ _ => consts 500000 500000) else None
  | FuelCell => if is "initialise_source" then Some (fun _ c _ => either 500000 (h_at_C c 20))
                else if is "initialise_target" then Some (fun _ c _ => either 500000 (h_at_C c 50)) else None
  | Electrolyzer => if is "initialise_source" then Some (fun _ c _ => either 500000 (h_at_C c 50))
                    else if is "initialise_target" then Some (fun _ c _ => either 500000 (h_at_C c 20)) else None
  | Pump => if is "initialise_Source" then Some (fun _ _ _ => consts 1000000 300000)
            else if is "initialise_target" then Some (fun _ _ _ => consts 100000 290000) else None
  | Compressor => if is "initialise_Source" then Some (fun _ _ _ => consts 1000000 600000)
                  else if is "initialise_target" then Some (fun _ _ _ => consts 100000 400000) else None
  | Turbine => if is "initialise_Source" then Some (fun _ _ _ => consts 50000 1500000)
               else if is "initialise_target" then Some (fun _ _ _ => consts 2500000 2000000) else None
  | _ => None
  end.
(** Attribute lookup along the base classes; no chain is longer than four classes
    (nodes/drum.py 23, nodes/droplet_separator.py 22, nodes/base.py 19).  A missing
    method raises AttributeError. *)
Fixpoint lookup (n : nat) (c : cls) (name : string) : option method :=
  match n with
  | O => None
  | S n => match body c name with
           | Some m => Some m
           | None => match base c with Some b => lookup n b name | None => None end
           end
  end.
(** A method call, network.py 1813. *)
Definition invoke (name : string) (o : comp) (c : conn) (id k : string) : res Q :=
  match lookup 5 (o_cls o) name with Some m => m o c id k | None => Err AttributeError end.
(** A connection with its ends, connection.py 233-262. *)
Record ends := { d_source : comp; d_source_id : string; d_target : comp; d_target_id : string }.
(** network.py 1813-1814, reached if there is no value yet (1804) and the key is not
    the mass flow (1807) *)
Definition proposals_for (e : ends) (c : conn) (k : string) : res (Q * Q) :=
  rbind (invoke "initialise_source" (d_source e) c (d_source_id e) k) (fun s =>
  rmap (fun t => (s, t)) (invoke "initialise_target" (d_target e) c (d_target_id e) k)).
(** network.py 1693-1698 and 1804-1832 with the proposals of the components *)
Definition start_at_ends (units : string -> string) (rnd : Q) (e : ends) (k : string) (c : conn) : res conn :=
  let asks := k_var (n_c c k) && negb (n_good c) && match k_val0 (n_c c k) with None => true | Some _ => false end
              && negb (String.eqb k "m") in
  rbind (if asks then proposals_for e c k else Ok (0%Q, 0%Q)) (fun st =>
  start_value units {| a_rnd := fun _ => rnd; a_src := fun _ _ => fst st; a_tgt := fun _ _ => snd st |} "" k c).
(** first loop of init_properties for one connection without a file, network.py 1677-1698 *)
Definition first_pass_at_ends (units : string -> string) (rnd : Q) (e : ends) (c : conn) : res conn :=
  each (start_at_ends units rnd e) ["m"; "p"; "h"] c.
