(** Rows of busses for every component with a bus function: thermal input of combustion
    chambers, power and heat loss of engines, power of electrolyzers, and the heat and power of
    the one-stream components. BusModel has the equation of a bus in rational arithmetic for
    the latter only.
    Models bus_func and bus_deriv of /repo/src/tespy/components and Bus.solve of
    /repo/src/tespy/connections/bus.py. Values are reals, containers and property functions those
    of JacModel.
    Simplification: the bus value of a component is an unknown function of the component value
    (calc_bus_value, component.py 696-732, uses the state of the network through bus_func only). *)
From Coq Require Import Reals List String Bool.
From Verif Require Import Base EqnModel JacModel.
Import ListNotations.
Open Scope R_scope.

Section Bus.
Variable isv : qty -> bool.
Variable P : props.
Variable ds : nat -> R.

(** Component and parameter of a row of the bus:
    - [BFlow neg i o]: turbomachinery/base.py 185-187, heat_exchangers/base.py 997-999,
      simple.py 757-758; negative: engine.py 1061-1071
    - [BHeat2]: engine.py 1052-1057
    - [BThermal]: combustion/base.py 1140, engine.py 1042-1043
    - [BPower], [BLoss]: engine.py 1047-1048, 1075-1076; design power, characteristics, power
    - [BElPower]: water_electrolyzer.py 922-923; cooling [i0], [o0], feed [i1], oxygen, hydrogen *)
Inductive bkind :=
| BFlow (neg : bool) (i o : conn)
| BHeat2 (i1 o1 i2 o2 : conn)
| BThermal (lhv : string -> R) (fuels : list string) (li lo : list conn)
| BPower (lhv : string -> R) (fuels : list string) (li lo : list conn) (Pd : option R) (gP : R -> R) (Pw : param)
| BLoss (lhv : string -> R) (fuels : list string) (li lo : list conn) (Pd : option R) (gQ gP : R -> R) (Pw : param)
| BElPower (e0 : R) (Pw : param) (i0 o0 i1 o1 o2 : conn).

(** Reference enthalpy of a stream, water_electrolyzer.py 879-885 *)
Definition h_ref (e : env) (c : conn) : R := phT P c 100000 (29815 / 100) (xs e c).
(** bus_func, the lines of [bkind]; calc_P engine.py 978-983, calc_Qloss engine.py 1000-1006,
    calc_P water_electrolyzer.py 887-892 *)
Definition comp_value (k : bkind) (e : env) : R :=
  match k with
  | BFlow false i o => vm e i * (vh e o - vh e i)
  | BFlow true i o => - vm e i * (vh e o - vh e i)
  | BHeat2 i1 o1 i2 o2 => 0 - vm e i1 * (vh e o1 - vh e i1) - vm e i2 * (vh e o2 - vh e i2)
  | BThermal lhv fuels li lo => ti lhv fuels li lo e
  | BPower lhv fuels li lo Pd gP Pw => - ti lhv fuels li lo e / gP (load Pd Pw e)
  | BLoss lhv fuels li lo Pd gQ gP Pw => - ti lhv fuels li lo e * gQ (load Pd Pw e) / gP (load Pd Pw e)
  | BElPower e0 Pw i0 o0 i1 o1 o2 =>
      - vm e i1 * (vh e i1 - h_ref e i1) + vm e i0 * (vh e o0 - vh e i0)
      + vm e o1 * (vh e o1 - h_ref e o1) + vm e o2 * (vh e o2 - h_ref e o2 + e0)
  end.

(** Entries for the mass flow and the fractions of combustion ports, combustion/base.py
    1179-1188, engine.py 1160-1169, 1175-1184 *)
Definition ports (f : env -> R) (e : env) (l : list conn) : list write :=
  flat_map (fun c => nm0 isv f e c ++ nx isv f e c (ckeys c)) l.
(** What bus_deriv subtracts from [bus.jacobian], in order: turbomachinery/base.py 221-235,
    heat_exchangers/base.py 1033-1047, simple.py 792-806, engine.py 1159-1228,
    combustion/base.py 1178-1188, water_electrolyzer.py 986-1002 *)
Definition bus_writes (k : bkind) (f : env -> R) (e : env) : list write :=
  match k with
  | BFlow _ i o => nm0 isv f e i ++ nh0 isv f e i ++ nh0 isv f e o
  | BHeat2 i1 o1 i2 o2 =>
      nm0 isv f e i1 ++ nh0 isv f e i1 ++ nh0 isv f e o1 ++ nm0 isv f e i2 ++ nh0 isv f e i2 ++ nh0 isv f e o2
  | BThermal _ _ li lo => ports f e (li ++ lo)
  | BPower _ _ li lo _ _ Pw | BLoss _ _ li lo _ _ _ Pw => ports f e (li ++ lo) ++ nc ds f e Pw
  | BElPower _ Pw i0 o0 i1 o1 o2 =>
      nm0 isv f e i0 ++ nh0 isv f e i0 ++ nm0 isv f e i1 ++ nh0 isv f e i1 ++ nh0 isv f e o0
      ++ nm0 isv f e o1 ++ nh0 isv f e o1 ++ nm0 isv f e o2 ++ nh0 isv f e o2 ++ nc ds f e Pw
  end.

(** A row of the bus: component with parameter, and its bus value as function of its value;
    component.py 620-732 *)
Definition brow : Type := bkind * (R -> R).
(** calc_bus_value, component.py 696-732 *)
Definition bus_value (b : brow) (e : env) : R := snd b (comp_value (fst b) e).
(** [if c not in bus.jacobian: bus.jacobian[c] = 0; bus.jacobian[c] -= v],
    turbomachinery/base.py 222-225 *)
Definition jsub (j : qty -> option R) (w : write) : qty -> option R :=
  fun q => if qty_eqb q (fst w) then Some (match j q with Some x => x | None => 0 end - snd w) else j q.
(** Bus.solve, bus.py 423-426: residual and entries, from an empty [bus.jacobian] *)
Definition bus_residual (Pb : R) (l : list brow) (e : env) : R :=
  fold_left (fun r b => r - bus_value b e) l Pb.
(** the entries, bus.py 423-426 *)
Definition bus_entries (l : list brow) (e : env) : qty -> option R :=
  fold_left (fun j b => fold_left jsub (bus_writes (fst b) (bus_value b) e) j) l (fun _ => None).
End Bus.
