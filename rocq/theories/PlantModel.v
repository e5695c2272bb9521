(** A whole plant: components wired by connections, the equations they
    contribute to the system (networks/network.py 2388-2403 collects the
    residuals of all components) and the quantities reported afterwards.

    The component equations are those of EqnModel and JacModel.  The topology
    reduction (network.py 920-1126) makes the connections of a branch share
    their mass flow container and the connections of a composition branch share
    their composition container; what every component hands on is [shares].

    Not repeated here: pressure equations, optional equations, characteristic
    lines and user defined equations.  They only restrict the solutions
    further. *)
From Coq Require Import Reals List String Bool Arith.
From Verif Require Import Base EqnModel JacModel.
Import ListNotations.
Open Scope R_scope.

(** Reference data of the reactors: enthalpies of water, oxygen and hydrogen at
    the reference state, reaction enthalpy and molar masses
    (reactors/fuel_cell.py 443, 549; water_electrolyzer.py 542, 722). *)
Record reactor := Reactor { r_hw : R; r_ho : R; r_hh : R; r_e0 : R; r_Mo : R; r_Mh : R }.

(** Data of a combustion chamber: property functions, lower heating values and
    the fuels in use (combustion/base.py 837-855, 1105-1117). *)
Record burner := Burner { b_props : props; b_lhv : string -> R; b_fuels : list string }.

(** The components with their connections, the classes of
    src/tespy/components/__init__.py 1-40.
    [PFlow]: one stream exchanging heat or power (pump, compressor, turbine, pipe, simple heat
    exchanger, collectors); [PTwo]: two-sided heat exchangers, condenser,
    desuperheater; [PThrough]: valve and subsystem interface (pairs of inlet and outlet). *)
Inductive part :=
| PSource (o : conn)
| PSink (i : conn)
| PFlow (i o : conn)
| PTwo (i1 i2 o1 o2 : conn)
| PThrough (ports : list (conn * conn))
| PCloser (i o : conn)
| PMerge (inl : list conn) (o : conn)
| PSplitter (i : conn) (outl : list conn)
| PSeparator (i : conn) (outl : list conn) (fl : list string) (T : conn -> R -> R -> R)
| PDroplet (i o0 o1 : conn)
| PDrum (i0 i1 o0 o1 : conn)
| PChamber (b : burner) (inl : list conn) (o : conn) (eta : param)
| PEngine (b : burner) (i1 i2 o1 o2 : conn) (inl : list conn) (o : conn) (Pw Ql : param)
| PFuelCell (r : reactor) (i0 i1 i2 o0 o1 : conn) (P : param)
| PElectrolyzer (r : reactor) (i0 i1 o0 o1 o2 : conn) (P : param).

(** [component.inl], network.py 768-781 *)
Definition inlets (p : part) : list conn :=
  match p with
  | PSource _ => []
  | PSink i => [i]
  | PFlow i _ => [i]
  | PTwo i1 i2 _ _ => [i1; i2]
  | PThrough ports => map fst ports
  | PCloser i _ => [i]
  | PMerge ins _ => ins
  | PSplitter i _ => [i]
  | PSeparator i _ _ _ => [i]
  | PDroplet i _ _ => [i]
  | PDrum i0 i1 _ _ => [i0; i1]
  | PChamber _ ins _ _ => ins
  | PEngine _ i1 i2 _ _ ins _ _ _ => i1 :: i2 :: ins
  | PFuelCell _ i0 i1 i2 _ _ _ => [i0; i1; i2]
  | PElectrolyzer _ i0 i1 _ _ _ _ => [i0; i1]
  end.

(** [component.outl], network.py 768-781 *)
Definition outlets (p : part) : list conn :=
  match p with
  | PSource o => [o]
  | PSink _ => []
  | PFlow _ o => [o]
  | PTwo _ _ o1 o2 => [o1; o2]
  | PThrough ports => map snd ports
  | PCloser _ o => [o]
  | PMerge _ o => [o]
  | PSplitter _ outl => outl
  | PSeparator _ outl _ _ => outl
  | PDroplet _ o0 o1 => [o0; o1]
  | PDrum _ _ o0 o1 => [o0; o1]
  | PChamber _ _ o _ => [o]
  | PEngine _ _ _ o1 o2 _ o _ _ => [o1; o2; o]
  | PFuelCell _ _ _ _ o0 o1 _ => [o0; o1]
  | PElectrolyzer _ _ _ o0 o1 o2 _ => [o0; o1; o2]
  end.

(** Mass flow containers handed on from inlet to outlet: [propagate_to_target]
    of component.py 309-317, combustion/engine.py 320-332, reactors/fuel_cell.py
    744-759, reactors/water_electrolyzer.py 1069-1082 and nodes/drum.py 353-384 (the drum passes on
    in1 to out2 if out1 comes back at in2); nodes, combustion and cycle closer end
    the branch. *)
Definition shares_mass (p : part) : Prop :=
  match p with
  | PFlow i o => cm i = cm o
  | PTwo i1 i2 o1 o2 => cm i1 = cm o1 /\ cm i2 = cm o2
  | PThrough ports => Forall (fun io => cm (fst io) = cm (snd io)) ports
  | PDrum i0 i1 o0 o1 => cm i1 = cm o0 -> cm i0 = cm o1
  | PEngine _ i1 i2 o1 o2 _ _ _ _ => cm i1 = cm o1 /\ cm i2 = cm o2
  | PFuelCell _ i0 _ _ o0 _ _ => cm i0 = cm o0
  | PElectrolyzer _ i0 _ o0 _ _ _ => cm i0 = cm o0
  | _ => True
  end.

(** Composition containers handed on: as for the mass flow; splitter,
    droplet separator and drum keep the composition in their subbranches
    (nodes/base.py 205-214, network.py 1097-1139), while merge and separator
    start new branches (nodes/merge.py 323-338, separator.py 186-203). *)
Definition shares_fluid (p : part) : Prop :=
  match p with
  | PFlow i o => cf i = cf o
  | PTwo i1 i2 o1 o2 => cf i1 = cf o1 /\ cf i2 = cf o2
  | PThrough ports => Forall (fun io => cf (fst io) = cf (snd io)) ports
  | PSplitter i outl => Forall (fun o => cf i = cf o) outl
  | PDroplet i o0 o1 => cf i = cf o0 /\ cf i = cf o1
  | PDrum i0 i1 o0 o1 => cf i0 = cf o0 /\ cf i0 = cf o1
  | PEngine _ i1 i2 o1 o2 _ _ _ _ => cf i1 = cf o1 /\ cf i2 = cf o2
  | PFuelCell _ i0 _ _ o0 _ _ => cf i0 = cf o0
  | PElectrolyzer _ i0 _ o0 _ _ _ => cf i0 = cf o0
  | _ => True
  end.

Section Plant.
Variable isv : qty -> bool.

(** Mandatory mass, fluid and energy residuals of a component, in the order of
    [get_mandatory_constraints] (merge.py 139-165, splitter.py 125-150,
    separator.py 144-172, droplet_separator.py 145-170, drum.py 175-201,
    heat_exchangers/base.py 298-305, cycle_closer.py 106-120, piping/valve.py
    155-163, combustion/base.py 172-201, combustion/engine.py 286-310,
    fuel_cell.py 185-206, water_electrolyzer.py 220-250; a diabatic chamber has its
    energy balance if eta is given, diabatic.py 218-222); an equation announced with
    [num_eq] zero is not part of the system (component.py 586-602). *)
Definition residuals (p : part) (e : env) : list R :=
  match p with
  | PSource _ | PSink _ | PFlow _ _ => []
  | PTwo i1 i2 o1 o2 => [hx_energy_func i1 i2 o1 o2 e]
  | PThrough ports => enthalpy_equality_func ports e
  | PCloser i o => enthalpy_equality_func [(i, o)] e
  | PMerge ins o =>
      (if Nat.eqb (merge_num_mass_eq isv ins o) 1
       then [node_mass_func ins [o] e] else [])
      ++ merge_fluid_func ins o e ++ [merge_energy_func ins o e]
  | PSplitter i outl => node_mass_func [i] outl e :: splitter_energy_func i outl e
  | PSeparator i outl fl T =>
      node_mass_func [i] outl e
      :: separator_fluid_func i outl fl e ++ separator_energy_func T i outl e
  | PDroplet i o0 o1 =>
      [node_mass_func [i] [o0; o1] e; droplet_energy_func [i] [o0; o1] e]
  | PDrum i0 i1 o0 o1 =>
      (if Nat.eqb (drum_num_mass_eq i1 o0) 1
       then [drum_mass_func i0 i1 o0 o1 e] else [])
      ++ [drum_energy_func i0 i1 o0 o1 e]
  | PChamber b ins o eta =>
      [node_mass_func ins [o] e;
       comb_energy (b_props b) (b_lhv b) (b_fuels b) ins [o] eta e]
  | PEngine b i1 i2 o1 o2 ins o Pw Ql =>
      [node_mass_func ins [o] e;
       JacModel.engine_energy (b_props b) (b_lhv b) (b_fuels b) i1 i2 o1 o2 ins o Pw Ql e]
  | PFuelCell r i0 i1 i2 o0 o1 P =>
      fuel_cell_mass_func isv (r_Mo r) (r_Mh r) i1 i2 o1 e
      ++ [fuel_cell_energy_func (r_hw r) (r_ho r) (r_hh r) (r_e0 r) i0 i1 i2 o0 o1 P e]
  | PElectrolyzer r i0 i1 o0 o1 o2 P =>
      electrolyzer_mass_func isv (r_Mo r) (r_Mh r) i1 o1 o2 e
      ++ [electrolyzer_energy_func (r_hw r) (r_ho r) (r_hh r) (r_e0 r) i0 i1 o0 o1 o2 P e]
  end.

End Plant.

(** Heat flow or power reported by [calc_parameters] of a one-stream component:
    turbomachinery/base.py 239-241, heat_exchangers/simple.py 890,
    [inl[0].m * (outl[0].h - inl[0].h)]. *)
Definition duty (i o : conn) (e : env) : R := vm e i * (vh e o - vh e i).

(** CycleCloser.calc_parameters, basics/cycle_closer.py 165-169 *)
Definition mass_deviation (i o : conn) (e : env) : R := Rabs (vm e i - vm e o).

(** CycleCloser.calc_parameters, basics/cycle_closer.py 171-175: the fluids of
    the inlet are looked up in the dictionary of the outlet (KeyError), the
    deviation is the Euclidean norm of the differences. *)
Definition fluid_deviation (i o : conn) (e : env) : res R :=
  if forallb (fun f => existsb (String.eqb f) (ckeys o)) (ckeys i)
  then Ok (sqrt (fold_left (fun s f => s + (vx e i f - vx e o f) * (vx e i f - vx e o f))
                   (ckeys i) 0))
  else Err KeyError.
