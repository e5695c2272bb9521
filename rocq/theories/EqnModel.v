(** Component and connection equations and their hand-written Jacobian rows.

    Values are reals.  An unknown of the network is addressed by the data
    container that holds it, because the topology reduction lets several
    connections of a branch share one mass flow container and one fluid
    composition container (src/tespy/networks/network.py 920-1126), while
    pressure and enthalpy stay per connection.  An assignment of all container
    values is an environment.  The column number of an unknown is the container
    itself here: the numbering is injective (VarSpaceModel, property C20).

    A Jacobian routine is modelled by the list of assignments
    [self.jacobian[k, col] = value] it executes, in order; as in a Python
    dictionary a later assignment to the same column replaces an earlier one.
    Values obtained with [numeric_deriv] are not modelled here (NumDerivModel);
    the routines below list the assignments whose right hand side is written
    out by hand in the source. *)
From Coq Require Import Reals List String Bool Arith.
From Verif Require Import Base.
Import ListNotations.
Open Scope R_scope.

(** Data containers that can hold an unknown: mass flow container, pressure and
    enthalpy of a connection, mass fraction of a fluid in a composition
    container, component variable (src/tespy/networks/network.py 1097-1126,
    1208-1226; src/tespy/components/component.py 349-352). *)
Inductive qty :=
| QM (a : nat) | QP (c : nat) | QH (c : nat)
| QF (a : nat) (f : string) | QC (v : nat).

(** Identity of columns (J_col), network.py 1209-1225 *)
Definition qty_eqb (x y : qty) : bool :=
  match x, y with
  | QM a, QM b => Nat.eqb a b
  | QP a, QP b => Nat.eqb a b
  | QH a, QH b => Nat.eqb a b
  | QF a f, QF b g => Nat.eqb a b && String.eqb f g
  | QC a, QC b => Nat.eqb a b
  | _, _ => false
  end.

(** val_SI of the containers, data_containers.py 300-306 *)
Definition env := qty -> R.

(** A connection as the equations see it: its own number (pressure, enthalpy),
    the addresses of its mass flow and composition containers, and the keys of
    its [fluid.val] dictionary in order (src/tespy/connections/connection.py
    250-290). *)
Record conn := Conn { cid : nat; cm : nat; cf : nat; ckeys : list string }.

(** c.m.val_SI, data_containers.py 300-306 *)
Definition vm (e : env) (c : conn) : R := e (QM (cm c)).
(** c.p.val_SI, data_containers.py 300-306 *)
Definition vp (e : env) (c : conn) : R := e (QP (cid c)).
(** c.h.val_SI, data_containers.py 300-306 *)
Definition vh (e : env) (c : conn) : R := e (QH (cid c)).
(** c.fluid.val[f], data_containers.py 484-500 *)
Definition vx (e : env) (c : conn) (f : string) : R := e (QF (cf c) f).

(** One assignment to a row of the Jacobian dictionary, component.py 586-602 *)
Definition write := (qty * R)%type.

(** [if cond: self.jacobian[k, col] = value]; As in component.py 932-936 *)
Definition wr (cond : bool) (q : qty) (v : R) : list write :=
  if cond then [(q, v)] else [].

(** [Component.is_variable], src/tespy/components/component.py 443-448: the
    filter is [None] when the caller does not pass it. *)
Definition is_variable (isv : qty -> bool) (filt : option (qty -> bool))
  (q : qty) : bool :=
  isv q && match filt with None => true | Some inc => negb (inc q) end.

(** Value of one row of the component's Jacobian dictionary after a list of
    assignments. component.py 586-602. *)
Definition row := qty -> option R.
(** One assignment, component.py 586-602 *)
Definition set_entry (r : row) (w : write) : row :=
  fun q => if qty_eqb q (fst w) then Some (snd w) else r q.
(** The assignments of a derivative function in their order, component.py 586-602 *)
Definition run_writes (r : row) (ws : list write) : row :=
  fold_left set_entry ws r.
(** The row before, component.py 586-602 *)
Definition empty_row : row := fun _ => None.

(** [res = 0; for c in l: res += f(c)] and the like *)
Definition acc_add (f : conn -> R) (l : list conn) (r0 : R) : R :=
  fold_left (fun r c => r + f c) l r0.
(** The same with minus, e.g. nodes/separator.py 227-234 *)
Definition acc_sub (f : conn -> R) (l : list conn) (r0 : R) : R :=
  fold_left (fun r c => r - f c) l r0.

Section Equations.
Variable isv : qty -> bool.

(* ------------------------------------------------------------------ nodes *)

(** NodeBase.mass_flow_func, src/tespy/components/nodes/base.py 36-41 *)
Definition node_mass_func (inl outl : list conn) (e : env) : R :=
  acc_sub (vm e) outl (acc_add (vm e) inl 0).

(** NodeBase.mass_flow_deriv, nodes/base.py 71-76 *)
Definition node_mass_writes (inl outl : list conn) : list write :=
  flat_map (fun i => wr (isv (QM (cm i))) (QM (cm i)) 1) inl
  ++ flat_map (fun o => wr (isv (QM (cm o))) (QM (cm o)) (-1)) outl.

(** The connections compared with the first inlet, nodes/base.py 93-96 and
    134-137. *)
Definition node_others (inl outl : list conn) : list conn := tl inl ++ outl.

(** NodeBase.pressure_equality_func, nodes/base.py 92-98; [i0] is [inl[0]] *)
Definition node_pressure_func (i0 : conn) (others : list conn) (e : env)
  : list R :=
  map (fun c => vp e i0 - vp e c) others.

(** NodeBase.pressure_equality_deriv, nodes/base.py 134-143: the row of the
    equation belonging to connection [o]. *)
Definition node_pressure_row (i0 o : conn) : list write :=
  wr (isv (QP (cid i0))) (QP (cid i0)) 1
  ++ wr (isv (QP (cid o))) (QP (cid o)) (-1).

(** Merge.fluid_func, nodes/merge.py 203-209: one residual for every fluid of
    the outlet's dictionary.  Simplification: every inlet dictionary has the
    keys of the outlet dictionary (network.py 936-961 gives all connections of
    a wrapper branch the same keys), so the lookup does not raise. *)
Definition merge_fluid_eq (inl : list conn) (o : conn) (f : string) (e : env)
  : R :=
  acc_add (fun i => vx e i f * vm e i) inl (- vx e o f * vm e o).
(** Merge.fluid_func for all fluids, nodes/merge.py 203-209 *)
Definition merge_fluid_func (inl : list conn) (o : conn) (e : env) : list R :=
  map (fun f => merge_fluid_eq inl o f e) (ckeys o).

(** Merge.fluid_deriv, nodes/merge.py 245-256: the row of fluid [f]. *)
Definition merge_fluid_writes (inl : list conn) (o : conn) (f : string)
  (e : env) : list write :=
  flat_map (fun i =>
    wr (isv (QM (cm i))) (QM (cm i)) (vx e i f)
    ++ wr (isv (QF (cf i) f)) (QF (cf i) f) (vm e i)) inl
  ++ wr (isv (QM (cm o))) (QM (cm o)) (- vx e o f)
  ++ wr (isv (QF (cf o) f)) (QF (cf o) f) (- vm e o).

(** Merge.energy_balance_func, nodes/merge.py 273-276 *)
Definition merge_energy_func (inl : list conn) (o : conn) (e : env) : R :=
  acc_add (fun i => vm e i * vh e i) inl (- vm e o * vh e o).

(** Merge.energy_balance_deriv, nodes/merge.py 311-320 *)
Definition merge_energy_writes (inl : list conn) (o : conn) (e : env)
  : list write :=
  flat_map (fun i =>
    wr (isv (QM (cm i))) (QM (cm i)) (vh e i)
    ++ wr (isv (QH (cid i))) (QH (cid i)) (vm e i)) inl
  ++ wr (isv (QM (cm o))) (QM (cm o)) (- vh e o)
  ++ wr (isv (QH (cid o))) (QH (cid o)) (- vm e o).

(** [c.fluid.is_var] of a connection: the fluids of its dictionary that are
    unknowns (network.py 1097-1126). *)
Definition var_fluids (c : conn) : list string :=
  filter (fun f => isv (QF (cf c) f)) (ckeys c).

(** Merge.get_mandatory_constraints, nodes/merge.py 140-149: numbers of fluid
    and mass flow equations announced. [ik] is [self.inl[0].fluid.val]. *)
Definition merge_variable_fluids (inl : list conn) (o : conn) : list string :=
  nodup string_dec (flat_map var_fluids (inl ++ [o])).
(** nodes/merge.py 140-149: the number of fluid equations *)
Definition merge_num_fluid_eq (inl : list conn) (o : conn) (i0 : conn) : nat :=
  match List.length (merge_variable_fluids inl o) with
  | O => List.length (ckeys i0)
  | n => n
  end.
(** nodes/merge.py 140-149: the number of mass balances *)
Definition merge_num_mass_eq (inl : list conn) (o : conn) : nat :=
  match List.length (merge_variable_fluids inl o) with O => 0%nat | _ => 1%nat end.

(** Splitter.energy_balance_func, nodes/splitter.py 180-183 *)
Definition splitter_energy_func (i0 : conn) (outl : list conn) (e : env)
  : list R :=
  map (fun o => vh e i0 - vh e o) outl.

(** Splitter.energy_balance_deriv, nodes/splitter.py 206-210: one row *)
Definition splitter_energy_row (i0 o : conn) : list write :=
  wr (isv (QH (cid i0))) (QH (cid i0)) 1
  ++ wr (isv (QH (cid o))) (QH (cid o)) (-1).

(** Separator.get_mandatory_constraints, nodes/separator.py 145-151: the fluids
    that get a balance; [fset] is [list(self.inl[0].fluid.is_set)], whose first
    element is an IndexError if there is none. *)
Definition separator_fluids (i0 : conn) (outl : list conn)
  (fset : list string) : res (list string) :=
  match nodup string_dec (flat_map var_fluids (i0 :: outl)) with
  | [] => match fset with [] => Err IndexError | f :: _ => Ok [f] end
  | l => Ok l
  end.

(** Separator.fluid_func, nodes/separator.py 227-234 *)
Definition separator_fluid_eq (i0 : conn) (outl : list conn) (f : string)
  (e : env) : R :=
  acc_sub (fun o => vx e o f * vm e o) outl (vx e i0 f * vm e i0).
(** Separator.fluid_func for all fluids, nodes/separator.py 227-234 *)
Definition separator_fluid_func (i0 : conn) (outl : list conn)
  (fl : list string) (e : env) : list R :=
  map (fun f => separator_fluid_eq i0 outl f e) fl.

(** Separator.fluid_deriv, nodes/separator.py 270-283: the row of fluid [f] *)
Definition separator_fluid_writes (i0 : conn) (outl : list conn) (f : string)
  (e : env) : list write :=
  flat_map (fun o =>
    wr (is_variable isv None (QM (cm o))) (QM (cm o)) (- vx e o f)
    ++ wr (isv (QF (cf o) f)) (QF (cf o) f) (- vm e o)) outl
  ++ wr (is_variable isv None (QM (cm i0))) (QM (cm i0)) (vx e i0 f)
  ++ wr (isv (QF (cf i0) f)) (QF (cf i0) f) (vm e i0).

(** Separator.energy_balance_func and energy_balance_deriv, nodes/separator.py
    299-303 and 337-355: equality of temperatures; temperature and its partial
    derivatives are property functions.  The two assignments for the outlet are
    not guarded. *)
Definition separator_energy_func (T : conn -> R -> R -> R) (i0 : conn)
  (outl : list conn) (e : env) : list R :=
  map (fun o => T i0 (vp e i0) (vh e i0) - T o (vp e o) (vh e o)) outl.
(** Separator.energy_balance_deriv, nodes/separator.py 337-355, one row *)
Definition separator_energy_row (Tp Th : conn -> R -> R -> R) (i0 o : conn)
  (e : env) : list write :=
  wr (is_variable isv None (QP (cid i0))) (QP (cid i0))
    (Tp i0 (vp e i0) (vh e i0))
  ++ wr (is_variable isv None (QH (cid i0))) (QH (cid i0))
    (Th i0 (vp e i0) (vh e i0))
  ++ [(QP (cid o), - Tp o (vp e o) (vh e o));
      (QH (cid o), - Th o (vp e o) (vh e o))].

(** DropletSeparator.energy_balance_func and energy_balance_deriv,
    nodes/droplet_separator.py 193-199 and 235-245 *)
Definition droplet_energy_func (inl outl : list conn) (e : env) : R :=
  acc_sub (fun o => vm e o * vh e o) outl
    (acc_add (fun i => vm e i * vh e i) inl 0).
(** DropletSeparator.energy_balance_deriv, nodes/droplet_separator.py 235-245 *)
Definition droplet_energy_writes (inl outl : list conn) (e : env)
  : list write :=
  flat_map (fun i =>
    wr (isv (QM (cm i))) (QM (cm i)) (vh e i)
    ++ wr (isv (QH (cid i))) (QH (cid i)) (vm e i)) inl
  ++ flat_map (fun o =>
    wr (isv (QM (cm o))) (QM (cm o)) (- vh e o)
    ++ wr (isv (QH (cid o))) (QH (cid o)) (- vm e o)) outl.

(** DropletSeparator.outlet_states_func, nodes/droplet_separator.py 262-267:
    [hs q p] is the saturation enthalpy at quality q. *)
Definition droplet_outlet_func (hs : R -> R -> R) (o0 o1 : conn) (e : env)
  : list R :=
  [hs 0 (vp e o0) - vh e o0; hs 1 (vp e o1) - vh e o1].
(** outlet_states_deriv, 303-317: the enthalpy entry of a row is assigned in
    the first iteration only, [dhs] is the derivative passed for pressure. *)
Definition droplet_outlet_row (dhs : R -> R -> R) (q : R) (o : conn)
  (it : nat) (e : env) : list write :=
  wr (isv (QP (cid o))) (QP (cid o)) (dhs q (vp e o))
  ++ wr (isv (QH (cid o)) && Nat.eqb it 0) (QH (cid o)) (-1).

(** Drum: is the loop over out1 and in2 on one mass flow container,
    nodes/drum.py 177, 221, 241, 270, 299 (containers compare by identity) *)
Definition drum_loop (i1 o0 : conn) : bool := Nat.eqb (cm i1) (cm o0).

(** Drum.get_mandatory_constraints, nodes/drum.py 176-178 *)
Definition drum_num_mass_eq (i1 o0 : conn) : nat :=
  if drum_loop i1 o0 then 0%nat else 1%nat.

(** Drum.mass_flow_func, nodes/drum.py 221-230 *)
Definition drum_mass_func (i0 i1 o0 o1 : conn) (e : env) : R :=
  if drum_loop i1 o0 then vm e i0 - vm e o1
  else node_mass_func [i0; i1] [o0; o1] e.

(** Drum.mass_flow_deriv, nodes/drum.py 241-253 *)
Definition drum_mass_writes (i0 i1 o0 o1 : conn) : list write :=
  if drum_loop i1 o0 then
    wr (isv (QM (cm i0))) (QM (cm i0)) 1
    ++ wr (isv (QM (cm o1))) (QM (cm o1)) (-1)
  else node_mass_writes [i0; i1] [o0; o1].

(** Drum.energy_balance_func, nodes/drum.py 270-284 *)
Definition drum_energy_func (i0 i1 o0 o1 : conn) (e : env) : R :=
  if drum_loop i1 o0 then
    (vh e i1 - vh e o0) * vm e o0 + (vh e i0 - vh e o1) * vm e i0
  else droplet_energy_func [i0; i1] [o0; o1] e.

(** Drum.energy_balance_deriv, nodes/drum.py 299-314 *)
Definition drum_energy_writes (i0 i1 o0 o1 : conn) (e : env) : list write :=
  if drum_loop i1 o0 then
    wr (isv (QM (cm o0))) (QM (cm o0)) (vh e i1 - vh e o0)
    ++ wr (isv (QH (cid i1))) (QH (cid i1)) (vm e o0)
    ++ wr (isv (QH (cid o0))) (QH (cid o0)) (- vm e o0)
    ++ wr (isv (QM (cm i0))) (QM (cm i0)) (vh e i0 - vh e o1)
    ++ wr (isv (QH (cid i0))) (QH (cid i0)) (vm e i0)
    ++ wr (isv (QH (cid o1))) (QH (cid o1)) (- vm e o1)
  else droplet_energy_writes [i0; i1] [o0; o1] e.

(* --------------------------------------------------------------- component *)

(** Component.pressure_equality_func/deriv, component.py 893-896, 932-936: port
    [i] in with port [i] out. *)
Definition pressure_equality_func (ports : list (conn * conn)) (e : env)
  : list R :=
  map (fun io => vp e (fst io) - vp e (snd io)) ports.
(** Component.pressure_equality_deriv, component.py 932-936, one row *)
Definition pressure_equality_row (i o : conn) : list write :=
  wr (isv (QP (cid i))) (QP (cid i)) 1 ++ wr (isv (QP (cid o))) (QP (cid o)) (-1).

(** Component.enthalpy_equality_func/deriv, component.py 951-954, 991-995 *)
Definition enthalpy_equality_func (ports : list (conn * conn)) (e : env)
  : list R :=
  map (fun io => vh e (fst io) - vh e (snd io)) ports.
(** Component.enthalpy_equality_deriv, component.py 991-995, one row *)
Definition enthalpy_equality_row (i o : conn) : list write :=
  wr (isv (QH (cid i))) (QH (cid i)) 1 ++ wr (isv (QH (cid o))) (QH (cid o)) (-1).

(** A numeric component parameter: an unknown of the network ([is_var]) or a
    plain value (component.py 349-352 allots the column). *)
Inductive param := PVar (v : nat) | PVal (x : R).
(** The value of a component parameter, data_containers.py 354-364 *)
Definition pval (e : env) (p : param) : R :=
  match p with PVar v => e (QC v) | PVal x => x end.

(** [if self.P.is_var: self.jacobian[k, self.P.J_col] = value];
    as in turbomachinery/base.py 152-162 *)
Definition wr_param (p : param) (v : R) : list write :=
  match p with PVar c => [(QC c, v)] | PVal _ => [] end.

(** Component.pr_func, component.py 1030-1031 *)
Definition pr_func (inl outl : list conn) (pr : param) (inc outc : nat)
  (e : env) : res R :=
  match nth_error inl inc, nth_error outl outc with
  | Some i, Some o => Ok (vp e i * pval e pr - vp e o)
  | _, _ => Err IndexError
  end.

(** Component.pr_deriv, component.py 1082-1090: the outlet is looked up with the
    inlet's index, and the column is that of the attribute named "pr", whatever
    parameter was passed; [self_pr] is that attribute if the component has it:
    its column number, None standing for a container that is no unknown
    (its J_col is None, data_containers.py 497). *)
Definition pr_deriv (inl outl : list conn) (pr : param) (inc outc : nat)
  (self_pr : option (option nat)) (e : env) : res (list (option qty * R)) :=
  match nth_error inl inc, nth_error outl inc with
  | Some i, Some o =>
      let w := map (fun w => (Some (fst w), snd w))
                 (wr (isv (QP (cid i))) (QP (cid i)) (pval e pr)
                  ++ wr (isv (QP (cid o))) (QP (cid o)) (-1)) in
      match pr with
      | PVal _ => Ok w
      | PVar _ =>
          match self_pr with
          | None => Err AttributeError
          | Some col => Ok (w ++ [(option_map QC col, vp e i)])
          end
      end
  | _, _ => Err IndexError
  end.

(** Component.dp_func/dp_deriv, component.py 1258-1261, 1285-1290 *)
Definition dp_func (i o : conn) (dp : R) (e : env) : R := vp e i - vp e o - dp.
(** Component.dp_deriv, component.py 1285-1290 *)
Definition dp_writes (i o : conn) : list write :=
  wr (isv (QP (cid i))) (QP (cid i)) 1 ++ wr (isv (QP (cid o))) (QP (cid o)) (-1).

(* --------------------------------------- turbomachines, simple heat exchanger *)

(** Turbomachine.energy_balance_func, turbomachinery/base.py 118-119;
    SimpleHeatExchanger.energy_balance_func, heat_exchangers/simple.py 271-273;
    HeatExchanger.energy_balance_hot_func, heat_exchangers/base.py 399-401 *)
Definition flow_energy_func (i o : conn) (P : param) (e : env) : R :=
  vm e i * (vh e o - vh e i) - pval e P.

(** turbomachinery/base.py 152-162 and heat_exchangers/simple.py 307-317 *)
Definition flow_energy_writes (i o : conn) (P : param) (e : env) : list write :=
  wr (isv (QM (cm i))) (QM (cm i)) (vh e o - vh e i)
  ++ wr (isv (QH (cid i))) (QH (cid i)) (- vm e i)
  ++ wr (isv (QH (cid o))) (QH (cid o)) (vm e i)
  ++ wr_param P (-1).

(** HeatExchanger.energy_balance_hot_deriv, heat_exchangers/base.py 434-441: no
    column for the heat flow itself *)
Definition hx_hot_writes (i o : conn) (e : env) : list write :=
  wr (is_variable isv None (QM (cm i))) (QM (cm i)) (vh e o - vh e i)
  ++ wr (is_variable isv None (QH (cid i))) (QH (cid i)) (- vm e i)
  ++ wr (is_variable isv None (QH (cid o))) (QH (cid o)) (vm e i).

(** HeatExchanger.energy_balance_func, heat_exchangers/base.py 338-343 *)
Definition hx_energy_func (i1 i2 o1 o2 : conn) (e : env) : R :=
  vm e i1 * (vh e o1 - vh e i1) + vm e i2 * (vh e o2 - vh e i2).

(** HeatExchanger.energy_balance_deriv, heat_exchangers/base.py 377-384 *)
Definition hx_side_writes (filt : qty -> bool) (i o : conn) (e : env)
  : list write :=
  wr (is_variable isv (Some filt) (QM (cm i))) (QM (cm i)) (vh e o - vh e i)
  ++ wr (is_variable isv (Some filt) (QH (cid i))) (QH (cid i)) (- vm e i)
  ++ wr (is_variable isv (Some filt) (QH (cid o))) (QH (cid o)) (vm e i).
(** HeatExchanger.energy_balance_deriv, heat_exchangers/base.py 377-384 *)
Definition hx_energy_writes (filt : qty -> bool) (i1 i2 o1 o2 : conn) (e : env)
  : list write :=
  hx_side_writes filt i1 o1 e ++ hx_side_writes filt i2 o2 e.

(** HeatExchanger.kA_func, heat_exchangers/base.py 491-495: [td] is the mean
    temperature difference as a function of the state (LmtdModel).  The only
    hand-written entry of kA_deriv is 535-536. *)
Definition hx_kA_func (td : env -> R) (i1 o1 : conn) (kA : R) (e : env) : R :=
  vm e i1 * (vh e o1 - vh e i1) + kA * td e.
(** HeatExchanger.kA_deriv, heat_exchangers/base.py 532-541, the hand-written entry *)
Definition hx_kA_entry (i1 o1 : conn) (e : env) : list write :=
  wr (is_variable isv None (QM (cm i1))) (QM (cm i1)) (vh e o1 - vh e i1).

(** HeatExchanger.eff_cold_func with calc_dh_max_cold, heat_exchangers/base.py
    807-812, 828-831; [hpT] is h_mix_pT of the cold outlet's fluid and [Tph]
    T_mix_ph of the hot inlet's fluid.  Hand-written entry 857-858. *)
Definition hx_eff_cold_func (hpT Tph : R -> R -> R) (i1 i2 o2 : conn) (eff : R)
  (e : env) : R :=
  eff * (hpT (vp e o2) (Tph (vp e i1) (vh e i1)) - vh e i2)
  - (vh e o2 - vh e i2).
(** HeatExchanger.eff_cold_deriv, heat_exchangers/base.py 845-858, the hand-written entry *)
Definition hx_eff_cold_entry (i2 : conn) (eff : R) : list write :=
  wr (is_variable isv None (QH (cid i2))) (QH (cid i2)) (1 - eff).

(** HeatExchanger.eff_hot_func with calc_dh_max_hot, heat_exchangers/base.py
    872-877, 893-896; hand-written entry 916-917. *)
Definition hx_eff_hot_func (hpT Tph : R -> R -> R) (i1 i2 o1 : conn) (eff : R)
  (e : env) : R :=
  eff * (hpT (vp e o1) (Tph (vp e i2) (vh e i2)) - vh e i1)
  - (vh e o1 - vh e i1).
(** HeatExchanger.eff_hot_deriv, heat_exchangers/base.py 910-923, the hand-written entry *)
Definition hx_eff_hot_entry (i1 : conn) (eff : R) : list write :=
  wr (is_variable isv None (QH (cid i1))) (QH (cid i1)) (1 - eff).

(** Condenser.subcooling_func (heat_exchangers/condenser.py 278-279, entry
    313-314) and Desuperheater.saturated_gas_func (desuperheater.py 208-209,
    entry 243-244): [hs] is the saturation enthalpy as a function of pressure. *)
Definition sat_func (hs : R -> R) (o : conn) (e : env) : R :=
  vh e o - hs (vp e o).
(** condenser.py 310-314, desuperheater.py 240-244, the hand-written entry *)
Definition sat_entry (o : conn) : list write :=
  wr (is_variable isv None (QH (cid o))) (QH (cid o)) 1.

(** Pump.eta_s_func (turbomachinery/pump.py 205-218) and Compressor.eta_s_func
    (compressor.py 206-219): [his] is the isentropic enthalpy as a function of
    inlet pressure, inlet enthalpy and outlet pressure.  Hand-written entries
    pump.py 260-261, compressor.py 261-262.  The efficiency may be a component
    variable; the routine has no entry for it. *)
Definition pump_eta_func (his : R -> R -> R -> R) (i o : conn) (eta : param)
  (e : env) : R :=
  (vh e o - vh e i) * pval e eta - (his (vp e i) (vh e i) (vp e o) - vh e i).
(** pump.py 251-261, compressor.py 252-262, the hand-written entry *)
Definition pump_eta_entry (filt : qty -> bool) (o : conn) (eta : param)
  (e : env) : list write :=
  wr (is_variable isv (Some filt) (QH (cid o))) (QH (cid o)) (pval e eta).

(** Turbine.eta_s_func, turbomachinery/turbine.py 193-208; hand-written entry
    250-251 in the first iteration only. *)
Definition turbine_eta_func (his : R -> R -> R -> R) (i o : conn) (eta : param)
  (e : env) : R :=
  - (vh e o - vh e i)
  + (his (vp e i) (vh e i) (vp e o) - vh e i) * pval e eta.
(** turbine.py 241-251, the hand-written entry *)
Definition turbine_eta_entry (o : conn) (it : nat) : list write :=
  wr (isv (QH (cid o)) && Nat.eqb it 0) (QH (cid o)) (-1).

(** Turbine.cone_func, turbomachinery/turbine.py 286-297, as minus the mass flow
    plus a function of inlet and outlet pressure and inlet enthalpy;
    hand-written entry 338-339. *)
Definition cone_func (g : R -> R -> R -> R) (i o : conn) (e : env) : R :=
  - vm e i + g (vp e i) (vh e i) (vp e o).
(** turbine.py 335-345, the hand-written entry *)
Definition cone_entry (i : conn) : list write :=
  wr (isv (QM (cm i))) (QM (cm i)) (-1).

(** Compressor.char_map_pr_func, turbomachinery/compressor.py 376-388: [g] is
    the pressure ratio read from the map as a function of inlet mass flow,
    pressure and enthalpy.  Hand-written entry 443-444. *)
Definition char_map_pr_func (g : R -> R -> R -> R) (prd : R) (i o : conn)
  (e : env) : R :=
  vp e o / vp e i - g (vm e i) (vp e i) (vh e i) * prd.
(** compressor.py 434-451, the hand-written entry *)
Definition char_map_pr_entry (filt : qty -> bool) (i o : conn) (e : env)
  : list write :=
  wr (is_variable isv (Some filt) (QP (cid o))) (QP (cid o)) (1 / vp e i).

(** Valve.dp_char_func with the default parameter m, piping/valve.py 194-196:
    [g] is the pressure drop read from the characteristic.  Hand-written entries
    251-256. *)
Definition dp_char_func (g : R -> R) (i o : conn) (e : env) : R :=
  vp e i - vp e o - g (vm e i).
(** valve.py 237-256, the hand-written entries *)
Definition dp_char_entries (filt : qty -> bool) (i o : conn) : list write :=
  wr (is_variable isv (Some filt) (QP (cid i))) (QP (cid i)) 1
  ++ wr (is_variable isv None (QP (cid o))) (QP (cid o)) (-1).

(* -------------------------------------------------------------- connections *)

(** Connection.primary_ref_func/primary_ref_deriv,
    src/tespy/connections/connection.py 720-736; [sel] picks the container of
    the referenced quantity. *)
Definition ref_func (q r : qty) (factor delta : R) (e : env) : R :=
  e q - (e r * factor + delta).
(** Connection.primary_ref_deriv, connection.py 730-736 *)
Definition ref_writes (q r : qty) (factor : R) : list write :=
  wr (isv q) q 1 ++ wr (isv r) r (- factor).

(** Connection.T_ref_func/T_ref_deriv, connection.py 760-782, for the
    composition columns: [T] is the temperature as a function of the two
    compositions' entries, [dT] its derivative. *)
Definition tref_fluid_func (Tc Tr : R -> R) (a b : nat) (f : string)
  (factor delta : R) (e : env) : R :=
  Tc (e (QF a f)) - (Tr (e (QF b f)) * factor + delta).
(** Connection.T_ref_deriv, connection.py 768-782, fluid columns *)
Definition tref_fluid_writes (filt : qty -> bool) (dTc dTr : R -> R)
  (a b : nat) (f : string) (e : env) : list write :=
  wr (isv (QF a f)) (QF a f) (dTc (e (QF a f)))
  ++ wr (isv (QF b f) && negb (filt (QF b f))) (QF b f) (- dTr (e (QF b f))).

(** Connection.v_func/v_deriv, connection.py 797-807: volumetric flow; [vol] is
    the specific volume as a function of pressure and enthalpy, the mass flow
    entry is hand-written. *)
Definition v_func (vol : R -> R -> R) (c : conn) (v : R) (e : env) : R :=
  vol (vp e c) (vh e c) * vm e c - v.
(** Connection.v_deriv, connection.py 801-806, mass flow column *)
Definition v_entry (vol : R -> R -> R) (c : conn) (e : env) : list write :=
  wr (isv (QM (cm c))) (QM (cm c)) (vol (vp e c) (vh e c)).

(** Connection.v_ref_func/v_ref_deriv, connection.py 809-833 (mass flow
    columns) *)
Definition vref_func (volc volr : R -> R -> R) (c r : conn) (factor delta : R)
  (e : env) : R :=
  volc (vp e c) (vh e c) * vm e c
  - (volr (vp e r) (vh e r) * vm e r * factor + delta).
(** Connection.v_ref_deriv, connection.py 817-833, mass flow columns *)
Definition vref_entries (volc volr : R -> R -> R) (c r : conn) (factor : R)
  (e : env) : list write :=
  wr (isv (QM (cm c))) (QM (cm c)) (volc (vp e c) (vh e c))
  ++ wr (isv (QM (cm r))) (QM (cm r)) (- (volr (vp e r) (vh e r) * factor)).

(** Connection.x_func/x_deriv, connection.py 841-849 (enthalpy column) *)
Definition x_func (hq : R -> R) (c : conn) (e : env) : R :=
  vh e c - hq (vp e c).
(** Connection.x_deriv, connection.py 846-849, enthalpy column *)
Definition x_entry (c : conn) : list write :=
  wr (isv (QH (cid c))) (QH (cid c)) 1.

(** Connection.fluid_balance_func/fluid_balance_deriv, connection.py 878-885;
    [fixed] are the fluids in [is_set], [vars] those in [is_var]. *)
Definition fluid_balance_func (a : nat) (fixed vars : list string) (e : env)
  : R :=
  1 - fold_left Rplus (map (fun f => e (QF a f)) fixed) 0
  - fold_left Rplus (map (fun f => e (QF a f)) vars) 0.
(** Connection.fluid_balance_deriv, connection.py 884-885 *)
Definition fluid_balance_writes (a : nat) (vars : list string) (e : env)
  : list write :=
  map (fun f => (QF a f, - e (QF a f))) vars.

(* ----------------------------------------------------------------- reactors *)

(** FuelCell.get_mandatory_constraints, reactors/fuel_cell.py 186-189; the fuel
    cell has two outlets, so [self.outl[2]] raises unless the [or] short-cuts. *)
Definition fuel_cell_num_mass_eq (i1 : conn) (outl : list conn) : res nat :=
  match nth_error outl 1 with
  | None => Err IndexError
  | Some o1 =>
      let a := isv (QM (cm i1)) || isv (QM (cm o1)) in
      if isv (QM (cm i1)) then Ok (Nat.b2n a + 1)%nat
      else match nth_error outl 2 with
           | None => Err IndexError
           | Some o2 => Ok (Nat.b2n a + Nat.b2n (isv (QM (cm o2))))%nat
           end
  end.

(** FuelCell.mass_flow_func, reactors/fuel_cell.py 549-558; [i1] oxygen inlet,
    [i2] hydrogen inlet, [o1] water outlet. *)
Definition o2_share (Mo2 Mh2 : R) : R := Mo2 / (Mo2 + 2 * Mh2).
(** FuelCell.mass_flow_func, fuel_cell.py 549-558 *)
Definition fuel_cell_mass_func (Mo2 Mh2 : R) (i1 i2 o1 : conn) (e : env)
  : list R :=
  (if isv (QM (cm i1)) || isv (QM (cm o1))
   then [o2_share Mo2 Mh2 * vm e o1 - vm e i1] else [])
  ++ (if isv (QM (cm i2)) || isv (QM (cm o1))
      then [(1 - o2_share Mo2 Mh2) * vm e o1 - vm e i2] else []).

(** FuelCell.mass_flow_deriv, reactors/fuel_cell.py 594-609: writes per row,
    counted from the first row of the constraint. *)
Definition fuel_cell_mass_rows (Mo2 Mh2 : R) (i1 i2 o1 : conn)
  : list (list write) :=
  (if isv (QM (cm i1)) || isv (QM (cm o1))
   then [wr (isv (QM (cm i1))) (QM (cm i1)) (-1)
         ++ wr (isv (QM (cm o1))) (QM (cm o1)) (o2_share Mo2 Mh2)] else [])
  ++ [wr (isv (QM (cm o1))) (QM (cm o1)) (1 - o2_share Mo2 Mh2)
      ++ wr (isv (QM (cm i2))) (QM (cm i2)) (-1)].

(** FuelCell.calc_P and energy_balance_func, reactors/fuel_cell.py 443, 709-715;
    [hw], [ho], [hh] are the reference enthalpies of water, oxygen, hydrogen. *)
Definition fuel_cell_energy_func (hw ho hh e0 : R) (i0 i1 i2 o0 o1 : conn)
  (P : param) (e : env) : R :=
  pval e P
  - (vm e i2 * (vh e i2 - hh - e0) + vm e i1 * (vh e i1 - ho)
     - vm e i0 * (vh e o0 - vh e i0) - vm e o1 * (vh e o1 - hw)).

(** FuelCell.energy_balance_deriv, reactors/fuel_cell.py 495-529 *)
Definition fuel_cell_energy_writes (hw ho hh e0 : R) (i0 i1 i2 o0 o1 : conn)
  (P : param) (e : env) : list write :=
  wr (isv (QM (cm i0))) (QM (cm i0)) (vh e o0 - vh e i0)
  ++ wr (isv (QH (cid i0))) (QH (cid i0)) (- vm e i0)
  ++ wr (isv (QM (cm o1))) (QM (cm o1)) (vh e o1 - hw)
  ++ wr (isv (QH (cid o1))) (QH (cid o1)) (vm e o1)
  ++ wr (isv (QH (cid o0))) (QH (cid o0)) (vm e i0)
  ++ wr (isv (QM (cm i1))) (QM (cm i1)) (- (vh e i1 - ho))
  ++ wr (isv (QH (cid i1))) (QH (cid i1)) (- vm e i1)
  ++ wr (isv (QM (cm i2))) (QM (cm i2)) (- (vh e i2 - hh - e0))
  ++ wr (isv (QH (cid i2))) (QH (cid i2)) (- vm e i2)
  ++ wr_param P 1.

(** WaterElectrolyzer.get_mandatory_constraints,
    reactors/water_electrolyzer.py 221-224; [i1] water inlet, [o1] oxygen
    outlet, [o2] hydrogen outlet. *)
Definition electrolyzer_num_mass_eq (i1 o1 o2 : conn) : nat :=
  (Nat.b2n (isv (QM (cm i1)) || isv (QM (cm o1)))
   + Nat.b2n (isv (QM (cm i1)) || isv (QM (cm o2))))%nat.

(** WaterElectrolyzer.mass_flow_func, reactors/water_electrolyzer.py 722-732 *)
Definition electrolyzer_mass_func (Mo2 Mh2 : R) (i1 o1 o2 : conn) (e : env)
  : list R :=
  (if isv (QM (cm i1)) || isv (QM (cm o1))
   then [o2_share Mo2 Mh2 * vm e i1 - vm e o1] else [])
  ++ (if isv (QM (cm i1)) || isv (QM (cm o2))
      then [(1 - o2_share Mo2 Mh2) * vm e i1 - vm e o2] else []).

(** WaterElectrolyzer.mass_flow_deriv, reactors/water_electrolyzer.py 769-786 *)
Definition electrolyzer_mass_rows (Mo2 Mh2 : R) (i1 o1 o2 : conn)
  : list (list write) :=
  (if isv (QM (cm i1)) || isv (QM (cm o1))
   then [wr (isv (QM (cm i1))) (QM (cm i1)) (o2_share Mo2 Mh2)
         ++ wr (isv (QM (cm o1))) (QM (cm o1)) (-1)] else [])
  ++ [wr (isv (QM (cm i1))) (QM (cm i1)) (1 - o2_share Mo2 Mh2)
      ++ wr (isv (QM (cm o2))) (QM (cm o2)) (-1)].

(** WaterElectrolyzer.calc_P and energy_balance_func,
    reactors/water_electrolyzer.py 542, 887-893 *)
Definition electrolyzer_energy_func (hw ho hh e0 : R) (i0 i1 o0 o1 o2 : conn)
  (P : param) (e : env) : R :=
  pval e P
  - (- vm e i1 * (vh e i1 - hw) + vm e i0 * (vh e o0 - vh e i0)
     + vm e o1 * (vh e o1 - ho) + vm e o2 * (vh e o2 - hh + e0)).

(** WaterElectrolyzer.energy_balance_deriv, reactors/water_electrolyzer.py
    594-628 *)
Definition electrolyzer_energy_writes (hw ho hh e0 : R)
  (i0 i1 o0 o1 o2 : conn) (P : param) (e : env) : list write :=
  wr (isv (QM (cm i0))) (QM (cm i0)) (vh e i0 - vh e o0)
  ++ wr (isv (QH (cid i0))) (QH (cid i0)) (vm e i0)
  ++ wr (isv (QM (cm i1))) (QM (cm i1)) (vh e i1 - hw)
  ++ wr (isv (QH (cid i1))) (QH (cid i1)) (vm e i1)
  ++ wr (isv (QH (cid o0))) (QH (cid o0)) (- vm e i0)
  ++ wr (isv (QM (cm o1))) (QM (cm o1)) (- (vh e o1 - ho))
  ++ wr (isv (QH (cid o1))) (QH (cid o1)) (- vm e o1)
  ++ wr (isv (QM (cm o2))) (QM (cm o2)) (- (vh e o2 - hh + e0))
  ++ wr (isv (QH (cid o2))) (QH (cid o2)) (- vm e o2)
  ++ wr_param P 1.

(** FuelCell.eta_func/eta_deriv, reactors/fuel_cell.py 272, 303-307 and
    WaterElectrolyzer.eta_func/eta_deriv, water_electrolyzer.py 371, 402-406:
    [hc] is the connection carrying hydrogen. *)
Definition fuel_cell_eta_func (e0 : R) (hc : conn) (P eta : param) (e : env)
  : R := pval e P - pval e eta * vm e hc * e0.
(** FuelCell.eta_deriv, fuel_cell.py 303-307 *)
Definition fuel_cell_eta_writes (e0 : R) (hc : conn) (P eta : param) (e : env)
  : list write :=
  wr (isv (QM (cm hc))) (QM (cm hc)) (- pval e eta * e0)
  ++ wr_param P 1.
(** WaterElectrolyzer.eta_func, water_electrolyzer.py 371 *)
Definition electrolyzer_eta_func (e0 : R) (hc : conn) (P eta : param) (e : env)
  : R := pval e P * pval e eta - vm e hc * e0.
(** WaterElectrolyzer.eta_deriv, water_electrolyzer.py 402-406 *)
Definition electrolyzer_eta_writes (e0 : R) (hc : conn) (P eta : param)
  (e : env) : list write :=
  wr (isv (QM (cm hc))) (QM (cm hc)) (- e0)
  ++ wr_param P (pval e eta).

(** specific_energy_func/deriv, fuel_cell.py 378, 409-416 and
    specific_energy_consumption_func/deriv, water_electrolyzer.py 477, 508-515 *)
Definition spec_energy_func (hc : conn) (P en : param) (e : env) : R :=
  pval e P - vm e hc * pval e en.
(** specific_energy_deriv, fuel_cell.py 409-416, water_electrolyzer.py 508-515 *)
Definition spec_energy_writes (hc : conn) (P en : param) (e : env)
  : list write :=
  wr (isv (QM (cm hc))) (QM (cm hc)) (- pval e en)
  ++ wr_param P 1
  ++ wr_param en (- vm e hc).

End Equations.
