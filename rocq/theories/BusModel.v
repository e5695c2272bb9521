(** Busses: component values, characteristic efficiencies, the bus equation, its
    Jacobian row and the results written after a calculation.
    Models src/tespy/connections/bus.py (solve, clear_jacobian),
    src/tespy/components/component.py 604-732, bus_func/bus_deriv of the
    components, src/tespy/tools/helpers.py 473-510 and
    src/tespy/networks/network.py 1298-1301, 2440-2457, 2503-2531.

    The unknowns live in numbered containers; [env] gives their values.  Numbers
    are exact rationals.  A division of numpy floats by zero (inf or nan with a
    warning) is reported as ZeroDivisionError. *)
From Coq Require Import QArith Qabs.
From Verif Require Export CharModel NewtonModel.
Open Scope nat_scope.

(** Values of the variables of the system (val_SI of the containers, data_containers.py 300-306) *)
Definition env := nat -> Q.
(** Assignment to one val_SI, as in helpers.py 410-470 *)
Definition upd (e : env) (k : nat) (v : Q) : env :=
  fun j => if Nat.eqb j k then v else e j.

(** Division of Python floats, component.py 635-658 *)
Definition qdiv (a b : Q) : res Q :=
  if Qeq_bool b 0 then Err ZeroDivisionError else Ok (a / b)%Q.

(* --------------------------------------------------------- component values *)

(** The components' contributions.  Containers: mass flow of the inlet,
    enthalpy of the inlet, enthalpy of the outlet.
    - [CFlow false]: Turbomachine (turbomachinery/base.py 185-187), HeatExchanger
      (heat_exchangers/base.py 997-999), SimpleHeatExchanger (simple.py
      757-758): m (h_out - h_in)
    - [CFlow true]: CombustionEngine Q1, Q2 (engine.py 1061-1071): the negative
    - [CEngineQ]: CombustionEngine Q (engine.py 1052-1057)
    - [CElectrolyzerQ]: WaterElectrolyzer Q (water_electrolyzer.py 928-931)
    - [CNone]: every component without a bus function of its own (component.py
      604-618): fuel cell, valve, merge, source, ... *)
Inductive bcomp :=
| CFlow (neg : bool) (m hi ho : nat)
| CEngineQ (m1 hi1 ho1 m2 hi2 ho2 : nat)
| CElectrolyzerQ (m hi ho : nat)
| CNone.

(** m times enthalpy difference, turbomachinery/base.py 185-187 *)
Definition flow_val (e : env) (m hi ho : nat) : Q := (e m * (e ho - e hi))%Q.

(** bus_func of the classes: turbomachinery/base.py 185-187, simple.py 757-758, heat_exchangers/base.py 997-999, engine.py 1042-1086, water_electrolyzer.py 922-944, component.py 618 *)
Definition bus_func (c : bcomp) (e : env) : Q :=
  match c with
  | CFlow false m hi ho => flow_val e m hi ho
  | CFlow true m hi ho => (- flow_val e m hi ho)%Q
  | CEngineQ m1 hi1 ho1 m2 hi2 ho2 =>
      (0 - flow_val e m1 hi1 ho1 - flow_val e m2 hi2 ho2)%Q
  | CElectrolyzerQ m hi ho => (- flow_val e m hi ho)%Q
  | CNone => 0%Q
  end.

(** The containers bus_deriv goes through, in order (turbomachinery/base.py
    221-235, heat_exchangers/base.py 1033-1047, simple.py 792-806, engine.py
    1194-1228, water_electrolyzer.py 1008-1023).  [None]: there is no method
    bus_deriv, the call raises AttributeError. *)
Definition deriv_vars (c : bcomp) : option (list nat) :=
  match c with
  | CFlow _ m hi ho => Some [m; hi; ho]
  | CEngineQ m1 hi1 ho1 m2 hi2 ho2 => Some [m1; hi1; ho1; m2; hi2; ho2]
  | CElectrolyzerQ m hi ho => Some [m; ho; ho]
  | CNone => None
  end.

(* ------------------------------------------------------------ bus efficiency *)

(** bus.py 330-409, column base *)
Inductive base := BaseComponent | BaseBus.

(** A row of [bus.comps] (bus.py add_comps); [b_pref] is [None] for nan. *)
Record brow := {
  b_comp : bcomp; b_base : base; b_char : charline; b_pref : option Q
}.

(** The characteristic given as a number: bus.py, key 'char' of add_comps *)
Definition char_of_number (v : Q) : charline :=
  {| cl_x := [0%Q; 3%Q]; cl_y := [(1 * v)%Q; (1 * v)%Q]; cl_extrapolate := false |}.

(** helpers.py 473-501 *)
Definition bus_char_evaluation (cv : Q) (ch : charline) (ref bv : Q) : res Q :=
  rbind (qdiv bv ref) (fun x => rbind (cl_evaluate ch x) (fun y =>
  rbind (qdiv cv y) (fun q => Ok (bv - q)%Q))).

(** helpers.py 504-510 *)
Definition bus_char_derivative (cv : Q) (ch : charline) (ref bv : Q) : res Q :=
  let d := 1 # 1000 in
  rbind (qdiv (bv + d) ref) (fun xu => rbind (cl_evaluate ch xu) (fun yu =>
  rbind (qdiv 1 yu) (fun u =>
  rbind (qdiv (bv - d) ref) (fun xl => rbind (cl_evaluate ch xl) (fun yl =>
  rbind (qdiv 1 yl) (fun l => Ok (1 - (u - l) / (2 * d))%Q)))))).

(** The call of newton_with_kwargs in calc_bus_expr, component.py 641-657; ERR =
    1e-6 gives the tolerances (helpers.py 514-515). *)
Definition bus_newton_args (cv : Q) (ch : charline) (ref : Q) : newton_args :=
  {| nk_f := bus_char_evaluation cv ch ref; nk_df := bus_char_derivative cv ch ref;
     nk_target := 0; nk_valmin := - (1000000000000000 # 1);
     nk_valmax := 1000000000000000 # 1;
     nk_tol_rel := 1 # 1000000; nk_tol_abs := 1 # 1000000000000; nk_mode := ModeRel |}.

(** Component.calc_bus_expr, component.py 620-658 *)
Definition calc_bus_expr (b : brow) (e : env) : res Q :=
  match b_pref b with
  | None => Ok 1%Q
  | Some ref =>
      if Qeq_bool ref 0 then Ok 1%Q
      else
        let cv := bus_func (b_comp b) e in
        match b_base b with
        | BaseComponent => Ok (Qabs (cv / ref))
        | BaseBus =>
            match newton 14 (bus_newton_args cv (b_char b) ref) ref 10 with
            | Some (Ok o) => Ok (no_x o / ref)%Q
            | Some (Err x) => Err x
            | None => Err RecursionError (* impossible: newton_terminates *)
            end
        end
  end.

(** Component.calc_bus_efficiency, component.py 660-692 *)
Definition calc_bus_efficiency (b : brow) (e : env) : res Q :=
  rbind (calc_bus_expr b e) (cl_evaluate (b_char b)).

(** Component.calc_bus_value, component.py 696-732 *)
Definition calc_bus_value (b : brow) (e : env) : res Q :=
  let cv := bus_func (b_comp b) e in
  rbind (calc_bus_expr b e) (fun x => rbind (cl_evaluate (b_char b) x) (fun y =>
  match b_base b with
  | BaseComponent => Ok (cv * y)%Q
  | BaseBus => qdiv cv y
  end)).

(* -------------------------------------------------------------- bus equation *)

(** [bus.jacobian], a dictionary column -> value; As in bus.py 180-200. *)
Definition jac := list (nat * Q).
(** Look up in that dictionary, bus.py 423-426 *)
Fixpoint jget (c : nat) (j : jac) : option Q :=
  match j with
  | [] => None
  | (c', v) :: r => if Nat.eqb c c' then Some v else jget c r
  end.
(** [if c not in bus.jacobian: bus.jacobian[c] = 0; bus.jacobian[c] -= v] *)
Fixpoint jsub (c : nat) (v : Q) (j : jac) : jac :=
  match j with
  | [] => [(c, (0 - v)%Q)]
  | (c', w) :: r => if Nat.eqb c c' then (c', (w - v)%Q) :: r else (c', w) :: jsub c v r
  end.

Section Unknowns.
(** Per container: is it an unknown, its column, the step of numeric_deriv
    (helpers.py 449-452: 1e-4 for mass flows, 0.1 for enthalpies). *)
Variable is_var : nat -> bool.
Variable col : nat -> nat.
Variable step : nat -> Q.

(** numeric_deriv of calc_bus_value, helpers.py 447-460 *)
Definition bus_numeric_deriv (b : brow) (e : env) (k : nat) : res Q :=
  rbind (calc_bus_value b (upd e k (e k + step k)%Q)) (fun u =>
  rbind (calc_bus_value b (upd e k (e k - step k)%Q)) (fun l =>
  Ok ((u - l) / (2 * step k))%Q)).

(** Loop over the variables in bus_deriv, turbomachinery/base.py 221-235 *)
Fixpoint deriv_loop (b : brow) (e : env) (vars : list nat) (j : jac) : jac * option pyerr :=
  match vars with
  | [] => (j, None)
  | k :: r =>
      if is_var k then
        match bus_numeric_deriv b e k with
        | Err x => (match jget (col k) j with None => j ++ [(col k, 0%Q)] | Some _ => j end, Some x)
        | Ok v => deriv_loop b e r (jsub (col k) v j)
        end
      else deriv_loop b e r j
  end.

(** bus_deriv of the classes, turbomachinery/base.py 221-235, heat_exchangers/base.py 1033-1047 *)
Definition bus_deriv (b : brow) (e : env) (j : jac) : jac * option pyerr :=
  match deriv_vars (b_comp b) with
  | None => (j, Some AttributeError)
  | Some vars => deriv_loop b e vars j
  end.

(** Bus.solve (bus.py, last methods): residual and Jacobian entries. *)
Fixpoint solve_rows (rows : list brow) (e : env) (acc : Q) (j : jac)
  : Q * jac * option pyerr :=
  match rows with
  | [] => (acc, j, None)
  | b :: r =>
      match calc_bus_value b e with
      | Err x => (acc, j, Some x)
      | Ok v =>
          match bus_deriv b e j with
          | (j', Some x) => ((acc - v)%Q, j', Some x)
          | (j', None) => solve_rows r e (acc - v)%Q j'
          end
      end
  end.
(** Bus.solve, bus.py 423-426 *)
Definition bus_solve (P : Q) (rows : list brow) (e : env) (j : jac) : Q * jac * option pyerr :=
  solve_rows rows e P j.

(** Bus.clear_jacobian: the keys stay. bus.py 429-430. *)
Definition clear_jacobian (j : jac) : jac := map (fun cv => (fst cv, 0%Q)) j.

(** The row of the bus in Network.solve_busses, network.py 2446-2457: residual,
    the assignments to the row of the network's matrix of width [nvars] (numpy
    raises IndexError for a column outside), and [bus.jacobian] afterwards. *)
Definition solve_bus (nvars : nat) (P : Q) (rows : list brow) (e : env) (j : jac)
  : res (Q * jac) * jac :=
  match bus_solve P rows e j with
  | (_, j', Some x) => (Err x, j')
  | (r, j', None) =>
      if forallb (fun cv => Nat.ltb (fst cv) nvars) j'
      then (Ok (r, j'), clear_jacobian j')
      else (Err IndexError, j')
  end.
End Unknowns.

(* ------------------------------------------------------------------- results *)

(** network.py 1298-1301: init_design forgets the reference values. *)
Definition reset_pref (b : brow) : brow :=
  {| b_comp := b_comp b; b_base := b_base b; b_char := b_char b; b_pref := None |}.

(** network.py 1904-1913 *)
Inductive mode := Design | Offdesign.

(** network.py 2507-2526: the reference value written for one component; the
    row of the results table is (component value, bus value, efficiency). *)
Definition process_row (md : mode) (b : brow) (e : env) : res (brow * (Q * Q * Q)) :=
  rbind (calc_bus_value b e) (fun bv => rbind (calc_bus_efficiency b e) (fun eff =>
  let cv := bus_func (b_comp b) e in
  let b' := match md with
    | Design => {| b_comp := b_comp b; b_base := b_base b; b_char := b_char b;
        b_pref := Some (match b_base b with BaseComponent => cv | BaseBus => bv end) |}
    | Offdesign => b
    end in
  Ok (b', (cv, bv, eff)))).

(** A bus with its power specification; bus.py 180-200, 223-254. *)
Record bus := { bs_P : Q; bs_P_set : bool; bs_rows : list brow }.

(** network.py 2503-2531: process_busses for one bus; P.val is overwritten. *)
Definition process_bus (md : mode) (s : bus) (e : env) : res (bus * list (Q * Q * Q)) :=
  rbind (rmapM (fun b => process_row md b e) (bs_rows s)) (fun rs =>
  Ok ({| bs_P := fold_left (fun a r => (a + snd (fst (snd r)))%Q) rs 0%Q;
         bs_P_set := bs_P_set s; bs_rows := map fst rs |}, map snd rs)).
