(** Assembly of the residual vector and of the Jacobian in one iteration.
    Models src/tespy/networks/network.py 2306-2318 (order of the blocks in
    solve_control), 2388-2457 (solve_components, solve_connections,
    solve_user_defined_eq, solve_busses) and
    src/tespy/components/component.py 577-602 (Component.solve). *)
From Coq Require Export QArith.
From Verif Require Export Base.
Open Scope nat_scope.
Open Scope list_scope.

(** A component, connection, bus or user defined equation after its solve():
    number of equations, residual values, Jacobian dictionary with keys (local
    row, column). For busses and user defined equations the keys are columns
    only; here they carry the local row 0. *)
Record eqobj := { eo_num : nat; eo_res : list Q; eo_jac : list ((nat * nat) * Q) }.

(** The numpy arrays [residual] and [jacobian] of the network. network.py 2017-2068. *)
Record arrays := { ar_res : nat -> Q; ar_jac : nat -> nat -> Q }.

(** [self.residual[sum_eq:sum_eq + len] = values]. network.py 2393-2457. *)
Definition write_res (sum : nat) (l : list Q) (r : nat -> Q) : nat -> Q :=
  fun i => if Nat.leb sum i && Nat.ltb i (sum + length l) then nth (i - sum) l 0%Q else r i.

(** [self.jacobian[rows, columns] = data] (2400-2403): the entries one by one. *)
Definition write_entry (sum : nat) (J : nat -> nat -> Q) (e : (nat * nat) * Q) : nat -> nat -> Q :=
  fun i j => if Nat.eqb i (fst (fst e) + sum) && Nat.eqb j (snd (fst e)) then snd e else J i j.
(** network.py 2393-2457: all entries of the Jacobian dictionary of an object *)
Definition write_jac (sum : nat) (d : list ((nat * nat) * Q)) (J : nat -> nat -> Q) : nat -> nat -> Q :=
  fold_left (write_entry sum) d J.

(** 2394-2405, 2412-2423, 2430-2439: the row counter advances only if the
    object wrote Jacobian entries. *)
Fixpoint solve_block (sum : nat) (os : list eqobj) (a : arrays) : arrays :=
  match os with
  | [] => a
  | o :: os' =>
      let r := write_res sum (eo_res o) (ar_res a) in
      match eo_jac o with
      | [] => solve_block sum os' {| ar_res := r; ar_jac := ar_jac a |}
      | d => solve_block (sum + eo_num o) os' {| ar_res := r; ar_jac := write_jac sum d (ar_jac a) |}
      end
  end.

(** 2445-2457: busses (only those with a specified value are in the list); the
    row counter always advances. *)
Fixpoint solve_busses (sum : nat) (os : list eqobj) (a : arrays) : arrays :=
  match os with
  | [] => a
  | o :: os' =>
      solve_busses (sum + 1) os'
        {| ar_res := write_res sum (eo_res o) (ar_res a); ar_jac := write_jac sum (eo_jac o) (ar_jac a) |}
  end.

(** num_comp_eq, num_conn_eq, num_bus_eq, num_ude_eq (network.py 1376, 1764,
    1300, 2073). *)
Definition total (os : list eqobj) : nat := list_sum (map eo_num os).

(** The objects of a network at one iteration. network.py 2393-2457. *)
Record snapshot := { sn_comps : list eqobj; sn_conns : list eqobj; sn_busses : list eqobj; sn_udes : list eqobj }.
(** network.py 2073-2121: the number of equations required *)
Definition num_equations (n : snapshot) : nat :=
  total (sn_comps n) + total (sn_conns n) + length (sn_busses n) + length (sn_udes n).

(** 2306-2318: components, busses, connections, user defined equations. *)
Definition assemble (n : snapshot) (a : arrays) : arrays :=
  let nc := total (sn_comps n) in
  let nn := total (sn_conns n) in
  let nb := length (sn_busses n) in
  solve_block (nc + nn + nb) (sn_udes n)
    (solve_block nc (sn_conns n)
      (solve_busses (nc + nn) (sn_busses n)
        (solve_block 0 (sn_comps n) a))).

(** The iterations of a run: the arrays are created once (2018-2021) and then
    only written to. *)
Definition zeros : arrays := {| ar_res := fun _ => 0%Q; ar_jac := fun _ _ => 0%Q |}.
(** network.py 2017-2068: iterations one after the other, starting with zero arrays *)
Definition run (ns : list snapshot) : arrays := fold_left (fun a n => assemble n a) ns zeros.

(** component.py 586-602: the equation groups of one component (mandatory
    constraints, then specified parameters): announced number of equations,
    values returned by the function, Jacobian entries with local rows counted
    within the group. *)
Record eqgroup := { g_num : nat; g_vals : list Q; g_jac : list ((nat * nat) * Q) }.

(** numpy assignment of a sequence to a slice of [n] elements: equal length, or
    length one repeated, else ValueError. As in network.py 2393-2423. *)
Definition slice_values (n : nat) (l : list Q) : res (list Q) :=
  if Nat.eqb (length l) n then Ok l
  else match l with
       | [v] => Ok (repeat v n)
       | _ => Err ValueError
       end.

(** 586-602, result: the residual values and Jacobian dictionary. A group with
    zero equations does not assign (589, for constraints). *)
Fixpoint comp_solve (sum : nat) (gs : list eqgroup) : res (list Q * list ((nat * nat) * Q)) :=
  match gs with
  | [] => Ok ([], [])
  | g :: gs' =>
      rbind (if Nat.eqb (g_num g) 0 then Ok [] else slice_values (g_num g) (g_vals g)) (fun v =>
      rbind (comp_solve (sum + g_num g) gs') (fun r =>
      Ok (v ++ fst r, map (fun e => ((fst (fst e) + sum, snd (fst e)), snd e)) (g_jac g) ++ snd r)))
  end.
