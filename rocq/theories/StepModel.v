(** The Newton step: increments from Jacobian and residuals, and the line printed per iteration.
    Models src/tespy/networks/network.py 2148-2210 (iterinfo_body, without formats; progress is
    ProgressModel), 2228-2245 (matrix_inversion), 2317-2323 (its use in solve_control), and
    components/nodes/base.py 40-78 (mass balance of nodes).
    The inverse of numpy is a parameter: [None] is LinAlgError.  Rationals, no rounding. *)
From Coq Require Export QArith.
From Verif Require Export Base AssemblyModel UpdateModel.
Open Scope nat_scope.
Open Scope list_scope.

(** The sum in numpy.dot, network.py 2239-2241 *)
Fixpoint sumn (n : nat) (f : nat -> Q) : Q :=
  match n with 0 => 0%Q | S k => (sumn k f + f k)%Q end.
(** network.py 2228-2245: the increments and [lin_dep] *)
Definition matrix_inversion (inv : nat -> (nat -> nat -> Q) -> option (nat -> nat -> Q)) (n : nat) (a : arrays)
  : list Q * bool :=
  match inv n (ar_jac a) with
  | Some K => (map (fun i => sumn n (fun k => K i k * - ar_res a k)%Q) (seq 0 n), false)
  | None => (map (fun i => ar_res a i * 0)%Q (seq 0 n), true)
  end.
(** network.py 2317-2323: the step without the checks of check_variable_bounds *)
Definition newton_step (inv : nat -> (nat -> nat -> Q) -> option (nat -> nat -> Q)) (L : limits) (n : nat)
  (vars : list (uvar * nat)) (a : arrays) (s : vstate) : out :=
  let '(inc, lin_dep) := matrix_inversion inv n a in
  if lin_dep then (s, None) else update_variables L inc vars s.

(* ------------------------------------------------------------ mass balance *)

(** NodeBase.mass_flow_func, nodes/base.py 40-46; the containers of the mass flows *)
Definition node_mass (ins outs : list nat) (s : vstate) : Q :=
  fold_left (fun r a => r - v_m s a)%Q outs (fold_left (fun r a => r + v_m s a)%Q ins 0%Q).
(** NodeBase.mass_flow_deriv, nodes/base.py 62-78, for the first row of the component *)
Definition node_jac (is_var : nat -> bool) (col : nat -> nat) (ins outs : list nat) : list ((nat * nat) * Q) :=
  map (fun a => ((0, col a), 1%Q)) (filter is_var ins)
  ++ map (fun a => ((0, col a), (-1)%Q)) (filter is_var outs).

(* ------------------------------------------------------------ printed line *)

(** network.py 2150-2155: the columns whose unknown is [name]; [names] is
    variables_dict[k]["variable"] by column *)
Definition columns (name : string) (names : list string) : list nat :=
  filter (fun k => String.eqb (nth k names ""%string) name) (seq 0 (length names)).
(** network.py 2155: all other columns *)
Definition columns_else (names : list string) : list nat :=
  let known := columns "m"%string names ++ columns "p"%string names ++ columns "h"%string names ++ columns "fluid"%string names in
  filter (fun k => negb (existsb (Nat.eqb k) known)) (seq 0 (length names)).
(** The square of [norm(self.increment[l])], network.py 2174-2178 *)
Definition norm2 (inc : list Q) (l : list nat) : Q :=
  fold_right Qplus 0%Q (map (fun k => nth k inc 0 * nth k inc 0)%Q l).
(** The squares of the five numbers printed, in the order of the columns; network.py 2157-2178.
    [isnan]: the norm of the residuals is nan.  [None] is the text NaN *)
Definition printed_increments (isnan lin_dep : bool) (inc : list Q) (names : list string) : option (list Q) :=
  if isnan || lin_dep then None
  else Some [norm2 inc (columns "m"%string names); norm2 inc (columns "p"%string names); norm2 inc (columns "h"%string names);
             norm2 inc (columns "fluid"%string names); norm2 inc (columns_else names)].
