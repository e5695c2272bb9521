(** C236 - C238: the Newton step and the increments printed per iteration. *)
From Coq Require Import QArith Lqa Lia List String Bool.
From Verif Require Import Base StepModel UpdateSpec StepSpec StepProofs.
Import ListNotations.
Open Scope Q_scope.

(** C236 – the Jacobian times the increments is the negative of the residuals. *)
Theorem C236_increments : forall inv n a inc, inverts inv -> matrix_inversion inv n a = (inc, false) ->
  length inc = n /\ forall i, (i < n)%nat -> sumn n (fun j => ar_jac a i j * nth j inc 0) == - ar_res a i.
Proof. exact step_equation. Qed.
Print Assumptions C236_increments.

(** C236 – if no unknown is changed, all residuals are zero. *)
Theorem C236_fixed_point : forall inv n a inc, inverts inv -> matrix_inversion inv n a = (inc, false) ->
  Forall (fun d => d == 0) inc -> forall i, (i < n)%nat -> ar_res a i == 0.
Proof. exact no_change_solved. Qed.
Print Assumptions C236_fixed_point.

(** C236 – without inverse nothing is changed, and the solution is marked as linear dependent. *)
Theorem C236_singular : forall inv L n vars a s, inv n (ar_jac a) = None ->
  snd (matrix_inversion inv n a) = true /\ Forall (fun d => d == 0) (fst (matrix_inversion inv n a))
  /\ newton_step inv L n vars a s = (s, None).
Proof. exact singular_frozen. Qed.
Print Assumptions C236_singular.

(** C236 – a linear equation in mass flows and enthalpies holds after one step. *)
Theorem C236_linear : forall inv L n vars a inc s s' i terms c,
  inverts inv -> unknowns_ok n vars -> matrix_inversion inv n a = (inc, false) ->
  newton_step inv L n vars a s = (s', None) -> (i < n)%nat ->
  ar_res a i == lin terms c s -> (forall j, (j < n)%nat -> ar_jac a i j == coef vars terms j) ->
  flows_and_enthalpies terms -> lin terms c s' == 0.
Proof. exact flows_solved. Qed.
Print Assumptions C236_linear.

(** C236 – a system of such equations is solved by one step. *)
Theorem C236_linear_system : forall inv L n vars a inc s s' (terms : nat -> list (uvar * Q)) (c : nat -> Q),
  inverts inv -> unknowns_ok n vars -> matrix_inversion inv n a = (inc, false) ->
  newton_step inv L n vars a s = (s', None) ->
  (forall i, (i < n)%nat -> flows_and_enthalpies (terms i) /\ ar_res a i == lin (terms i) (c i) s
     /\ forall j, (j < n)%nat -> ar_jac a i j == coef vars (terms i) j) ->
  forall i, (i < n)%nat -> lin (terms i) (c i) s' == 0.
Proof. exact linear_system_solved. Qed.
Print Assumptions C236_linear_system.

(** C236 – the mass flows of a node are balanced after every step. *)
Theorem C236_mass : forall inv L n vars a inc s s' i isv col ins outs,
  inverts inv -> unknowns_ok n vars -> matrix_inversion inv n a = (inc, false) ->
  newton_step inv L n vars a s = (s', None) -> (i < n)%nat ->
  NoDup (ins ++ outs) ->
  (forall a, column vars (UM a) = if isv a : bool then Some (col a) else None) ->
  (forall a b, isv a = true -> isv b = true -> col a = col b -> a = b) ->
  ar_res a i == node_mass ins outs s ->
  (forall j, (j < n)%nat -> ar_jac a i j == write_jac 0 (node_jac isv col ins outs) (fun _ _ => 0) 0 j) ->
  balanced ins outs s'.
Proof. exact node_solved. Qed.
Print Assumptions C236_mass.

(** C237 – two equal pressures: not equal after the step. *)
Theorem C237_refuted : exists K a inc s s',
  right_inverse 2 (ar_jac a) K /\ matrix_inversion (fun _ _ => Some K) 2 a = (inc, false)
  /\ newton_step (fun _ _ => Some K) w_L 2 w_vars a s = (s', None)
  /\ 0 < v_p s 0%nat /\ 0 < v_p s 1%nat
  /\ (forall s0, lin [(UP 0, 1); (UP 1, -1)] 0 s0 == v_p s0 0%nat - v_p s0 1%nat)
  /\ ar_res a 0%nat == lin [(UP 0, 1); (UP 1, -1)] 0 s /\ (forall j, (j < 2)%nat -> ar_jac a 0%nat j == coef w_vars [(UP 0, 1); (UP 1, -1)] j)
  /\ ~ v_p s' 0%nat == v_p s' 1%nat.
Proof. exact pressure_relaxed. Qed.
Print Assumptions C237_refuted.

(** C237 – linear equations hold after the step if no pressure falls by more than half. *)
Theorem C237_partial : forall inv L n vars a inc s s' i terms c,
  inverts inv -> unknowns_ok n vars -> matrix_inversion inv n a = (inc, false) ->
  newton_step inv L n vars a s = (s', None) -> (i < n)%nat ->
  ar_res a i == lin terms c s -> (forall j, (j < n)%nat -> ar_jac a i j == coef vars terms j) ->
  Forall (fun t => full_step inc vars s (fst t)) terms ->
  lin terms c s' == 0.
Proof. exact linear_solved. Qed.
Print Assumptions C237_partial.

(** C238 – the five printed numbers account for all increments. *)
Theorem C238_total : forall inc names m p h f c,
  printed_increments false false inc names = Some [m; p; h; f; c] ->
  m + p + h + f + c == norm2 inc (seq 0 (length names)).
Proof. exact printed_total. Qed.
Print Assumptions C238_total.

(** C238 – every number is that of the unknowns of its kind. *)
Theorem C238_groups : forall names k,
  (forall name, In k (columns name names) <-> (k < length names)%nat /\ nth k names ""%string = name)
  /\ (In k (columns_else names) <-> (k < length names)%nat /\ ~ In (nth k names ""%string) ["m"; "p"; "h"; "fluid"]%string).
Proof. exact printed_groups. Qed.
Print Assumptions C238_groups.

(** C238 – NaN is printed exactly if there are no residuals or no increments. *)
Theorem C238_nan : forall isnan lin_dep inc names, printed_increments isnan lin_dep inc names = None <-> isnan = true \/ lin_dep = true.
Proof. exact printed_nan. Qed.
Print Assumptions C238_nan.

(** A merge of 2 and 3 kg/s with 1 kg/s as starting value at the outlet. *)
Example C236_ex : inverts x_inv /\ unknowns_ok 1 x_vars /\ snd (matrix_inversion x_inv 1 x_arrays) = false
  /\ v_m (fst (newton_step x_inv w_L 1 x_vars x_arrays x_s)) 2%nat == 5 /\ ~ balanced [0;1]%nat [2%nat] x_s.
Proof.
  split; [exact x_inverts|]. split; [split; repeat constructor; intros []|]. split; [reflexivity|]. split; [reflexivity|discriminate].
Qed.
Example C236_regular_ex : right_inverse 2 w_J w_K.
Proof. exact w_inverse. Qed.
Example C238_ex : printed_increments false false [1; 2; 3; 4] ["h"; "m"; "eta"; "m"]%string = Some [norm2 [1; 2; 3; 4] [1; 3]%nat; 0; norm2 [1; 2; 3; 4] [0%nat]; 0; norm2 [1; 2; 3; 4] [2%nat]]
  /\ norm2 [1; 2; 3; 4] [1; 3]%nat == 20.
Proof. split; reflexivity. Qed.

