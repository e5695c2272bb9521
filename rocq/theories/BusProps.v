(** Busses: C40, and what fails: C79-C83. *)
From Coq Require Import QArith Qabs Lqa List.
From Verif Require Import BusModel BusSpec BusProofs BusWitness.
Import ListNotations.
Open Scope Q_scope.

(* ================================================================== C40 *)

(** The residual is the specified power minus the sum of the contributions. *)
Theorem C40_residual : forall is_var col step P rows e j r j',
  bus_solve is_var col step P rows e j = (r, j', None) ->
  exists vs, bus_values rows e vs /\ r == P - qsum vs /\ (r == 0 <-> P == qsum vs).
Proof.
  intros is_var col step P rows e j r j' H.
  destruct (solve_rows_values _ _ _ _ _ _ _ _ _ H) as (vs & A & E).
  exists vs. split; [exact A | split; [exact E |]]. rewrite E. split; intro Q; lra.
Qed.
Print Assumptions C40_residual.

(** An efficiency given as a number multiplies (base component) or divides (base
    bus) the component value, whatever the reference value. *)
Theorem C40_constant_efficiency : forall c bs eta ref e, ~ eta == 0 ->
  exists v,
    calc_bus_value {| b_comp := c; b_base := bs; b_char := char_of_number eta; b_pref := ref |} e = Ok v
    /\ match bs with
       | BaseComponent => v == bus_func c e * eta
       | BaseBus => v == bus_func c e / eta
       end.
Proof.
  intros c bs eta ref e N.
  destruct (constant_value {| b_comp := c; b_base := bs; b_char := char_of_number eta; b_pref := ref |}
              e eta N (number_constant eta)) as (v & V & Q).
  exists v. split; [exact V |]. unfold gain in Q. cbn [b_base b_comp] in Q.
  destruct bs; rewrite Q; [ring | field; exact N].
Qed.
Print Assumptions C40_constant_efficiency.

(** Base component: the efficiency is read at the load of the component. *)
Theorem C40_component_load : forall c ch ref e eta, ~ ref == 0 ->
  cl_evaluate ch (Qabs (bus_func c e / ref)) = Ok eta ->
  calc_bus_value {| b_comp := c; b_base := BaseComponent; b_char := ch; b_pref := Some ref |} e
  = Ok (bus_func c e * eta).
Proof.
  intros c ch ref e eta N H. unfold calc_bus_value, calc_bus_expr.
  cbn [b_pref b_base b_comp b_char].
  destruct (Qeq_bool ref 0) eqn:Z; [apply Qeq_bool_iff in Z; contradiction |].
  cbn [rbind]. rewrite H. reflexivity.
Qed.
Print Assumptions C40_component_load.

(** The reference value stored by a design calculation makes a calculation at
    the same state reproduce bus value and efficiency, with relative load one. *)
Theorem C40_design_point : forall b e b' cv bv eff,
  process_row Design (reset_pref b) e = Ok (b', (cv, bv, eff)) ->
  (b_base b = BaseBus -> forall ref, b_pref b' = Some ref -> ~ ref == 0 ->
     ~ eff == 0
     /\ (exists d, bus_char_derivative cv (b_char b) ref ref = Ok d /\ ~ d == 0)
     /\ - (1000000000000000 # 1) <= ref <= 1000000000000000 # 1) ->
  req (calc_bus_value b' e) (Ok bv) /\ req (calc_bus_efficiency b' e) (Ok eff)
  /\ req (calc_bus_expr b' e) (Ok 1).
Proof. exact design_point. Qed.
Print Assumptions C40_design_point.

(** The Jacobian row is the derivative of the residual: for any number of
    turbomachines, heat exchangers and engines on the bus, with arbitrary
    constant efficiencies, and any sharing of containers between components. *)
Theorem C40_jacobian : forall is_var col step,
  (forall k, 0 < step k) ->
  (forall k l, is_var k = true -> is_var l = true -> col k = col l -> k = l) ->
  forall P rows e k, Forall plain_row rows -> is_var k = true ->
  exists r j, bus_solve is_var col step P rows e [] = (r, j, None)
    /\ forall d, exists r' j',
         bus_solve is_var col step P rows (upd e k (e k + d)) [] = (r', j', None)
         /\ r' == r + row_value (col k) j * d.
Proof. exact bus_jacobian_exact. Qed.
Print Assumptions C40_jacobian.

(** For any characteristics the entries are the central differences of the
    residual with the steps of numeric_deriv. *)
Theorem C40_jacobian_central : forall is_var col step,
  (forall k, 0 < step k) ->
  (forall k l, is_var k = true -> is_var l = true -> col k = col l -> k = l) ->
  forall P rows e k r j,
  Forall (fun b => regular (b_comp b)) rows -> is_var k = true ->
  bus_solve is_var col step P rows e [] = (r, j, None) ->
  exists us ls, bus_values rows (upd e k (e k + step k)) us
    /\ bus_values rows (upd e k (e k - step k)) ls
    /\ row_value (col k) j == ((P - qsum us) - (P - qsum ls)) / (2 * step k).
Proof. exact bus_jacobian_central. Qed.
Print Assumptions C40_jacobian_central.

Example C40_example :
  (let '(r, j, err) := bus_solve (fun _ => true) (fun k => k) ex_step (-(1700)) ex_rows ex_env [] in
  (Qred r, map (fun cv => (fst cv, Qred (snd cv))) j, err))
  = (60, [(0%nat, 880); (1%nat, 9#5); (2%nat, -(9#5)); (3%nat, 4); (4%nat, -(4))], None).
Proof. vm_compute. reflexivity. Qed.
Example C40_example_plain : Forall plain_row ex_rows.
Proof.
  repeat constructor; cbn; try (intuition discriminate); try (intuition Lia.lia).
  - exists (9#10). split; [intro H; discriminate H | apply number_constant].
  - exists (1#2). split; [intro H; discriminate H | apply number_constant].
Qed.

(* =============================================== C79: specified power replaced *)

(** The results replace the specified bus power by the sum of the contributions:
    it changes by the residual of the bus equation. *)
Theorem C79_power_kept_refuted : exists s e s' res, bs_P_set s = true
  /\ process_bus Design s e = Ok (s', res) /\ bs_P_set s' = true /\ ~ bs_P s' == bs_P s.
Proof.
  exists {| bs_P := -(1700); bs_P_set := true; bs_rows := ex_rows |}, ex_env.
  do 2 eexists. split; [reflexivity |]. split; [vm_compute; reflexivity |].
  split; [reflexivity |]. intro H. vm_compute in H. discriminate H.
Qed.
Print Assumptions C79_power_kept_refuted.

Theorem C79_power_kept_partial : forall is_var col step md s e j s' res r j',
  bus_solve is_var col step (bs_P s) (bs_rows s) e j = (r, j', None) ->
  process_bus md s e = Ok (s', res) ->
  bs_P s' == bs_P s - r.
Proof. exact power_drift. Qed.
Print Assumptions C79_power_kept_partial.

(* ============================================== C80: load of the base 'bus' *)

Theorem C80_bus_load_refuted : exists b e ref v w yv yw,
  b_base b = BaseBus /\ b_pref b = Some ref
  /\ (* a solution *) cl_evaluate (b_char b) (w / ref) = Ok yw
  /\ w * yw == bus_func (b_comp b) e
  /\ (* the value used *) calc_bus_value b e = Ok v
  /\ cl_evaluate (b_char b) (v / ref) = Ok yv
  /\ 1 < Qabs (v - bus_func (b_comp b) e / yv).
Proof.
  exists osc_row, osc_env, 1.
  assert (C : osc_check osc_row osc_env = true) by (vm_compute; reflexivity).
  apply osc_check_sound in C. destruct C as (v & yv & V & Y & L).
  exists v, 2, yv. eexists.
  split; [reflexivity | split; [reflexivity |]].
  split; [vm_compute; reflexivity |]. split; [vm_compute; reflexivity |].
  split; [exact V |]. split; [exact Y | exact L].
Qed.
Print Assumptions C80_bus_load_refuted.

(* ================================================== C81: wrong Jacobian rows *)

Theorem C81_electrolyzer_refuted : exists is_var col step P rows e r j k d r' j',
  (forall k, 0 < step k)
  /\ bus_solve is_var col step P rows e [] = (r, j, None) /\ is_var k = true
  /\ bus_solve is_var col step P rows (upd e k (e k + d)) [] = (r', j', None)
  /\ ~ r' == r + row_value (col k) j * d.
Proof.
  exists (fun _ => true), (fun k => k), ex_step, 0, el_rows, ex_env.
  eexists. eexists. exists 1%nat, 1. do 2 eexists.
  split; [intros [| k]; reflexivity |].
  split; [vm_compute; reflexivity |]. split; [reflexivity |].
  split; [vm_compute; reflexivity |]. intro H. vm_compute in H. discriminate H.
Qed.
Print Assumptions C81_electrolyzer_refuted.

Theorem C81_engine_refuted : exists is_var col step P rows e r j k d r' j',
  (forall k, 0 < step k)
  /\ bus_solve is_var col step P rows e [] = (r, j, None) /\ is_var k = true
  /\ bus_solve is_var col step P rows (upd e k (e k + d)) [] = (r', j', None)
  /\ ~ r' == r + row_value (col k) j * d.
Proof.
  exists (fun _ => true), (fun k => k), ex_step, 0, en_rows, ex_env.
  eexists. eexists. exists 0%nat, 1. do 2 eexists.
  split; [intros [| k]; reflexivity |].
  split; [vm_compute; reflexivity |]. split; [reflexivity |].
  split; [vm_compute; reflexivity |]. intro H. vm_compute in H. discriminate H.
Qed.
Print Assumptions C81_engine_refuted.

(* ============================================= C82: columns of earlier runs *)

(** The columns of an earlier run stay in the bus.  A later run with fewer
    unknowns fails although all its own columns are inside the matrix. *)
Theorem C82_second_run_refuted : exists is_var col col' step n n' P rows e j1 j2 r row,
  (* first run, n unknowns *)
  solve_bus is_var col step n P rows e [] = (Ok (r, row), j1)
  (* a fresh bus would work with n' unknowns *)
  /\ (exists r' row' j', solve_bus is_var col' step n' P rows e [] = (Ok (r', row'), j'))
  /\ solve_bus is_var col' step n' P rows e j1 = (Err IndexError, j2).
Proof.
  exists (fun k => Nat.ltb k 3), (fun k => (k + 3)%nat), (fun k => k), ex_step, 6%nat, 3%nat, 0, ex_rows, ex_env.
  do 4 eexists. split; [vm_compute; reflexivity |].
  split; [do 3 eexists; vm_compute; reflexivity | vm_compute; reflexivity].
Qed.
Print Assumptions C82_second_run_refuted.

(** As long as no exception occurs, the left-over columns do not change the row,
    and they stay zero. *)
Theorem C82_second_run_partial : forall is_var col step n P rows e j r row j' c,
  (forall c, row_value c j == 0) ->
  solve_bus is_var col step n P rows e j = (Ok (r, row), j') ->
  exists row', bus_solve is_var col step P rows e [] = (r, row', None)
    /\ row_value c row == row_value c row' /\ forall c, row_value c j' == 0.
Proof. exact stale_zero_harmless. Qed.
Print Assumptions C82_second_run_partial.

(** After an exception the entries of the components already treated remain and
    are added to the row of the next run. *)
Theorem C82_after_exception_refuted : exists is_var col step n P rows rows' e j r row r0 row0 j' j0 c x,
  solve_bus is_var col step n P rows' e [] = (Err x, j)
  /\ solve_bus is_var col step n P rows e j = (Ok (r, row), j')
  /\ solve_bus is_var col step n P rows e [] = (Ok (r0, row0), j0)
  /\ ~ row_value c row == row_value c row0.
Proof.
  exists (fun _ => true), (fun k => k), ex_step, 5%nat, 0, ex_rows,
    (ex_rows ++ [{| b_comp := CNone; b_base := BaseComponent; b_char := char_of_number 1; b_pref := None |}]),
    ex_env.
  do 7 eexists. exists 0%nat. eexists.
  split; [vm_compute; reflexivity |]. split; [vm_compute; reflexivity |].
  split; [vm_compute; reflexivity |]. intro H. vm_compute in H. discriminate H.
Qed.
Print Assumptions C82_after_exception_refuted.

(* ==================================== C83: components without a bus function *)

(** A bus with specified power that contains a component without derivative
    method (fuel cell, valve, ...) cannot be solved. *)
Theorem C83_any_component_refuted : exists is_var col step P rows e r j,
  bus_solve is_var col step P rows e [] = (r, j, Some AttributeError).
Proof.
  exists (fun _ => true), (fun k => k), ex_step, 0,
    [{| b_comp := CNone; b_base := BaseComponent; b_char := char_of_number 1; b_pref := None |}], ex_env.
  do 2 eexists. vm_compute. reflexivity.
Qed.
Print Assumptions C83_any_component_refuted.

(** Without specified power such a component is reported with value zero. *)
Theorem C83_reported_zero_partial : forall bs eta ref e, ~ eta == 0 ->
  exists v, calc_bus_value {| b_comp := CNone; b_base := bs; b_char := char_of_number eta; b_pref := ref |} e = Ok v
    /\ v == 0.
Proof.
  intros bs eta ref e N.
  destruct (constant_value {| b_comp := CNone; b_base := bs; b_char := char_of_number eta; b_pref := ref |}
              e eta N (number_constant eta)) as (v & V & Q).
  exists v. split; [exact V |]. rewrite Q. cbn [bus_func b_comp]. ring.
Qed.
Print Assumptions C83_reported_zero_partial.
