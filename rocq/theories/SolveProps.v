(** C22: only determined systems are solved.  C23: reported convergence is real.
    C62: convergence means two consecutive small residuals.  C63: the reported
    values satisfy the equations.  C64: abort for lack of progress. *)
From Coq Require Import QArith Qabs.
From Verif Require Import Base SolveModel SolveSpec SolveProofs.
Open Scope nat_scope.
Open Scope list_scope.

(** Different numbers of equations and unknowns: TESPyNetworkError, no
    iteration, state untouched, not converged, no postprocessing. *)
Theorem C22_undetermined_rejected : forall (S0 : Type) (step : S0 -> S0 * res (fnum * bool)) n_eq n_vars min_iter max_iter ld s,
  n_eq <> n_vars ->
  let r := solve S0 step n_eq n_vars min_iter max_iter ld s in
  oc_err (fst r) = Some TESPyNetworkError /\ oc_hist (fst r) = [] /\ oc_state (fst r) = s /\
  oc_conv (fst r) = false /\ snd r = false.
Proof. exact @solve_undetermined. Qed.
Print Assumptions C22_undetermined_rejected.

(** Equal numbers: the Newton loop runs. *)
Theorem C22_determined_solved : forall (S0 : Type) (step : S0 -> S0 * res (fnum * bool)) n min_iter max_iter ld s,
  1 <= max_iter ->
  fst (solve S0 step n n min_iter max_iter ld s) = solve_loop S0 step min_iter max_iter ld s.
Proof. exact @solve_determined. Qed.
Print Assumptions C22_determined_solved.

(** The flag converged implies: between min_iter and max_iter iterations were
    executed, the Jacobian was regular in the last one, and the norms recorded
    for the last and (if there is one) the last but one are numbers below the
    tolerance; the recorded norms are those of the executed iterations. *)
Theorem C23_converged_sound : forall (S0 : Type) (step : S0 -> S0 * res (fnum * bool)) min_iter max_iter ld s o,
  o = solve_loop S0 step min_iter max_iter ld s -> oc_conv o = true ->
  exists l, trace step s l (oc_state o) /\ oc_hist o = map fst l /\
    1 <= length l /\ min_iter <= length l <= max_iter /\ oc_lindep o = Some false /\ oc_err o = None /\
    small (last (map fst l) NaN) /\ (2 <= length l -> small (nth (length l - 2) (map fst l) NaN)).
Proof. exact @converged_sound. Qed.
Print Assumptions C23_converged_sound.

(** Not converged means: no progress, singular Jacobian or all iterations used. *)
Theorem C23_unconverged_reason : forall (S0 : Type) (step : S0 -> S0 * res (fnum * bool)) min_iter max_iter ld s o,
  o = solve_loop S0 step min_iter max_iter ld s -> oc_conv o = false -> oc_err o = None ->
  oc_progress o = false \/ oc_lindep o = Some true \/ length (oc_hist o) = max_iter.
Proof. exact @unconverged_reason. Qed.
Print Assumptions C23_unconverged_reason.

(** The loop never runs past an iteration that passes the test. *)
Theorem C23_stops_at_first_success : forall (S0 : Type) (step : S0 -> S0 * res (fnum * bool)) min_iter max_iter ld s o,
  o = solve_loop S0 step min_iter max_iter ld s ->
  forall k, S k < length (oc_hist o) -> min_iter <= S k ->
  ~ (small (nth k (oc_hist o) NaN) /\ (1 <= k -> small (nth (k - 1) (oc_hist o) NaN))).
Proof. exact @stops_at_first. Qed.
Print Assumptions C23_stops_at_first_success.

(** Results are computed exactly after runs without exception, singular
    Jacobian or lack of progress (also if max_iter was reached). *)
Theorem C23_postprocessing_condition : forall (S0 : Type) (step : S0 -> S0 * res (fnum * bool)) n_eq n_vars min_iter max_iter ld s,
  let r := solve S0 step n_eq n_vars min_iter max_iter ld s in
  snd r = true <-> oc_err (fst r) = None /\ oc_lindep (fst r) = Some false /\ oc_progress (fst r) = true.
Proof. exact @postprocess_iff. Qed.
Print Assumptions C23_postprocessing_condition.

(* Newton iteration for x^2 = 4 from 10: converges within 9 iterations. *)
Example ex_newton : let o := solve_loop Q (newton_step (fun x => x * x - 4)%Q (fun x => 2 * x)%Q) 4 50 None 10%Q in
  oc_conv o = true /\ length (oc_hist o) = 7 /\ oc_lindep o = Some false /\ Qle_bool (Qabs (oc_state o - 2)) (1 # 1000) = true.
Proof. vm_compute. auto. Qed.
Example ex_singular : let o := solve_loop Q (newton_step (fun x => x * x - 4)%Q (fun x => 2 * x)%Q) 4 50 None 0%Q in
  oc_conv o = false /\ length (oc_hist o) = 1 /\ oc_lindep o = Some true.
Proof. vm_compute. auto. Qed.
Example ex_stagnates : let o := solve_loop nat (fun x => (S x, Ok (Fin 1, false))) 4 50 None 0 in
  oc_conv o = false /\ length (oc_hist o) = 42 /\ oc_progress o = false.
Proof. vm_compute. auto. Qed.
Example ex_nan : let o := solve_loop nat (fun x => (S x, Ok (NaN, false))) 4 50 None 0 in
  oc_conv o = false /\ length (oc_hist o) = 50 /\ oc_progress o = true.
Proof. vm_compute. auto. Qed.
Example ex_no_iteration : snd (solve nat (fun x => (S x, Ok (NaN, false))) 1 1 4 0 None 0) = false /\
  oc_err (fst (solve nat (fun x => (S x, Ok (NaN, false))) 1 1 4 0 None 0)) = Some AttributeError.
Proof. vm_compute. auto. Qed.

(** With min_iter = 1 a single small residual is enough. *)
Theorem C62_single_iteration_refuted : exists (step : Q -> Q * res (fnum * bool)) s,
  let o := solve_loop Q step 1 50 None s in
  oc_conv o = true /\ length (oc_hist o) = 1.
Proof. exists (newton_step (fun x => x)%Q (fun _ => 1)%Q), 0%Q. vm_compute. auto. Qed.
Print Assumptions C62_single_iteration_refuted.

(** It holds for min_iter at least two. *)
Theorem C62_two_small_residuals_partial : forall (S0 : Type) (step : S0 -> S0 * res (fnum * bool)) min_iter max_iter ld s o,
  2 <= min_iter -> o = solve_loop S0 step min_iter max_iter ld s -> oc_conv o = true ->
  2 <= length (oc_hist o) /\ small (nth (length (oc_hist o) - 1) (oc_hist o) NaN) /\
  small (nth (length (oc_hist o) - 2) (oc_hist o) NaN).
Proof. exact @two_small. Qed.
Print Assumptions C62_two_small_residuals_partial.

(** The residual is not evaluated again after the last update: a system
    without any solution (x^2 + 1e-8 = 0) is reported as converged with the
    default settings, at a value where the residual exceeds a million. *)
Theorem C63_reported_values_refuted : exists f df x,
  (forall y, 0 < f y)%Q /\
  let o := solve_loop Q (newton_step f df) 4 50 None x in
  oc_conv o = true /\ (1000000 <= Qabs (f (oc_state o)))%Q.
Proof. exact bad_values. Qed.
Print Assumptions C63_reported_values_refuted.

(** What holds: the state before the last update has a small residual. *)
Theorem C63_residual_before_last_update_partial : forall (S0 : Type) (step : S0 -> S0 * res (fnum * bool)) min_iter max_iter ld s o,
  o = solve_loop S0 step min_iter max_iter ld s -> oc_conv o = true ->
  exists s1 n d, step s1 = (oc_state o, Ok (n, d)) /\ small n.
Proof. exact @converged_before_update. Qed.
Print Assumptions C63_residual_before_last_update_partial.

(** A run whose residual falls by more than five per cent in every iteration is
    never aborted for lack of progress. *)
Theorem C64_no_abort_while_falling : forall (S0 : Type) (step : S0 -> S0 * res (fnum * bool)) min_iter max_iter ld s o,
  o = solve_loop S0 step min_iter max_iter ld s ->
  (forall k, S k < length (oc_hist o) -> falls (nth k (oc_hist o) NaN) (nth (S k) (oc_hist o) NaN)) ->
  oc_progress o = true.
Proof. exact @no_abort_while_falling. Qed.
Print Assumptions C64_no_abort_while_falling.

(** An abort needs 42 iterations and four last residuals that are all at least
    95 per cent of the third last; the run is then not converged. *)
Theorem C64_abort_condition : forall (S0 : Type) (step : S0 -> S0 * res (fnum * bool)) min_iter max_iter ld s o,
  o = solve_loop S0 step min_iter max_iter ld s ->
  oc_progress o = false -> 42 <= length (oc_hist o) /\ oc_conv o = false /\
  forall k, length (oc_hist o) - 4 <= k < length (oc_hist o) ->
    fge (nth k (oc_hist o) NaN) (f95 (nth (length (oc_hist o) - 3) (oc_hist o) NaN)) = true.
Proof. exact @abort_only_after_41. Qed.
Print Assumptions C64_abort_condition.

(** A run that stands still above the tolerance is stopped after 42 iterations
    at the latest. *)
Theorem C64_standstill_stopped : forall (S0 : Type) (step : S0 -> S0 * res (fnum * bool)) min_iter max_iter ld s o q,
  o = solve_loop S0 step min_iter max_iter ld s -> (0 <= q)%Q ->
  (forall k, k < length (oc_hist o) -> nth k (oc_hist o) NaN = Fin q) -> length (oc_hist o) <= 42.
Proof. exact @standstill_stopped. Qed.
Print Assumptions C64_standstill_stopped.
