(** C21: every equation gets its own row.
    C61: an equation without unknowns is not lost. *)
From Coq Require Import QArith.
From Verif Require Import Base AssemblyModel AssemblySpec AssemblyProofs AssemblyWitness.
Open Scope nat_scope.
Open Scope list_scope.

(** One iteration, arbitrary previous contents of the arrays: object after
    object has its residuals and Jacobian entries in its own consecutive rows,
    entries it did not write are left, rows beyond the number of equations are
    not touched. *)
Theorem C21_rows_of_one_iteration : forall n a, wf_snapshot n -> all_have_unknowns n ->
  (forall l1 o l2, objects n = l1 ++ o :: l2 -> forall r, r < eo_num o ->
     ar_res (assemble n a) (total l1 + r) = nth r (eo_res o) 0%Q /\
     (forall c v, entry (eo_jac o) r c = Some v -> ar_jac (assemble n a) (total l1 + r) c = v) /\
     (forall c, entry (eo_jac o) r c = None -> ar_jac (assemble n a) (total l1 + r) c = ar_jac a (total l1 + r) c)) /\
  (forall i, total (objects n) <= i -> ar_res (assemble n a) i = ar_res a i /\ forall c, ar_jac (assemble n a) i c = ar_jac a i c) /\
  total (objects n) = num_equations n.
Proof. exact assemble_rows. Qed.
Print Assumptions C21_rows_of_one_iteration.

(** The rows 0..n-1 are shared out: each belongs to exactly one equation. *)
Theorem C21_every_row_has_an_owner : forall os i, i < total os ->
  exists l1 o l2 r, os = l1 ++ o :: l2 /\ r < eo_num o /\ i = total l1 + r.
Proof. exact row_owner. Qed.
Print Assumptions C21_every_row_has_an_owner.
Theorem C21_row_owner_unique : forall os l1 o l2 r l1' o' l2' r',
  os = l1 ++ o :: l2 -> os = l1' ++ o' :: l2' -> r < eo_num o -> r' < eo_num o' ->
  total l1 + r = total l1' + r' -> l1 = l1' /\ o = o' /\ r = r'.
Proof. exact row_unique. Qed.
Print Assumptions C21_row_owner_unique.

(** After any number of iterations the arrays hold exactly the current values:
    nothing stale from an earlier iteration although they are never cleared. *)
Theorem C21_no_stale_entries : forall n ns,
  Forall wf_snapshot (n :: ns) -> Forall all_have_unknowns (n :: ns) -> chain n ns ->
  forall l1 o l2, objects (last ns n) = l1 ++ o :: l2 -> forall r, r < eo_num o ->
  ar_res (run (n :: ns)) (total l1 + r) = nth r (eo_res o) 0%Q /\
  (forall c v, entry (eo_jac o) r c = Some v -> ar_jac (run (n :: ns)) (total l1 + r) c = v) /\
  (forall c, entry (eo_jac o) r c = None -> ar_jac (run (n :: ns)) (total l1 + r) c = 0%Q).
Proof. exact run_exact. Qed.
Print Assumptions C21_no_stale_entries.

(** Within a component the equation groups occupy consecutive rows as well. *)
Theorem C21_rows_within_component : forall gs,
  (forall g r c v, In g gs -> In ((r, c), v) (g_jac g) -> r < g_num g) ->
  forall sum vs d, comp_solve sum gs = Ok (vs, d) ->
  length vs = list_sum (map g_num gs) /\
  (forall r c, entry d r c <> None -> sum <= r < sum + list_sum (map g_num gs)) /\
  forall l1 g l2, gs = l1 ++ g :: l2 -> forall r, r < g_num g ->
    (length (g_vals g) = g_num g -> nth (list_sum (map g_num l1) + r) vs 0%Q = nth r (g_vals g) 0%Q) /\
    (length (g_vals g) = g_num g \/ length (g_vals g) = 1) /\
    forall c, entry d (sum + list_sum (map g_num l1) + r) c = entry (g_jac g) r c.
Proof. exact comp_solve_rows. Qed.
Print Assumptions C21_rows_within_component.

(** If some component, connection or user defined equation has equations but no
    unknown then the first Jacobian has a row of zeros (it is singular and the
    calculation stops). *)
Theorem C21_equation_without_unknown_singular : forall n a, wf_snapshot n -> (forall i c, ar_jac a i c = 0%Q) ->
  (exists o, In o (sn_comps n ++ sn_conns n ++ sn_udes n) /\ ~ has_unknown o) ->
  exists i, i < num_equations n /\ forall c, ar_jac (assemble n a) i c = 0%Q.
Proof. exact zero_row. Qed.
Print Assumptions C21_equation_without_unknown_singular.

Example ex_assembled : map (ar_res (assemble ex_n zeros)) (seq 0 7) = [1; 2; 3; 4; 5; 6; 0]%Q /\
  map (fun i => map (ar_jac (assemble ex_n zeros) i) (seq 0 4)) (seq 0 6) =
    [[10; 0; 0; 0]; [0; 0; 0; 11]; [0; 12; 0; 0]; [0; 0; 13; 0]; [0; 0; 0; 0]; [14; 0; 0; 0]]%Q.
Proof. vm_compute. auto. Qed.
Example ex_wf : wf_snapshot ex_n /\ all_have_unknowns ex_n.
Proof.
  split; [split|].
  - wf_objs.
  - intros o [<-|[<-|[]]]; reflexivity.
  - intros o [<-|[<-|[<-|[<-|[<-|[]]]]]]; unfold has_unknown; cbn; auto; right; discriminate.
Qed.

Theorem C61_equation_without_unknown_lost_refuted : exists n, wf_snapshot n /\
  (exists o, In o (objects n) /\ In 5%Q (eo_res o)) /\
  forall i, ar_res (assemble n zeros) i = 0%Q.
Proof.
  exists lost. split; [split|split].
  - wf_objs.
  - intros o [].
  - exists (ex_o 1 [5]%Q []). cbn. auto.
  - intros [|i]; [reflexivity|]. cbn. unfold write_res. cbn. destruct i; reflexivity.
Qed.
Print Assumptions C61_equation_without_unknown_lost_refuted.

(** It is kept if every object has an unknown. *)
Theorem C61_equation_kept_partial : forall n a l1 o l2 r, wf_snapshot n -> all_have_unknowns n ->
  objects n = l1 ++ o :: l2 -> r < eo_num o -> ar_res (assemble n a) (total l1 + r) = nth r (eo_res o) 0%Q.
Proof. exact residual_kept. Qed.
Print Assumptions C61_equation_kept_partial.
