(** C165-C167: the cone law of turbines. *)
From Coq Require Import Reals Lra.
From Verif Require Import ConeModel ConeSpec ConeProofs.
Open Scope R_scope.

(** C165 – for an expansion the equation holds exactly for the nonnegative flow on the ellipse through the design point. *)
Theorem C165_ellipse : forall d s,
  expands d -> gas s -> c_po s <= c_p s -> (cone_func d s = 0 <-> 0 <= c_m s /\ ellipse d s).
Proof. exact cone_ellipse. Qed.
Print Assumptions C165_ellipse.

(** C165 – with the pressures and the volume of the design state it holds for the design mass flow only. *)
Theorem C165_design : forall d m,
  expands d -> (cone_func d {| c_m := m; c_p := d_p d; c_v := d_v d; c_po := d_pr d * d_p d |} = 0 <-> m = d_m d).
Proof. exact cone_design. Qed.
Print Assumptions C165_design.

(** C165 – at the same inlet state a lower outlet pressure goes with a larger mass flow. *)
Theorem C165_monotone : forall d s s',
  expands d -> gas s -> gas s' -> c_p s' = c_p s -> c_v s' = c_v s -> c_po s' < c_po s -> c_po s <= c_p s ->
  cone_func d s = 0 -> cone_func d s' = 0 -> c_m s < c_m s'.
Proof. exact cone_monotone. Qed.
Print Assumptions C165_monotone.

(** A turbine of 2 kg/s from 10 to 0 and its design state. *)
Example C165_ex : expands {| d_m := 2; d_p := 10; d_v := 1; d_pr := 0 |} /\ gas {| c_m := 2; c_p := 10; c_v := 1; c_po := 0 * 10 |} /\
  cone_func {| d_m := 2; d_p := 10; d_v := 1; d_pr := 0 |} {| c_m := 2; c_p := 10; c_v := 1; c_po := 0 * 10 |} = 0.
Proof.
  assert (E : expands {| d_m := 2; d_p := 10; d_v := 1; d_pr := 0 |}) by (repeat split; cbn; lra). split; [exact E|]. split; [repeat split; cbn; lra|].
  exact (proj2 (cone_design _ 2 E) eq_refl).
Qed.

(** C166 – false: the equation is satisfied with a positive mass flow although the outlet pressure is above the inlet pressure. *)
Theorem C166_reverse_refuted : exists d s, expands d /\ gas s /\ c_p s < c_po s /\ 0 < c_m s /\ cone_func d s = 0.
Proof. exact cone_reverse. Qed.
Print Assumptions C166_reverse_refuted.

(** C167 – false: documentation and report have the specific volumes the other way round. *)
Theorem C167_documentation_refuted : exists d s, expands d /\ gas s /\ c_po s <= c_p s /\ cone_func d s = 0 /\ documented d s <> 0.
Proof. exact cone_undocumented. Qed.
Print Assumptions C167_documentation_refuted.

(** C167 – they agree where the specific volume is that of the design state. *)
Theorem C167_documentation_partial : forall d s,
  expands d -> gas s -> c_po s <= c_p s -> c_v s = d_v d -> documented d s = cone_func d s.
Proof. exact cone_documented. Qed.
Print Assumptions C167_documentation_partial.
