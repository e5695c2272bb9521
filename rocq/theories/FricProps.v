(** C146: flow and pressure loss of pipes. *)
From Coq Require Import Reals Lra.
From Verif Require Import ReportModel ReportProofs FricSpec FricProofs.
Open Scope R_scope.

(** C146 – for every pipe there is a pressure loss that no mass flow has: the factor jumps
    up where the flow turns turbulent. *)
Theorem C146_no_flow_always : forall L D ks visc vs p_i,
  0 < L -> 0 < D -> 0 <= ks -> 0 < visc -> 0 < vs ->
  exists p_o, p_o < p_i /\ forall m lam, is_factor (reynolds m D visc) ks D (lam (reynolds m D visc)) -> darcy_eq lam L D visc m vs p_i p_o <> 0.
Proof. exact pressure_without_flow. Qed.
Print Assumptions C146_no_flow_always.

(** C146 – a larger mass flow may have a smaller pressure loss: the factor jumps down at
    the Reynolds number 10000. *)
Theorem C146_more_flow_refuted : exists L D ks visc vs m m' lam p_i p_o p_o',
  0 < L /\ 0 < D /\ 0 <= ks /\ 0 < visc /\ 0 < vs /\ 0 < m /\ m < m' /\
  is_factor (reynolds m D visc) ks D (lam (reynolds m D visc)) /\ is_factor (reynolds m' D visc) ks D (lam (reynolds m' D visc)) /\
  darcy_eq lam L D visc m vs p_i p_o = 0 /\ darcy_eq lam L D visc m' vs p_i p_o' = 0 /\ p_o < p_o'.
Proof. exact more_flow_less_drop. Qed.
Print Assumptions C146_more_flow_refuted.

(** C146 – within one flow regime a larger mass flow has a larger pressure loss.
    Missing: flows in different regimes. *)
Theorem C146_same_regime_partial : forall g L D ks visc vs m m' lam p_i p_o p_o',
  0 < L -> 0 < D -> 0 <= ks -> 0 < visc -> 0 < vs -> m_min <= m -> m < m' ->
  in_regime g (reynolds m D visc) ks D -> in_regime g (reynolds m' D visc) ks D ->
  is_factor (reynolds m D visc) ks D (lam (reynolds m D visc)) -> is_factor (reynolds m' D visc) ks D (lam (reynolds m' D visc)) ->
  darcy_eq lam L D visc m vs p_i p_o = 0 -> darcy_eq lam L D visc m' vs p_i p_o' = 0 -> p_o' < p_o.
Proof. exact more_flow_same_regime. Qed.
Print Assumptions C146_same_regime_partial.

Example C146_ex : in_regime Laminar (reynolds 1 (4 / PI) (2 / 1000)) 0 (4 / PI) /\ is_factor (reynolds 1 (4 / PI) (2 / 1000)) 0 (4 / PI) (64 / 1000).
Proof.
  assert (E : reynolds 1 (4 / PI) (2 / 1000) = 1000). { unfold reynolds. rewrite Rabs_right by lra. pose proof PI_RGT_0. field. lra. }
  rewrite E. split; [cbn; lra|]. unfold is_factor, darcy_friction_factor. rewrite leb_t by lra. reflexivity.
Qed.
