(** What a convergence check of a turbomachine has to establish. *)
From Coq Require Import QArith Bool.
From Verif Require Import Base UpdateModel.

(** Pressure rises from inlet to outlet, or stays. *)
Definition p_rises (i o : conn) (s : vstate) : Prop := (v_p s (k_id i) <= v_p s (k_id o))%Q.
(** Enthalpy rises, or stays. *)
Definition h_rises (i o : conn) (s : vstate) : Prop := (v_h s (k_id i) <= v_h s (k_id o))%Q.
(** Pressure falls. *)
Definition p_falls (i o : conn) (s : vstate) : Prop := (v_p s (k_id o) < v_p s (k_id i))%Q.
(** Enthalpy falls. *)
Definition h_falls (i o : conn) (s : vstate) : Prop := (v_h s (k_id o) < v_h s (k_id i))%Q.

(** Positive pressures at inlet and outlet. *)
Definition p_positive (i o : conn) (s : vstate) : Prop := (0 < v_p s (k_id i))%Q /\ (0 < v_p s (k_id o))%Q.
(** Positive enthalpies at inlet and outlet. *)
Definition h_positive (i o : conn) (s : vstate) : Prop := (0 < v_h s (k_id i))%Q /\ (0 < v_h s (k_id o))%Q.

(** Inlet and outlet are different connections. *)
Definition two (i o : conn) : Prop := k_id i <> k_id o.

(** The pressure (enthalpy) of one of both may be corrected. *)
Definition p_free (X : unknowns) (i o : conn) : Prop := x_p X (k_id i) = true \/ x_p X (k_id o) = true.
(** The same for the enthalpy. *)
Definition h_free (X : unknowns) (i o : conn) : Prop := x_h X (k_id i) = true \/ x_h X (k_id o) = true.

(** Two states have the same values. *)
Definition same_values (s t : vstate) : Prop :=
  (forall n, v_m s n = v_m t n) /\ (forall n, v_p s n = v_p t n) /\ (forall n, v_h s n = v_h t n).
