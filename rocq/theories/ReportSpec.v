(** Vocabulary of the statements about reported parameters, mean temperature
    differences and friction losses.  Nothing here refers to the model. *)
From Coq Require Import Reals.
Open Scope R_scope.

Definition between (a b t : R) : Prop := Rmin a b <= t <= Rmax a b.

(** [t] is the logarithmic mean of the positive numbers [a] and [b] *)
Definition is_log_mean (a b t : R) : Prop :=
  0 < t /\ between a b t /\ t * (ln a - ln b) = a - b.

(** the pressure drops in the direction of the flow *)
Definition drops_along_flow (m p_i p_o : R) : Prop :=
  (0 < m -> p_o < p_i) /\ (m < 0 -> p_i < p_o).

Definition strictly_increasing_pos (f : R -> R) : Prop :=
  forall x y, 0 < x -> x < y -> f x < f y.
Definition strictly_decreasing_pos (f : R -> R) : Prop :=
  forall x y, 0 < x -> x < y -> f y < f x.

Definition one_positive_zero (f : R -> R) : Prop :=
  exists x, 0 < x /\ f x = 0 /\ forall y, 0 < y -> f y = 0 -> y = x.
