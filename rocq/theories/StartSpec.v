(** Starting values of compositions. *)
From Coq Require Import QArith.
From Verif Require Import Base MassModel FluidModel FluidSpec.
Open Scope list_scope.

(** The fluid occurs at a connection of the group. *)
Definition occurs (s : fstate) (conns : list nat) (f : string) : Prop := exists d, In d conns /\ In f (keys (frac s d)).
(** The starting value the user gave with fluid0, or the share of one fluid if all have the same. *)
Definition start_value (s : fstate) (fluids : list string) (c : nat) (f : string) : Q :=
  match dget f (fc_val0 (cont_of s c)) with Some q => q | None => (1 / inject_Z (Z.of_nat (length fluids)))%Q end.
(** The compositions of connections are stored separately. *)
Definition own_values (s : fstate) (conns : list nat) : Prop :=
  forall c d, In c conns -> In d conns -> fc_val (cont_of s c) = fc_val (cont_of s d) -> c = d.
(** The branches are made of the connections. *)
Definition branches_of (conns : list nat) (bs : list (list nat)) : Prop :=
  NoDup (concat bs) /\ ~ In [] bs /\ forall c, In c (concat bs) <-> In c conns.
(** The list has each fluid that occurs once. *)
Definition fluids_of (s : fstate) (conns : list nat) (fluids : list string) : Prop :=
  NoDup fluids /\ forall f, In f fluids <-> occurs s conns f.
(** The preparation of compositions: propagation and reduction. *)
Definition composed (conns : list nat) (bs : list (list nat)) (s s' : fstate) : Prop :=
  exists s0, propagate conns s = (s0, None) /\ presolve_fluids bs s0 = (s', None).
(** Every fluid that occurs has a value at every connection, as after a calculation. *)
Definition calculated (s : fstate) (conns : list nat) : Prop := forall c f, In c conns -> occurs s conns f -> In f (keys (frac s c)).
