(** Vocabulary of the statements about mass flow branches. *)
From Coq Require Import QArith.
From Verif Require Import Base ModeModel ModeSpec.
Open Scope string_scope.
Open Scope list_scope.

(** Every connection uses its own mass flow container, as when it was created *)
Definition own (st : net) : Prop :=
  NoDup (keys (t_conns st)) /\ forall l c, dget l (t_conns st) = Some c ->
    n_m c = l /\ n_tmp c = None /\ exists k, dget l (t_m st) = Some k.
(** The branches are disjoint lists of connections of the network *)
Definition disjoint_branches (st : net) : Prop :=
  NoDup (concat (t_branches st)) /\ forall b l, In b (t_branches st) -> In l b -> In l (keys (t_conns st)).
(** The mass flow is in no parameter list of a branch *)
Definition mass_unlisted (st : net) (b : list string) : Prop :=
  forall l c, In l b -> dget l (t_conns st) = Some c -> ~ In "m" (n_des c) /\ ~ In "m" (n_off c).
