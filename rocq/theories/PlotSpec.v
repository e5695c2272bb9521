(** What plotting data have to say. *)
From Coq Require Import String List Bool Arith.
From Verif Require Import Base PlotModel.
Import ListNotations.

(** The line starts at the state [a]: the values of the isoline and of the starting point are
    those of [a], for two different properties. *)
Definition starts_at {V} (l : pline V) (a : sprop -> V) : Prop :=
  iso_value l = a (iso_property l) /\ start_value l = a (start_property l) /\ iso_property l <> start_property l.

(** The line ends at the state [b]. *)
Definition ends_at {V} (l : pline V) (b : sprop -> V) : Prop :=
  iso_value_end l = b (iso_property l) /\ end_value l = b (end_property l) /\ iso_property l <> end_property l.

(** The line is an isoline: its property has the same value at both ends. *)
Definition isoline {V} (l : pline V) : Prop := iso_value l = iso_value_end l.

(** Some entry of the plotting data is such a line. *)
Definition some_line {V} (d : list (nat * pline V)) (P : pline V -> Prop) : Prop :=
  exists k l, In (k, l) d /\ P l.
