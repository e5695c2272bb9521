(** Vocabulary for solar collectors and steam turbines. *)
From Coq Require Import Reals.
From Verif Require Import SolarModel.
Open Scope R_scope.

(** scipy's search: the end points must have different signs; a root between them,
    the first end point if it is one. *)
Definition searches (f : steam) : Prop :=
  (forall g a b x, brentq f g a b = Ok x -> g x = 0 /\ Rmin a b <= x <= Rmax a b) /\
  (forall g a b, 0 < g a * g b -> brentq f g a b = Err ValueError) /\
  (forall g a b, g a = 0 -> brentq f g a b = Ok a).
(** Expansion without change of pressure changes nothing. *)
Definition isentropic_at (f : steam) : Prop := forall p h, his f p h p = h.
(** Efficiency of an expansion from a state to a pressure. *)
Definition expands (f : steam) (p h p' h' eta : R) : Prop := h' = h - eta * (h - his f p h p').
