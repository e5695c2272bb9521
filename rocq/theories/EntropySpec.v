(** Thermodynamics of a pure substance or of a mixture of fixed composition. *)
From Coq Require Import Reals.
From Verif Require Import EntropyModel.
Open Scope R_scope.

(** [s] is the entropy as a function of pressure and enthalpy, [T] the temperature and [v] the
    specific volume: T ds = dh - v dp; the enthalpy counts from absolute zero. *)
Record gibbs (s T v : R -> R -> R) : Prop := {
  g_h : forall p h, 0 < p -> 0 < h -> derivable_pt_lim (s p) h (1 / T p h);
  g_p : forall p h, 0 < p -> 0 < h -> derivable_pt_lim (fun p => s p h) p (- v p h / T p h);
  g_T : forall p h, 0 < p -> 0 < h -> 0 < T p h;
  g_v : forall p h, 0 < p -> 0 < h -> 0 < v p h
}.
(** Temperature increases with enthalpy at constant pressure (not strictly: wet steam). *)
Definition heating (T : R -> R -> R) : Prop := forall p h h', 0 < p -> 0 < h -> h <= h' -> T p h <= T p h'.

(** The reported entropy is the one of the state. *)
Definition consistent (s : R -> R -> R) (c : eport) : Prop := e_s c = s (e_p c) (e_h c).
