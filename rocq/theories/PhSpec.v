(** Vocabulary of the statements about properties from pressure and enthalpy. *)
From Coq Require Import QArith.
From Verif Require Import Base MixModel MixSpec.
Open Scope Q_scope.

(** The same number or the same error *)
Definition agree (a b : res Q) : Prop :=
  match a, b with Ok x, Ok y => x == y | Err e, Err e' => e = e' | _, _ => False end.
(** The functions of the fluids do not depend on how a temperature is written *)
Definition respects (fd : fluids) : Prop := forall k e, dget k fd = Some e -> forall p T T', T == T' ->
  w_spT (e_wr e) p T == w_spT (e_wr e) p T' /\ w_dpT (e_wr e) p T == w_dpT (e_wr e) p T'
  /\ w_vis (e_wr e) p T == w_vis (e_wr e) p T'.
(** Entropy linear in the temperature at each pressure *)
Definition linear_s (fd : fluids) (c : string -> Q) (d : string -> Q -> Q) : Prop :=
  forall k e, dget k fd = Some e -> 0 < c k /\ forall p T, w_spT (e_wr e) p T == c k * T + d k p.
