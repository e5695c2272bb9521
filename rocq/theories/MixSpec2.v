(** More vocabulary of the statements about mixtures. *)
From Coq Require Import QArith.
From Verif Require Import Base MixModel MixSpec.
Open Scope Q_scope.

(** Sum over the fluids with a fraction above the precision *)
Definition sum_present (fd : fluids) (g : string -> entry -> Q) : Q :=
  sumd fd (fun k e => if larger (e_frac e) then g k e else 0).
(** The enthalpy of water that is forced to be a gas: on the dew line below the
    saturation temperature of its partial pressure *)
Definition forced_water (w : wrapper) (pp T h : Q) : Prop :=
  (w_pmin w <= pp -> T <= w_Tsat w pp -> h == w_hQT w 1 T)
  /\ (w_pmin w <= pp -> w_Tsat w pp < T -> h == w_hpT w pp T)
  /\ (pp < w_pmin w -> h == w_hpT w pp T).
(** A composition in which the fraction of one fluid is something else *)
Definition with_fraction (k : string) (x : Q) (fd fd' : fluids) : Prop :=
  keys fd' = keys fd /\ (forall k', k' <> k -> dget k' fd' = dget k' fd)
  /\ exists e e', dget k fd = Some e /\ dget k fd' = Some e' /\ e_wr e' = e_wr e /\ e_frac e' == x.
