(** A network calculated again without changes. *)
From Coq Require Import QArith.
From Verif Require Import Base UnitsModel StateModel StateSpec.
Open Scope string_scope.
Open Scope list_scope.

(** The same is specified, the same is unknown, the same equations are solved. *)
Definition same_problem (c c' : conn) : Prop :=
  (forall k, k_set (n_c c' k) = k_set (n_c c k)) /\ (forall k, In k ["m"; "p"; "h"] -> k_var (n_c c' k) = k_var (n_c c k)) /\ n_eqs c' = n_eqs c.
(** A specification stands for the same SI value as before. *)
Definition keeps (units : string -> string) (c c' : conn) (k : string) : Prop :=
  forall v, wanted units c k v -> exists v', wanted units c' k v' /\ v' == v.
(** The temperature of a pure fluid is always found, that of a mixture if the enthalpy is
    found again. *)
Definition found (c : conn) : Prop :=
  f_mixture (n_fluid c) = false \/
  forall p h T hT, k_SI (n_c c "p") = Some p -> k_SI (n_c c "h") = Some h -> f_Tph (n_fluid c) p h = Ok T -> f_hpT (n_fluid c) p T = Ok hT -> close hT h.
(** Pressure, enthalpy and mass flow have the volumetric flow. *)
Definition has_flow (c : conn) (v : Q) : Prop :=
  exists p h m s, k_SI (n_c c "p") = Some p /\ k_SI (n_c c "h") = Some h /\ k_SI (n_c c "m") = Some m /\ f_vph (n_fluid c) p h = Ok s /\ s * m == v.
(** The vapour content is not lost: a mixture, a specified difference to the boiling
    temperature, or a pressure with a boiling temperature. *)
Definition boils (c : conn) : Prop :=
  f_mixture (n_fluid c) = true \/ k_set (n_c c "Td_bp") = true \/ exists p Ts, k_SI (n_c c "p") = Some p /\ f_Tsat (n_fluid c) p = Ok Ts.
