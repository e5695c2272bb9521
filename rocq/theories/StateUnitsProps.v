(** Properties of one network entered in two sets of units (C253-C254). *)
From Coq Require Import QArith.
From Verif Require Import Base UnitsModel StateModel StateSpec StateWitness StateUnitsSpec StateUnitsProofs2 StateUnitsWitness.
Open Scope string_scope.
Open Scope list_scope.

(* --------------------------------------------------------------- C253 *)
(** The same system is set up: equations, unknowns, SI values of all connections. *)
Theorem C253_system : forall u1 u2 a n1 n2, units_ok u1 -> units_ok u2 -> NoDup (keys n1) -> twins u1 u2 n1 n2 -> plainly u1 u2 n1 n2 ->
  agree (paired (fun c1 c2 => n_eqs c1 = n_eqs c2 /\ forall k, k_var (n_c c1 k) = k_var (n_c c2 k) /\ same (k_SI (n_c c1 k)) (k_SI (n_c c2 k))))
    (initialise u1 a None n1) (initialise u2 a None n2).
Proof. exact units_initialise. Qed.
Print Assumptions C253_system.
(** The same results are reported, each in its own units, and the networks are still the
    same but for the units. *)
Theorem C253_results : forall u1 u2 a sol n1 n2, units_ok u1 -> units_ok u2 -> NoDup (keys n1) -> twins u1 u2 n1 n2 -> plainly u1 u2 n1 n2 ->
  agree (fun m1 m2 => twins u1 u2 m1 m2 /\ plainly u1 u2 m1 m2 /\ paired (reports_same u1 u2) m1 m2) (solve u1 a None sol n1) (solve u2 a None sol n2).
Proof. exact units_solve. Qed.
Print Assumptions C253_results.
(** The same holds for any number of calculations one after the other. *)
Theorem C253_history : forall u1 u2 runs, units_ok u1 -> units_ok u2 -> forall n1 n2, NoDup (keys n1) -> twins u1 u2 n1 n2 -> plainly u1 u2 n1 n2 ->
  agree (fun m1 m2 => twins u1 u2 m1 m2 /\ plainly u1 u2 m1 m2) (solves u1 runs n1) (solves u2 runs n2).
Proof. exact units_solves. Qed.
Print Assumptions C253_history.
Example C253_example : units_ok metric /\ units_ok other /\ twins metric other entered_metric entered_other /\ plainly metric other entered_metric entered_other.
Proof. exact (conj metric_ok (conj other_ok (conj entered_twins entered_plainly))). Qed.
Example C253_example_results :
  SI_at (solve metric no_guess None (finds 100000 0) entered_metric) "1" "h" = Ok (Some 300000%Q) /\
  SI_at (solve other no_guess None (finds 100000 0) entered_other) "1" "h" = Ok (Some 300000%Q) /\
  SI_at (initialise other no_guess None entered_other) "2" "m" = Ok (Some 1%Q).
Proof. vm_compute. auto. Qed.

(* --------------------------------------------------------------- C254 *)
(** 5 K and 9 degrees Fahrenheit above the boiling temperature: different results. *)
Theorem C254_boiling_refuted : exists u1 u2 a sol n1 n2, units_ok u1 /\ units_ok u2 /\ NoDup (keys n1) /\ twins u1 u2 n1 n2 /\
  (forall l c, dget l n1 = Some c -> flow_alike u1 u2 c) /\ differ (solve u1 a None sol n1) (solve u2 a None sol n2) "h".
Proof.
  exact (ex_intro _ metric (ex_intro _ fahrenheit (ex_intro _ no_guess (ex_intro _ (finds 100000 0) (ex_intro _ (boiling 5 1) (ex_intro _ (boiling 9 1)
    (conj metric_ok (conj fahrenheit_ok (conj (NoDup_cons "1" (@in_nil _ "1") (NoDup_nil _)) (conj boiling_twins (conj boiling_flow boiling_differ))))))))))).
Qed.
Print Assumptions C254_boiling_refuted.
(** An unknown mass flow: the calculation starts from different mass flows. *)
Theorem C254_flow_refuted : exists u1 u2 a n1 n2, units_ok u1 /\ units_ok u2 /\ NoDup (keys n1) /\ twins u1 u2 n1 n2 /\
  differ (initialise u1 a None n1) (initialise u2 a None n2) "m".
Proof.
  exact (ex_intro _ metric (ex_intro _ tons (ex_intro _ no_guess (ex_intro _ unknown_flow (ex_intro _ unknown_flow
    (conj metric_ok (conj tons_ok (conj (NoDup_cons "1" (@in_nil _ "1") (NoDup_nil _)) (conj unknown_twins unknown_differ))))))))).
Qed.
Print Assumptions C254_flow_refuted.
