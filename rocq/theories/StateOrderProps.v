(** C261, C262: the order in which connections were added. *)
From Coq Require Import QArith Permutation.
From Verif Require Import Base UnitsModel StateModel StateSpec StateWitness StateOrderSpec StateOrderProofs StateOrderWitness.
Open Scope string_scope.
Open Scope list_scope.

(** C261 – without references the order of the connections has no effect at all: both
    calculations raise, or both end with the same connections. *)
Theorem C261_order : forall units a file sol net net', NoDup (keys net) -> Permutation net net' -> no_references net ->
  permuted (solve units a file sol net) (solve units a file sol net').
Proof. exact order_solve. Qed.
Print Assumptions C261_order.

(** C261 – with references, if the calculation ends in both orders, a connection without reference
    of pressure and enthalpy has the same results, flags and equations. References of other
    connections, and of mass flow, temperature and volumetric flow, do not matter. *)
Theorem C261_results : forall units a file sol net net' out out' l c, labelled net -> Permutation net net' ->
  solve units a file sol net = Ok out -> solve units a file sol net' = Ok out' -> dget l net = Some c -> unreferenced c "p" -> unreferenced c "h" ->
  exists o o', dget l out = Some o /\ dget l out' = Some o' /\ alike o o'.
Proof. exact order_results. Qed.
Print Assumptions C261_results.

(** C261 – the unknowns, the equations and the specified values are the same for all connections. *)
Theorem C261_system : forall units a file net net' out out' l c, labelled net -> Permutation net net' ->
  initialise units a file net = Ok out -> initialise units a file net' = Ok out' -> dget l net = Some c ->
  exists o o', dget l out = Some o /\ dget l out' = Some o' /\ n_eqs o = n_eqs o'
    /\ forall k, k_var (n_c o k) = k_var (n_c o' k) /\ (isset o k = true -> k_var (n_c o k) = false -> SI o k = SI o' k).
Proof. exact order_system. Qed.
Print Assumptions C261_system.

Example C261_ex :
  SI_of (solve (si []) no_guess None (finds 100000 0) forward) "1" "T" = SI_of (solve (si []) no_guess None (finds 100000 0) backward) "1" "T"
  /\ option_map (option_map Qred) (SI_of (solve (si []) no_guess None (finds 100000 0) backward) "1" "T") = Some (Some 100%Q).
Proof. vm_compute. auto. Qed.

(** C262 – the starting value of an unknown with reference depends on the order. *)
Theorem C262_start_refuted : exists units a net net' out out' o o', Permutation net net' /\ NoDup (keys net)
  /\ initialise units a None net = Ok out /\ initialise units a None net' = Ok out' /\ dget "3" out = Some o /\ dget "3" out' = Some o'
  /\ k_var (n_c o "p") = true /\ ~ same (SI o "p") (SI o' "p").
Proof. exact start_differs. Qed.
Print Assumptions C262_start_refuted.

(** C262 – so does whether a calculation raises. *)
Theorem C262_raise_refuted : exists units a sol net net' out, Permutation net net' /\ NoDup (keys net)
  /\ solve units a None sol net = Ok out /\ solve units a None sol net' = Err ValueError.
Proof. exact raise_differs. Qed.
Print Assumptions C262_raise_refuted.
