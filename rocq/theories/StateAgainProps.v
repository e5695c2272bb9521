(** C255, C256: a network calculated again without changes. *)
From Coq Require Import QArith.
From Verif Require Import Base UnitsModel StateModel StateSpec StateWitness StateUnitsSpec StateAgainSpec StateAgainProofs StateAgainProofs2 StateAgainWitness.
Open Scope string_scope.
Open Scope list_scope.

(* --------------------------------------------------------------- C255 *)
(** After a calculation the next one has the same unknowns and equations, whatever was
    found, whatever the units and starting values are. *)
Theorem C255_system : forall units units' a a' file file' sol net net' net'' l c', labelled net -> solve units a file sol net = Ok net' ->
  initialise units' a' file' net' = Ok net'' -> dget l net' = Some c' -> exists c'', dget l net'' = Some c'' /\ same_problem c' c''.
Proof. exact again_system. Qed.
Print Assumptions C255_system.
(** So do all calculations after the first one. *)
Theorem C255_history : forall units runs a sol net net' net'' l c', labelled net -> solve units a None sol net = Ok net' ->
  solves units runs net' = Ok net'' -> dget l net' = Some c' -> exists c'', dget l net'' = Some c'' /\ same_problem c' c''.
Proof. exact again_history. Qed.
Print Assumptions C255_history.
(** Specified values stand for the same SI values afterwards: mass flow, pressure, enthalpy
    and the difference to the boiling temperature always, the vapour content unless it is
    lost, temperature and volumetric flow if the solution has them. *)
Theorem C255_kept : forall units a sol net net' l c, labelled net -> solve units a None sol net = Ok net' -> dget l net = Some c ->
  exists c', dget l net' = Some c' /\ (forall k, In k ["m"; "p"; "h"; "Td_bp"] -> keeps units c c' k) /\ (boils c' -> keeps units c c' "x") /\
    (found c' -> (forall v, wanted units c "T" v -> satisfied c' "T" v) -> keeps units c c' "T") /\
    (found c' -> (forall v, wanted units c "v" v -> has_flow c' v) -> keeps units c c' "v").
Proof. exact kept_specs. Qed.
Print Assumptions C255_kept.
(** What is no unknown of the second calculation has the value of the first one, also if it
    is calculated in advance from temperature, vapour content or boiling temperature. *)
Theorem C255_fixed : forall units a a' sol net net' net'' l c c' c'' k s, labelled net -> solve units a None sol net = Ok net' ->
  initialise units a' None net' = Ok net'' -> dget l net = Some c -> dget l net' = Some c' -> dget l net'' = Some c'' ->
  consistent (n_fluid c) -> respectful (n_fluid c) -> found c' -> (wants c "x" -> boils c') -> ~ In "Td_bp" (keys (n_off c)) ->
  unreferenced c "p" -> unreferenced c "h" -> In k ["m"; "p"; "h"] -> unreferenced c k -> k_var (n_c c'' k) = false -> k_SI (n_c c' k) = Some s ->
  exists s'', k_SI (n_c c'' k) = Some s'' /\ s'' == s.
Proof. exact again_fixed. Qed.
Print Assumptions C255_fixed.
Example C255_example :
  holds (rbind (solve (si [("T", "C")]) no_guess None (finds 100000 300000) [("1", flowing); ("2", warm)]) (initialise (si [("T", "C")]) no_guess None)) (fun net =>
    at_label "1" net (fun c => n_eqs c = ["v"] /\ k_var (n_c c "m") = true /\ k_var (n_c c "h") = false /\ option_map Qred (k_SI (n_c c "h")) = Some 2573150%Q) /\
    at_label "2" net (fun c => n_eqs c = ["T"] /\ k_var (n_c c "p") = true /\ option_map Qred (k_SI (n_c c "p")) = Some 100000%Q)).
Proof. vm_compute. auto 20. Qed.

(* --------------------------------------------------------------- C256 *)
(** A calculation that does not satisfy a specified temperature replaces it: the next one
    solves for another temperature. *)
Theorem C256_temperature_refuted : exists units a sol net net' l c c' v v', labelled net /\ solve units a None sol net = Ok net' /\ dget l net = Some c /\ dget l net' = Some c' /\
  found c' /\ n_off c = [] /\ wanted units c "T" v /\ In "T" (n_eqs c') /\ wanted units c' "T" v' /\ ~ v' == v.
Proof. exact unsatisfied_T. Qed.
Print Assumptions C256_temperature_refuted.
(** The same for the volumetric flow. *)
Theorem C256_flow_refuted : exists units a sol net net' l c c' v v', labelled net /\ solve units a None sol net = Ok net' /\ dget l net = Some c /\ dget l net' = Some c' /\
  found c' /\ n_off c = [] /\ wanted units c "v" v /\ In "v" (n_eqs c') /\ wanted units c' "v" v' /\ ~ v' == v.
Proof. exact unsatisfied_v. Qed.
Print Assumptions C256_flow_refuted.
